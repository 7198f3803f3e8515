(** The Skein hash function (Skein specification 1.3, sections 3.4 and 3.5), and the tree that CEX computes with it.
    Nothing here mentions a model definition. *)
From Verif Require Import Base Spec_ChaCha Spec_Threefish.
Open Scope Z_scope.

(** UBI types: configuration, message, output *)
Definition ty_cfg : Z := 4.
Definition ty_msg : Z := 48.
Definition ty_out : Z := 63.
(** the tweak: position (96 bits in the specification, here any modulus [W]), type, first and final flag *)
Definition tweak (W ty : Z) (first final : bool) (pos : Z) : list Z :=
  let t := pos mod W + ty * 2 ^ 120 + (if first then 2 ^ 126 else 0) + (if final then 2 ^ 127 else 0) in
  [t mod 2 ^ 64; t / 2 ^ 64].

Section skein.
Variables (F : tfish) (rounds : nat) (W : Z).
(** block and chaining value in bytes *)
Definition nb : nat := (8 * f_n F)%nat.
(** one block: encrypted under the chaining value, then xored into the result *)
Definition ubi_step (ty : Z) (first final : bool) (pos : Z) (G m : list Z) : list Z :=
  xorl (threefish F rounds G (tweak W ty first final pos) m) m.
(** the blocks of a message, the last one short and zero padded; the position counts the bytes so far *)
Fixpoint ubi_blocks (ty : Z) (first : bool) (pos : Z) (G : list Z) (bs : list (list Z)) : list Z :=
  match bs with
  | [] => G
  | [b] => ubi_step ty first true (pos + Z.of_nat (length b)) G (le_words 8 (b ++ zeros (nb - length b)))
  | b :: t => ubi_blocks ty false (pos + Z.of_nat nb) (ubi_step ty first false (pos + Z.of_nat nb) G (le_words 8 b)) t
  end.
(** UBI; an empty message is one block of zeros *)
Definition ubi (ty : Z) (G m : list Z) : list Z :=
  ubi_blocks ty true 0 G (match m with [] => [[]] | _ => chunks nb m end).
Definition to_bytes (G : list Z) : list Z := concat (map (le_bytes 8) G).
(** the output block is an 8-byte counter zero *)
Definition output (G : list Z) : list Z := ubi ty_out G (zeros 8).
(** the configuration string: schema "SHA3", version 1, output size in bits, no tree *)
Definition config : list Z := [83; 72; 65; 51] ++ le_bytes 2 1 ++ zeros 2 ++ le_bytes 8 (8 * Z.of_nat nb) ++ zeros 16.
(** Skein with state and output of nb bytes *)
Definition skein (m : list Z) : list Z := to_bytes (output (ubi ty_msg (ubi ty_cfg (zeros (f_n F)) config) m)).

(** ** with any configuration block [cfg] of nb bytes, of which 32 are counted *)
Definition chain0 (cfg : list Z) : list Z := ubi_step ty_cfg true true 32 (zeros (f_n F)) (le_words 8 cfg).
Definition skein_cfg (cfg m : list Z) : list Z := to_bytes (output (ubi ty_msg (chain0 cfg) m)).

(** ** the tree of CEX: [fan] leaves hash every [fan]-th block each, starting from different chaining values *)
Fixpoint leaf_start (cfg : list Z) (i : nat) : list Z :=
  match i with
  | O => chain0 cfg
  | S i => xorl (threefish F rounds (zeros (f_n F)) (tweak W ty_cfg true true 32) (leaf_start cfg i)) (le_words 8 cfg)
  end.
(** the blocks at [i], [i + fan], ... of the whole rounds, then what is left for leaf [i] *)
Definition leaf_part (fan i : nat) (m : list Z) : list (list Z) :=
  map (fun j => slice m ((j * fan + i) * nb) nb) (seq 0 (length m / (fan * nb))).
Definition leaf_tail (fan i : nat) (m : list Z) : list Z :=
  firstn nb (skipn ((length m / (fan * nb)) * (fan * nb) + i * nb) m).
(** whole blocks, none of them final *)
Fixpoint ubi_open (ty : Z) (first : bool) (pos : Z) (G : list Z) (bs : list (list Z)) : list Z :=
  match bs with
  | [] => G
  | b :: t => ubi_open ty false (pos + Z.of_nat nb) (ubi_step ty first false (pos + Z.of_nat nb) G (le_words 8 b)) t
  end.
(** a leaf with a tail is finished like a hash; one without stays as it is *)
Definition leaf (cfg : list Z) (fan i : nat) (m : list Z) : list Z :=
  match leaf_tail fan i m with
  | [] => ubi_open ty_msg true 0 (leaf_start cfg i) (leaf_part fan i m)
  | t => output (ubi_blocks ty_msg true 0 (leaf_start cfg i) (leaf_part fan i m ++ [t]))
  end.
(** the root hashes the bytes of the leaves: it goes on from the encrypted configuration without feeding it forward, with
    the configuration's type and position, every block being flagged final *)
Fixpoint root_blocks (first : bool) (pos : Z) (G : list Z) (bs : list (list Z)) : list Z :=
  match bs with
  | [] => G
  | b :: t => root_blocks false (pos + Z.of_nat nb) (ubi_step ty_cfg first true (pos + Z.of_nat nb) G (le_words 8 b)) t
  end.
Definition root (leaves : list (list Z)) : list Z :=
  output (root_blocks true 32 (threefish F rounds (zeros (f_n F)) (tweak W ty_cfg true true 32) (le_words 8 (config ++ zeros (nb - 32)))) leaves).
Definition skein_tree (cfg : list Z) (fan : nat) (m : list Z) : list Z :=
  to_bytes (root (map (fun i => to_bytes (leaf cfg fan i m)) (seq 0 fan))).
End skein.
