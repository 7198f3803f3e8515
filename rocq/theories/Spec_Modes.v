(** Textbook definitions of the modes of operation (NIST SP 800-38A), on lists of blocks.
    Nothing here mentions a model definition. *)
From Coq Require Import Permutation.
From Verif Require Import Base Spec_Common.
Open Scope Z_scope.

(** a block function maps 16-byte blocks to 16-byte blocks *)
Definition block_fun (f : list Z -> list Z) : Prop := forall b, length b = 16%nat -> length (f b) = 16%nat.
(** [D] undoes [E] on 16-byte blocks *)
Definition inverse_cipher (E D : list Z -> list Z) : Prop :=
  block_fun E /\ block_fun D /\ forall b, bytes b -> length b = 16%nat -> bytes (E b) /\ D (E b) = b.

Fixpoint cbc_encrypt (E : list Z -> list Z) (iv : list Z) (ps : list (list Z)) : list (list Z) :=
  match ps with [] => [] | p :: t => let c := E (xorl p iv) in c :: cbc_encrypt E c t end.
Fixpoint cbc_decrypt (D : list Z -> list Z) (iv : list Z) (cs : list (list Z)) : list (list Z) :=
  match cs with [] => [] | c :: t => xorl (D c) iv :: cbc_decrypt D c t end.

(** CFB with [r]-byte segments: the register drops its first r bytes and takes the ciphertext segment *)
Fixpoint cfb_encrypt (E : list Z -> list Z) (r : nat) (reg : list Z) (ps : list (list Z)) : list (list Z) :=
  match ps with [] => [] | p :: t =>
    let c := xorl p (firstn r (E reg)) in c :: cfb_encrypt E r (skipn r reg ++ c) t end.
Fixpoint cfb_decrypt (E : list Z -> list Z) (r : nat) (reg : list Z) (cs : list (list Z)) : list (list Z) :=
  match cs with [] => [] | c :: t =>
    xorl c (firstn r (E reg)) :: cfb_decrypt E r (skipn r reg ++ c) t end.

Fixpoint ofb_crypt (E : list Z -> list Z) (reg : list Z) (ps : list (list Z)) : list (list Z) :=
  match ps with [] => [] | p :: t => xorl p (E reg) :: ofb_crypt E (E reg) t end.

(** CTR: byte [i] of the output is byte [i] of the input xor byte [i mod 16] of the cipher image of
    block number [i / 16]; [enc n] is the 16-byte encoding of the number n modulo 2^128 *)
Definition ctr_crypt (E : list Z -> list Z) (enc : Z -> list Z) (start : Z) (msg : list Z) : list Z :=
  map (fun i => Z.lxor (nth i msg 0) (nth (i mod 16) (E (enc (start + Z.of_nat (i / 16)))) 0)) (seq 0 (length msg)).
(** blocks needed for [n] bytes *)
Definition blocks_for (n : nat) : nat := ((n + 15) / 16)%nat.

(** a well-formed parallel profile: what Initialize enforces (the parallel block size is a
    non-zero multiple of degree times block size) *)
Definition good_profile (deg pblk : nat) : Prop := exists m, (0 < m)%nat /\ (0 < deg)%nat /\ pblk = (deg * (16 * m))%nat.
(** a worker order: every worker runs once *)
Definition schedule (deg : nat) (ord : list nat) : Prop := Permutation ord (seq 0 deg).

(** The nonce-positioning hazard of the parallel counter modes: adding [d] to the counter value [x]
    meets an 0xFF byte of [d] with a carry coming in from the bytes below *)
Definition carry_into_ff (x d : Z) : Prop :=
  exists j : nat, (S j < 16)%nat /\ (d / 256 ^ Z.of_nat j) mod 256 = 255 /\
    256 ^ Z.of_nat j <= x mod 256 ^ Z.of_nat j + d mod 256 ^ Z.of_nat j.

(** A history of calls on one initialized cipher: each call reads [c_len] bytes of [c_in] at
    [c_io] and writes them to [c_out] at [c_oo]; the cipher state is threaded through. *)
Record call := Call { c_in : list Z; c_io : nat; c_out : list Z; c_oo : nat; c_len : nat }.
Fixpoint history (T : list Z -> nat -> list Z -> nat -> nat -> list Z -> res (list Z * list Z))
    (cs : list call) (st : list Z) : res (list (list Z) * list Z) :=
  match cs with
  | [] => Ok ([], st)
  | c :: t => r <- T (c_in c) (c_io c) (c_out c) (c_oo c) (c_len c) st ;;
              q <- history T t (snd r) ;; Ok (fst r :: fst q, snd q)
  end.
(** the arrays hold the windows *)
Definition fits (c : call) : Prop :=
  (c_io c + c_len c <= length (c_in c))%nat /\ (c_oo c + c_len c <= length (c_out c))%nat.
(** the bytes a call reads, and what a history writes when call k writes [ds k] *)
Definition message (c : call) : list Z := slice (c_in c) (c_io c) (c_len c).
Definition wrote (cs : list call) (outs ds : list (list Z)) : Prop :=
  length outs = length cs /\ length ds = length cs /\
  forall k c, nth_error cs k = Some c ->
    length (nth k ds []) = c_len c /\ written (c_out c) (nth k outs []) (c_oo c) (nth k ds []).
(** all the bytes a history reads, in order *)
Definition data (cs : list call) : list Z := concat (map message cs).
(** calls whose lengths are multiples of [r] *)
Definition calls_ok (r : nat) (cs : list call) : Prop := forall c, In c cs -> fits c /\ (c_len c mod r = 0)%nat.
(** cipher blocks a counter mode spends on a history *)
Fixpoint total_blocks (cs : list call) : nat := match cs with [] => 0%nat | c :: t => (blocks_for (c_len c) + total_blocks t)%nat end.
(** every call but the last is a whole number of 16-byte blocks *)
Definition aligned (cs : list call) : Prop :=
  (forall c, In c cs -> fits c) /\ forall k c, nth_error cs k = Some c -> (S k < length cs)%nat -> (c_len c mod 16 = 0)%nat.
