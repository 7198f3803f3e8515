(** The parallel MAC as a function, from the sponge of Spec_Keccak with 12 rounds: eight sponges share the message, their
    states are hashed by a ninth.  No model definition is used here. *)
From Verif Require Import Base Spec_Keccak.
Open Scope Z_scope.

(** zeros up to the next multiple of [w] *)
Definition zero_fill (w : nat) (m : list Z) : list Z := m ++ zeros ((w - length m mod w) mod w).
(** the rate is chosen by the size of the key *)
Definition kpa_rate (key : list Z) : nat := (if length key =? 16 then 168 else if length key =? 32 then 136 else 72)%nat.
(** bytes of each leaf that the root absorbs *)
Definition kpa_hash (rate : nat) : nat := (if rate =? 136 then 32 else 64)%nat.
(** the name of leaf [i]: its number from 1, then "KBA", AD, "12", as one number *)
Definition leaf_name (i : nat) : Z := be_val [0; Z.of_nat i + 1; 0x4B; 0x42; 0x41; 0xAD; 0x31; 0x32].
(** what the salt and the key leave in a sponge *)
Definition kpa_keyed (key salt : list Z) : list Z :=
  let r := kpa_rate key in
  absorb (keccak 12) r zero_state ((match salt with [] => [] | _ => bytepad (encode_string salt) r end) ++ bytepad (encode_string key) r).
(** the leaves before the first message *)
Definition kpa_start (key salt : list Z) : list (list Z) :=
  map (fun i => keccak 12 (xor_lanes (kpa_keyed key salt) (leaf_name i :: zeros 24))) (seq 0 8).
(** the part of the message that leaf [i] absorbs: the i-th block of [rate] bytes out of every eight *)
Definition leaf_part (rate i : nat) (m : list Z) : list Z := concat (map (fun b => slice b (i * rate) rate) (chunks (rate * 8) m)).
(** the leaves after the message [m] *)
Definition kpa_leaves (rate : nat) (A : list (list Z)) (m : list Z) : list (list Z) :=
  map (fun p => absorb (keccak 12) rate (snd p) (leaf_part rate (fst p) (zero_fill (rate * 8) m))) (combine (seq 0 8) A).
(** the root: the leaf hashes, the number of output bits, the number of message bits; domain byte 41 *)
Definition kpa_root (rate : nat) (A : list (list Z)) (total n : nat) : list Z :=
  sponge (keccak 12) rate zero_state 0x41
    (zero_fill rate (concat (map (fun st => firstn (kpa_hash rate) (lane_bytes st)) A)) ++
     right_encode (8 * Z.of_nat n) ++ right_encode (8 * Z.of_nat total)) n.
(** [n] bytes of tag for the message [m] when the leaves start from [A] *)
Definition kpa_tag (rate : nat) (A : list (list Z)) (m : list Z) (n : nat) : list Z := kpa_root rate (kpa_leaves rate A m) (length m) n.
(** the tag of a message under a key and a salt *)
Definition kpa_mac (key salt m : list Z) (n : nat) : list Z := kpa_tag (kpa_rate key) (kpa_start key salt) m n.
