(** C56: the BLAKE2 parameter block *)
From Verif Require Import Base Model_Blake Model_BlakeParams Spec_BlakeParams ProofsP_BlakeParams.
Open Scope Z_scope.

(** C56: ToBytes writes the parameter block, filled with zeros up to the output size *)
Theorem C56_format : forall p : bparams,
  (for_2s p -> BlakeParams_ToBytes p = Ok (block_of p ++ zeros 8)) /\ (for_2b p -> BlakeParams_ToBytes p = Ok (block_of p ++ zeros 12)).
Proof. exact c56_format. Qed.
Print Assumptions C56_format.

(** C56: the constructor from bytes gives the same parameters back *)
Theorem C56_round_trip : forall (p : bparams) (t : list Z), for_2s p \/ for_2b p ->
  BlakeParams_ToBytes p = Ok t -> BlakeParams_bytes t = Ok p.
Proof. exact c56_round_trip. Qed.
Print Assumptions C56_round_trip.

(** C56: Clone and DeepCopy are exact copies *)
Theorem C56_clone : forall p : bparams, for_2s p \/ for_2b p -> BlakeParams_Clone p = Ok p.
Proof. exact c56_clone. Qed.
Print Assumptions C56_clone.
Example C56_case :
  let p := BParams 32 0 8 2 70000 3 1 32 9 [1; 2; 3; 4; 5; 6; 7; 8; 9; 10; 11; 12] in
  for_2s p /\ BlakeParams_ToBytes p = Ok [32; 0; 8; 2; 112; 17; 1; 0; 3; 1; 32; 9; 1; 2; 3; 4; 5; 6; 7; 8; 9; 10; 11; 12; 0; 0; 0; 0; 0; 0; 0; 0] /\
  BlakeParams_Clone p = Ok p.
Proof.
  split; [|split; reflexivity]. split; [|split; reflexivity]. split; [|split].
  - repeat constructor; discriminate.
  - split; [discriminate | reflexivity].
  - repeat constructor; discriminate.
Qed.

(** C56: every byte string.  One of a wrong length is refused, 32 bytes whose first byte is not 32 are read out of bounds,
    and every other string is the block of the parameters it gives, followed by bytes that are ignored *)
Theorem C56_every_string : forall t : list Z, bytes t ->
  (BlakeParams_bytes t = Throw IllegalOperation <-> length t <> 32%nat /\ length t <> 64%nat) /\
  (BlakeParams_bytes t = UB <-> length t = 32%nat /\ nth 0 t 0 <> 32) /\
  (forall p, BlakeParams_bytes t = Ok p ->
     fields_ok p /\ length (p_dst p) = (if p_out p =? 32 then 12%nat else 40%nat) /\ exists rest, t = block_of p ++ rest).
Proof. exact c56_parse. Qed.
Print Assumptions C56_every_string.
Example C56_every_string_case :
  BlakeParams_bytes (64 :: zeros 31) = UB /\ BlakeParams_bytes (zeros 48) = Throw IllegalOperation /\
  BlakeParams_bytes ([32; 0; 1; 1; 5; 1; 0; 0; 7; 8; 9; 10] ++ repeat 3 20) = Ok (BParams 32 0 1 1 261 7 8 9 10 (repeat 3 12)).
Proof. repeat split. Qed.

(** C56: parameters with another output size (the default constructor, Reset, the constructor that takes every field) can
    not be serialized: ToBytes writes out of bounds, or Clone throws *)
Theorem C56_other_sizes_refuted : forall p : bparams,
  BlakeParams_ToBytes BlakeParams_default = UB /\ BlakeParams_ToBytes (BlakeParams_Reset p) = UB /\
  (p_out p <> 32 -> p_out p <> 64 -> is_byte (p_out p) -> length (p_dst p) = 40%nat ->
    (p_out p < 52 -> BlakeParams_ToBytes p = UB) /\
    (52 <= p_out p -> exists t, BlakeParams_ToBytes p = Ok t /\ BlakeParams_Clone p = Throw IllegalOperation)).
Proof. intros p. split; [reflexivity|]. split; [exact (c56_reset p)|]. exact (c56_other p). Qed.
Print Assumptions C56_other_sizes_refuted.
Example C56_other_sizes_case : BlakeParams_ToBytes (BlakeParams_full 48 0 1 1 0 0 0 0 []) = UB /\
  BlakeParams_Clone (BlakeParams_full 100 0 1 1 0 0 0 0 []) = Throw IllegalOperation.
Proof. split; reflexivity. Qed.

(** C56: Equals compares the sums of all fields ... *)
Theorem C56_equals : forall p q : bparams, fields_ok p -> fields_ok q -> p_leaf p <= 2 ^ 26 -> p_leaf q <= 2 ^ 26 ->
  (length (p_dst p) <= 40)%nat -> (length (p_dst q) <= 40)%nat ->
  BlakeParams_Equals p q = Ok (sum_of [p_out p; p_key p; p_fan p; p_depth p; p_leaf p; p_noff p; p_ndepth p; p_inner p; p_res p] + sum_of (p_dst p)
    =? sum_of [p_out q; p_key q; p_fan q; p_depth q; p_leaf q; p_noff q; p_ndepth q; p_inner q; p_res q] + sum_of (p_dst q)).
Proof. exact c56_equals. Qed.
Print Assumptions C56_equals.

(** C56: ... so that it holds for different parameters: exchanging the key length and the fanout is not noticed *)
Theorem C56_equals_refuted : forall p : bparams, fields_ok p -> p_leaf p <= 2 ^ 26 -> (length (p_dst p) <= 40)%nat ->
  BlakeParams_Equals p (BParams (p_out p) (p_fan p) (p_key p) (p_depth p) (p_leaf p) (p_noff p) (p_ndepth p) (p_inner p) (p_res p) (p_dst p)) = Ok true.
Proof. exact c56_equals_refuted. Qed.
Print Assumptions C56_equals_refuted.
Example C56_equals_case :
  BlakeParams_Equals (BParams 32 16 1 1 0 0 0 0 0 (zeros 12)) (BParams 32 1 16 1 0 0 0 0 0 (zeros 12)) = Ok true /\
  BlakeParams_Equals (BParams 32 16 1 1 0 0 0 0 0 (zeros 12)) (BParams 32 16 2 1 0 0 0 0 0 (zeros 12)) = Ok false.
Proof. split; reflexivity. Qed.

(** C56: GetHashCode overflows an int for some leaf lengths *)
Theorem C56_hash_overflow_refuted : forall p : bparams,
  p_out p = 32 -> p_key p = 0 -> p_fan p = 1 -> p_depth p = 1 -> p_leaf p = 3255862271 -> 1 <= p_noff p -> BlakeParams_GetHashCode p = UB.
Proof. exact c56_hash_ub. Qed.
Print Assumptions C56_hash_overflow_refuted.
Example C56_hash_overflow_case : is_word 32 3255862271 /\ BlakeParams_GetHashCode (BlakeParams_full 32 0 1 1 3255862271 1 0 0 []) = UB /\
  BlakeParams_GetHashCode (BlakeParams_full 32 0 1 1 0 1 0 0 []) = Ok (31 * 35).
Proof. split; [split; [discriminate | reflexivity]|]. split; reflexivity. Qed.
