(** What the serialization of BlakeParams should be: the parameter block of RFC 7693 section 2.8 in CEX's layout, and when
    two parameter sets are the same. *)
From Verif Require Import Base Model_Blake.
Open Scope Z_scope.

(** every field is in the range of its type *)
Definition fields_ok (p : bparams) : Prop :=
  Forall is_byte [p_out p; p_key p; p_fan p; p_depth p; p_noff p; p_ndepth p; p_inner p; p_res p] /\
  is_word 32 (p_leaf p) /\ bytes (p_dst p).
(** a parameter set of BLAKE2s (32 byte output, 12 byte distribution code) or BLAKE2b (64, 40) *)
Definition for_2s (p : bparams) : Prop := fields_ok p /\ p_out p = 32 /\ length (p_dst p) = 12%nat.
Definition for_2b (p : bparams) : Prop := fields_ok p /\ p_out p = 64 /\ length (p_dst p) = 40%nat.
(** the block: four bytes, the leaf length, four bytes, the distribution code *)
Definition block_of (p : bparams) : list Z :=
  [p_out p; p_key p; p_fan p; p_depth p] ++ le_bytes 4 (p_leaf p) ++ [p_noff p; p_ndepth p; p_inner p; p_res p] ++ p_dst p.
(** the sum of everything *)
Definition sum_of (l : list Z) : Z := fold_right Z.add 0 l.
