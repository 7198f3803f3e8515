(** The parameter block of BLAKE2 (RFC 7693 2.5 and 2.8, the tree fields of the BLAKE2 paper, 2.10), as bytes. *)
From Verif Require Import Base Model_Blake.
Open Scope Z_scope.

(** the fields of BlakeParams have the range of their C++ type: one byte each, the leaf length 32 bits, [d] bytes of distribution code *)
Definition params_ok (d : nat) (p : bparams) : Prop :=
  Forall is_byte [p_out p; p_key p; p_fan p; p_depth p; p_noff p; p_ndepth p; p_inner p; p_res p] /\ 0 <= p_leaf p < 2 ^ 32 /\
  length (p_dst p) = d.
(** digest length, key length, fanout, depth; leaf length; node offset (6 bytes); node depth, inner length; the last 16 bytes *)
Definition block256 (p : bparams) : list Z :=
  [p_out p; p_key p; p_fan p; p_depth p] ++ le_bytes 4 (p_leaf p) ++ [p_noff p; 0; 0; 0; 0; 0] ++ [p_ndepth p; p_inner p] ++ [p_res p; 0; 0; 0] ++ p_dst p.
(** digest length, key length, fanout, depth; leaf length; node offset (8 bytes); node depth, inner length; the last 46 bytes *)
Definition block512 (p : bparams) : list Z :=
  [p_out p; p_key p; p_fan p; p_depth p] ++ le_bytes 4 (p_leaf p) ++ [p_noff p; 0; 0; 0; 0; 0; 0; 0] ++ [p_ndepth p; p_inner p] ++ [p_res p; 0; 0; 0; 0; 0] ++ p_dst p.
