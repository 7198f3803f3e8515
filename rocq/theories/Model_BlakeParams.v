(** Model of the serialization, comparison and copying of CEX/BlakeParams.cpp (the fields, the validating constructor and
    GetConfig are in Model_Blake.v). *)
From Verif Require Import Base Model_IntegerTools Model_Blake.
Open Scope Z_scope.

(** BlakeParams.cpp:9-21 BlakeParams() *)
Definition BlakeParams_default : bparams := BParams 0 0 0 0 0 0 0 0 0 [].
(** BlakeParams.cpp:48-77 BlakeParams(TreeArray); the memcpy calls of one byte are reads of one element *)
Definition BlakeParams_bytes (t : list Z) : res bparams :=
  _ <- guard ((length t =? 32) || (length t =? 64))%nat IllegalOperation ;;
  out <- get t 0 ;; key <- get t 1 ;; fan <- get t 2 ;; depth <- get t 3 ;;
  leaf <- LeBytesTo32 t 4 ;;
  noff <- get t 8 ;; ndepth <- get t 9 ;; inner <- get t 10 ;; reserved <- get t 11 ;;
  dst <- rd t 12 (DistributionCodeMax out) ;;
  Ok (BParams out key fan depth leaf noff ndepth inner reserved dst).
(** BlakeParams.cpp:194-197 GetHeaderSize *)
Definition GetHeaderSize (p : bparams) : nat := Z.to_nat (p_out p).
(** BlakeParams.cpp:213-229 ToBytes *)
Definition BlakeParams_ToBytes (p : bparams) : res (list Z) :=
  let t := zeros (GetHeaderSize p) in
  t <- put t 0 (p_out p) ;; t <- put t 1 (p_key p) ;; t <- put t 2 (p_fan p) ;; t <- put t 3 (p_depth p) ;;
  t <- Le32ToBytes (p_leaf p) t 4 ;;
  t <- put t 8 (p_noff p) ;; t <- put t 9 (p_ndepth p) ;; t <- put t 10 (p_inner p) ;; t <- put t 11 (p_res p) ;;
  wr t 12 (p_dst p).
(** BlakeParams.cpp:154-163 Clone, DeepCopy *)
Definition BlakeParams_Clone (p : bparams) : res bparams := t <- BlakeParams_ToBytes p ;; BlakeParams_bytes t.
(** int addition: overflow is undefined *)
Definition add_int (a b : Z) : res Z := _ <- safe (a + b <? 2 ^ 31) ;; Ok (a + b).
(** conversion to int32_t *)
Definition to_int (x : Z) : Z := let y := u32 x in if y <? 2 ^ 31 then y else y - 2 ^ 32.
(** BlakeParams.cpp:170-192 GetHashCode: uint8_t fields are promoted to int; LeafLength is a uint32_t, so that addition is
    unsigned and the sum is converted back *)
Definition BlakeParams_GetHashCode (p : bparams) : res Z :=
  r <- add_int (31 * p_out p) (31 * p_key p) ;;
  r <- add_int r (31 * p_fan p) ;;
  r <- add_int r (31 * p_depth p) ;;
  let r := to_int (r + 31 * p_leaf p) in
  r <- add_int r (31 * p_noff p) ;;
  r <- add_int r (31 * p_ndepth p) ;;
  r <- add_int r (31 * p_inner p) ;;
  r <- add_int r (31 * p_res p) ;;
  for_up 0 (length (p_dst p)) (fun i r => d <- get (p_dst p) i ;; add_int r (31 * d)) r.
(** BlakeParams.cpp:165-168 Equals *)
Definition BlakeParams_Equals (p q : bparams) : res bool :=
  a <- BlakeParams_GetHashCode p ;; b <- BlakeParams_GetHashCode q ;; Ok (a =? b).
(** BlakeParams.cpp:199-211 Reset *)
Definition BlakeParams_Reset (p : bparams) : bparams := BParams 0 0 0 0 0 0 0 0 0 (zeros (length (p_dst p))).
