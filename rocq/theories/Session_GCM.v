(** Complete GCM sessions, as a caller performs them, in terms of the modelled API calls. *)
From Verif Require Import Base Spec_Modes Spec_Feed Model_IntegerTools Model_Modes Model_GHASH Model_GCM.

(** associated data: not set, or the window (array, offset, length) given to SetAssociatedData *)
Definition ad_bytes (ad : option (list Z * nat * nat)) : list Z :=
  match ad with None => [] | Some (a, o, n) => slice a o n end.
Definition ad_ok (ad : option (list Z * nat * nat)) : Prop :=
  match ad with None => True | Some (a, o, n) => bytes a /\ (o + n <= length a)%nat end /\ (Z.of_nat (length (ad_bytes ad)) < 2 ^ 61)%Z.
Definition gcm_set_ad (g : gcm) (ad : option (list Z * nat * nat)) : res gcm :=
  match ad with None => Ok g | Some (a, o, n) => GCM_SetAssociatedData g a o n end.
(** Initialize(enc, (key, iv)); SetAssociatedData(ad); Transform(inp, io, out, oo, len), on distinct
    arrays; the result is the object, the output array, and the exception thrown by Transform *)
Definition gcm_session sizes E s p ord (g : gcm) (enc : bool) (key iv : list Z) (ad : option (list Z * nat * nat))
    (inp : list Z) (io : nat) (out : list Z) (oo len : nat) : res (gcm * list Z * option err) :=
  g <- GCM_Initialize sizes E s p ord g enc key iv ;;
  g <- gcm_set_ad g ad ;;
  GCM_Transform E s p ord g (Some inp) io out oo len.
(** legal sizes and windows of a session; the output has room for the 16-byte tag when encrypting,
    the input carries it when decrypting *)
Definition session_ok (enc : bool) (iv : list Z) (ad : option (list Z * nat * nat)) (inp : list Z) (io : nat) (out : list Z) (oo len : nat) : Prop :=
  bytes iv /\ (8 <= length iv)%nat /\ (Z.of_nat (length iv) < 2 ^ 61)%Z /\ ad_ok ad /\ bytes inp /\ bytes out /\ (Z.of_nat len < 2 ^ 61)%Z /\
  (if enc then (io + len <= length inp)%nat /\ (oo + len + 16 <= length out)%nat
   else (io + len + 16 <= length inp)%nat /\ (oo + len <= length out)%nat).
(** the objects a caller can hold between sessions: new ones, and those left by any sequence of
    sessions, with or without a key, encrypting or decrypting, successful or not *)
Inductive gcm_ready sizes E s p ord : gcm -> Prop :=
| ready_new : gcm_ready sizes E s p ord GCM_new
| ready_after g enc key iv ad inp io out oo len g' out' e :
    gcm_ready sizes E s p ord g -> session_ok enc iv ad inp io out oo len ->
    gcm_session sizes E s p ord g enc key iv ad inp io out oo len = Ok (g', out', e) ->
    gcm_ready sizes E s p ord g'.
(** the pre-counter block after an initialization without a key *)
Definition keyless_j0 (iv : list Z) : list Z := if (length iv =? 12)%nat then iv ++ [0; 0; 0; 1]%Z else zeros 16.

(** a complete use of GHASH: the key words from the 16-byte hash key, Multiply over the associated
    data, Update for every piece, Finalize; the result is the 16-byte tag *)
Definition ghash_run (h : list Z) (aad : list Z) (ps : list piece) : res (list Z) :=
  k0 <- BeBytesTo64 h 0 ;; k1 <- BeBytesTo64 h 8 ;;
  let g := GHASH_Initialize GHASH_Reset (k0, k1) in
  tag <- GHASH_Multiply g aad (zeros 16) (length aad) ;;
  st <- feed (fun st inp io len => GHASH_Update (fst st) inp io (snd st) len) ps (g, tag) ;;
  r <- GHASH_Finalize (fst st) (snd st) (length aad) (length (joined ps)) ;;
  Ok (snd r).
