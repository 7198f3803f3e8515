(** Model of CEX/GCM.cpp.

    [E key block] is the keyed block cipher (arbitrary); [sizes] the legal key sizes; [s], [p], [ord]
    as in Model_Modes (SIMD width, parallel profile, worker order).  Not modelled: the parallel
    profile checks of Initialize (:199-209) and its hand-over to the CTR mode (:270) - the profile
    [p] is the one in force; the object state after an exception thrown by Initialize or
    SetAssociatedData; the std::string/exception text. *)
From Verif Require Import Base Model_IntegerTools Model_Modes Model_GHASH.
Open Scope Z_scope.

(** GCM.cpp:12-60 GcmState, with the GHASH state and the CTR mode state (its counter, the key the
    engine was initialized with, IsInitialized) *)
Record gcm := {
  g_aad : list Z; g_buf : list Z; g_key : list Z; g_nonce : list Z; g_tag : list Z; g_count : nat;
  g_enc : bool; g_init : bool; g_gh : ghash; g_ctr : list Z; g_ekey : list Z; g_cinit : bool }.
(** GCM.cpp:27-40, 64-83 the constructors *)
Definition GCM_new : gcm :=
  {| g_aad := []; g_buf := []; g_key := []; g_nonce := zeros 16; g_tag := zeros 16; g_count := 0;
     g_enc := false; g_init := false; g_gh := GHASH_Reset; g_ctr := zeros 16; g_ekey := []; g_cinit := false |}.

Definition same_bytes (a b : list Z) : bool := if list_eq_dec Z.eq_dec a b then true else false.
(** SymmetricKeySize::Contains on the key size *)
Definition legal (sizes : list nat) (k : list Z) : bool := existsb (Nat.eqb (length k)) sizes.

(** GCM.cpp:211-246 Initialize: the key part; yields the GHASH state and the stored key (the key the engine holds) *)
Definition gcm_load_key (sizes : list nat) (E : list Z -> list Z -> list Z) (g : gcm) (gh : ghash) (buf key iv : list Z) : res (ghash * list Z) :=
  if (length key =? 0)%nat then
    _ <- guard (negb (same_bytes iv buf)) InvalidNonce ;;
    _ <- guard (g_cinit g) IllegalOperation ;;
    Ok (gh, g_key g)
  else
    _ <- guard (legal sizes key) InvalidKey ;;
    tmph <- blk (E key) (zeros 16) 0 (zeros 16) 0 ;;
    k0 <- BeBytesTo64 tmph 0 ;; k1 <- BeBytesTo64 tmph 8 ;;
    Ok (GHASH_Initialize gh (k0, k1), key).
(** GCM.cpp:253-265 Initialize: the CTR nonce *)
Definition gcm_load_nonce (gh : ghash) (nonce iv : list Z) : res (ghash * list Z) :=
  if (length iv =? 12)%nat then
    n <- wcopy iv 0 nonce 0 (length iv) ;;
    n <- put n 15 1 ;;
    Ok (gh, n)
  else
    tmpn <- GHASH_Multiply gh iv (zeros 16) (length iv) ;;
    st <- GHASH_Finalize gh tmpn 0 (length iv) ;;
    let '(gh, tmpn) := st in
    n <- wcopy tmpn 0 nonce 0 (length nonce) ;;
    Ok (gh, n).
(** GCM.cpp:185-279 Initialize(Encryption, Parameters) with Parameters = (key, iv) *)
Definition GCM_Initialize (sizes : list nat) (E : list Z -> list Z -> list Z) (s : nat) (p : prof) (ord : nat -> list nat)
    (g : gcm) (enc : bool) (key iv : list Z) : res gcm :=
  let aad := zeros (length (g_aad g)) in
  let gh := GHASH_Reset in
  let buf := zeros (length (g_buf g)) in
  let tag := zeros (length (g_tag g)) in
  _ <- guard (8 <=? length iv)%nat InvalidNonce ;;
  st <- gcm_load_key sizes E g gh buf key iv ;;
  let '(gh, gkey) := st in
  st <- gcm_load_nonce gh (g_nonce g) iv ;;
  let '(gh, nonce) := st in
  (* m_cipherMode->Initialize(true, ckp): CTR.cpp:185-213 *)
  _ <- guard (legal sizes gkey) InvalidKey ;;
  _ <- guard (length nonce =? 16)%nat InvalidNonce ;;
  ctr <- wcopy nonce 0 (g_ctr g) 0 (length (g_ctr g)) ;;
  st <- CTR_Transform (E gkey) s p ord (Some (zeros 16)) 0 nonce 0 16 ctr ;;
  let '(nonce, ctr) := st in
  Ok {| g_aad := aad; g_buf := iv; g_key := gkey; g_nonce := nonce; g_tag := tag; g_count := 0;
        g_enc := enc; g_init := true; g_gh := gh; g_ctr := ctr; g_ekey := gkey; g_cinit := true |}.
(** GCM.cpp:291-305, 307-321 SetAssociatedData *)
Definition GCM_SetAssociatedData (g : gcm) (inp : list Z) (off len : nat) : res gcm :=
  _ <- guard (g_init g) NotInitialized ;;
  _ <- guard (length (g_aad g) =? 0)%nat IllegalOperation ;;
  aad <- rd inp off len ;;
  tag <- GHASH_Multiply (g_gh g) aad (g_tag g) len ;;
  Ok {| g_aad := aad; g_buf := g_buf g; g_key := g_key g; g_nonce := g_nonce g; g_tag := tag; g_count := g_count g;
        g_enc := g_enc g; g_init := g_init g; g_gh := g_gh g; g_ctr := g_ctr g; g_ekey := g_ekey g; g_cinit := g_cinit g |}.
(** GCM.cpp:356-385 Finalize(Output, OutOffset, Length); the option is the exception thrown *)
Definition gcm_finalize (g : gcm) (out : list Z) (oo len : nat) : res (gcm * list Z * option err) :=
  if ((len <? 12) || (16 <? len))%nat then Ok (g, out, Some InvalidSize)
  else if negb (g_init g) then Ok (g, out, Some NotInitialized)
  else
    st <- GHASH_Finalize (g_gh g) (g_tag g) (length (g_aad g)) (g_count g) ;;
    let '(gh, tag) := st in
    tag <- wxor (g_nonce g) 0 tag 0 16 ;;
    out <- wcopy tag 0 out oo len ;;
    Ok ({| g_aad := []; g_buf := g_buf g; g_key := g_key g; g_nonce := zeros (length (g_nonce g)); g_tag := tag; g_count := 0;
           g_enc := g_enc g; g_init := false; g_gh := GHASH_Clear gh; g_ctr := g_ctr g; g_ekey := g_ekey g; g_cinit := g_cinit g |}, out, None).
Definition gcm_set_tag (g : gcm) (tag : list Z) : gcm :=
  {| g_aad := g_aad g; g_buf := g_buf g; g_key := g_key g; g_nonce := g_nonce g; g_tag := tag; g_count := g_count g;
     g_enc := g_enc g; g_init := g_init g; g_gh := g_gh g; g_ctr := g_ctr g; g_ekey := g_ekey g; g_cinit := g_cinit g |}.
Definition gcm_set_ctr (g : gcm) (ctr : list Z) : gcm :=
  {| g_aad := g_aad g; g_buf := g_buf g; g_key := g_key g; g_nonce := g_nonce g; g_tag := g_tag g; g_count := g_count g;
     g_enc := g_enc g; g_init := g_init g; g_gh := g_gh g; g_ctr := ctr; g_ekey := g_ekey g; g_cinit := g_cinit g |}.
(** GCM.cpp:387-408 Verify(Input, Offset, Length) *)
Definition gcm_verify (g : gcm) (inp : list Z) (off len : nat) : res (gcm * bool * option err) :=
  st <- gcm_finalize g (zeros 16) 0 16 ;;
  let '(g, code, e) := st in
  match e with
  | Some e => Ok (g, false, Some e)
  | None =>
    let g := gcm_set_tag g (zeros 16) in
    ret <- Compare code 0 inp off len ;;
    Ok (if ret then gcm_set_tag g code else g, ret, None)
  end.
(** the state after [Counter += Length] and an Update *)
Definition gcm_absorb (g : gcm) (len : nat) (gh : ghash) (tag : list Z) : gcm :=
  {| g_aad := g_aad g; g_buf := g_buf g; g_key := g_key g; g_nonce := g_nonce g; g_tag := tag; g_count := (g_count g + len)%nat;
     g_enc := g_enc g; g_init := g_init g; g_gh := gh; g_ctr := g_ctr g; g_ekey := g_ekey g; g_cinit := g_cinit g |}.
(** GCM.cpp:323-352 Transform; [inp = None] when Input and Output are the same array; the result is
    the object, the output array and the exception thrown, if any *)
Definition GCM_Transform (E : list Z -> list Z -> list Z) (s : nat) (p : prof) (ord : nat -> list nat)
    (g : gcm) (inp : option (list Z)) (io : nat) (out : list Z) (oo len : nat) : res (gcm * list Z * option err) :=
  if g_enc g then
    st <- CTR_Transform (E (g_ekey g)) s p ord inp io out oo len (g_ctr g) ;;
    let '(out, ctr) := st in
    st <- GHASH_Update (g_gh g) out oo (g_tag g) len ;;
    let '(gh, tag) := st in
    gcm_finalize (gcm_set_ctr (gcm_absorb g len gh tag) ctr) out (oo + len) 16
  else
    st <- GHASH_Update (g_gh g) (src inp out) io (g_tag g) len ;;
    let '(gh, tag) := st in
    st <- gcm_verify (gcm_absorb g len gh tag) (src inp out) (io + len) 16 ;;
    let '(g, ok, e) := st in
    match e with
    | Some e => Ok (g, out, Some e)
    | None =>
      if negb ok then Ok (g, out, Some AuthenticationFailure)
      else
        st <- CTR_Transform (E (g_ekey g)) s p ord inp io out oo len (g_ctr g) ;;
        let '(out, ctr) := st in
        Ok (gcm_set_ctr g ctr, out, None)
    end.
