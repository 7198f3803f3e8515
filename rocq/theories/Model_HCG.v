(** Model of CEX/HCG.cpp, the HMAC based random generator, over an arbitrary digest object. *)
From Verif Require Import Base Model_IntegerTools Model_Modes Model_Absorb Model_HMAC Model_CSG.
Open Scope Z_scope.

(** HCG.cpp:125 the digests that the constructor with an IDigest pointer accepts; Digests.h *)
Inductive digest_name := D_Blake256 | D_Blake512 | D_SHA2256 | D_SHA2512 | D_SHA3256 | D_SHA3512 | D_SHAKE128 | D_SHAKE256 | D_SHAKE512 | D_Skein256 | D_Skein512 | D_Skein1024.
Definition is_SHA2256 (d : digest_name) : bool := match d with D_SHA2256 => true | _ => false end.
Definition is_SHA2512 (d : digest_name) : bool := match d with D_SHA2512 => true | _ => false end.
Definition HCG_pointer_accepts (d : digest_name) : bool := is_SHA2256 d || negb (is_SHA2512 d).

(** HCG.cpp:82 Name() with the enumeration constructor: "HCG-" and the name of the digest, as bytes *)
Definition HCG_name256 : list Z := [0x48; 0x43; 0x47; 0x2D; 0x53; 0x48; 0x41; 0x32; 0x32; 0x35; 0x36].
Definition HCG_name512 : list Z := [0x48; 0x43; 0x47; 0x2D; 0x53; 0x48; 0x41; 0x32; 0x35; 0x31; 0x32].

Section hcg.
Context {D : Type} (rate n : nat) (dupd : D -> list Z -> nat -> nat -> res D) (dfin : D -> list Z -> nat -> res (D * list Z)) (dnew : D) (name : list Z).
(** HCG.cpp:18-74 HcgState with the HMAC object; Rate is a parameter, and Strength is [HCG_strength].  [hc_calls] counts the
    calls of the provider *)
Record hcg := Hcg { hc_mac : hmac_obj D; hc_nonce : list Z; hc_code : list Z; hc_buf : list Z; hc_cached : nat; hc_counter : Z; hc_reseed : Z; hc_ready : bool; hc_calls : nat }.
(** HCG.cpp:42 *)
Definition HCG_strength : nat := ((rate / 4) * 8)%nat.
(** the constructor :78-103, with :36-46 *)
Definition HCG_new : hcg := Hcg (HMAC_new rate dnew) (zeros 8) [] (zeros (rate / 2)) 0 0 0 false 0.
(** HCG.cpp:64-73 Reset: IsInitialized is left *)
Definition HCG_Reset (o : hcg) : hcg := Hcg (hc_mac o) (zeros (length (hc_nonce o))) [] (zeros (length (hc_buf o))) 0 0 0 (hc_ready o) (hc_calls o).
(** an Initialize of the HMAC whose refusal would be an exception of the caller *)
Definition HCG_rekey (m : hmac_obj D) (key : list Z) : res (hmac_obj D) :=
  r <- HMAC_Initialize rate n dupd dfin dnew m key ;;
  match snd r with Some e => Throw e | None => Ok (fst r) end.
(** HCG.cpp:414-427 Fill without the assignment to Cached; IntegerTools.h:996-1027 BeIncrease8(Output, Value) is
    the loop of BeIncrease8(Input, Output, Value) on one array, with a uint32_t value *)
Definition HCG_fill (code : list Z) (c : hmac_obj D * list Z) (buf : list Z) : res (hmac_obj D * list Z * list Z) :=
  let '(m, nonce) := c in
  m <- HMAC_Update dupd m buf 0 (length buf) ;;
  m <- HMAC_Update dupd m code 0 (length code) ;;
  nonce <- BeIncrease8 4 nonce nonce (u32 (Z.of_nat rate)) ;;
  m <- HMAC_Update dupd m nonce 0 (length nonce) ;;
  r <- HMAC_Finalize n dupd dfin m buf 0 ;;
  Ok (fst r, nonce, snd r).
(** Fill on the object *)
Definition HCG_Fill (o : hcg) : res hcg :=
  r <- HCG_fill (hc_code o) (hc_mac o, hc_nonce o) (hc_buf o) ;;
  let '(m, nonce, buf) := r in
  Ok (Hcg m nonce (hc_code o) buf (length buf) (hc_counter o) (hc_reseed o) (hc_ready o) (hc_calls o)).
Definition set_mac (o : hcg) (m : hmac_obj D) : hcg :=
  Hcg m (hc_nonce o) (hc_code o) (hc_buf o) (hc_cached o) (hc_counter o) (hc_reseed o) (hc_ready o) (hc_calls o).
(** the common end of Update :321-334 and Derive :354-367: the second half of the new key, the new key, a new block *)
Definition HCG_renew (o : hcg) (tmpk : list Z) : res hcg :=
  o <- HCG_Fill o ;;
  m <- HMAC_Update dupd (hc_mac o) (hc_buf o) 0 (length (hc_buf o)) ;;
  r <- HMAC_Finalize n dupd dfin m tmpk (length tmpk / 2) ;;
  m <- HCG_rekey (fst r) (snd r) ;;
  HCG_Fill (set_mac o m).

(** [prov]: the random provider if there is one; its k-th call for n bytes gives [f k n].
    [thr]: ReseedThreshold().  CyclicReseed() is always false (DrbgBase.cpp:12, no setter) *)
Context (prov : option (nat -> nat -> list Z)) (thr : Z).
(** HCG.cpp:347-368 Derive *)
Definition HCG_Derive (f : nat -> nat -> list Z) (o : hcg) : res hcg :=
  let tmpk := zeros rate in
  tmpk <- wr tmpk 0 (f (hc_calls o) (length tmpk / 2)%nat) ;;
  HCG_renew (Hcg (hc_mac o) (hc_nonce o) (hc_code o) (hc_buf o) (hc_cached o) (hc_counter o) (hc_reseed o) (hc_ready o) (S (hc_calls o))) tmpk.
(** HCG.cpp:195-234 Generate(std::vector Output, OutOffset, Length); MAX_REQUEST 102400000, MaxReseedCount 10000.
    370-412 Expand is [Expand] of Model_CSG.v.  The SecureVector form :236-246 goes through a temporary of Length
    bytes.  The result is the object, the exception if one was thrown after Expand, and Output *)
Definition HCG_Generate (o : hcg) (out : list Z) (oo len : nat) : res (hcg * option err * list Z) :=
  _ <- guard (hc_ready o) NotInitialized ;;
  _ <- guard (negb ((oo <=? length out)%nat && (length out - oo <? len)%nat)) InvalidSize ;;
  _ <- guard (Z.of_nat len <=? 102400000) MaxExceeded ;;
  r <- Expand (HCG_fill (hc_code o)) (hc_mac o, hc_nonce o) (hc_buf o) (hc_cached o) out oo len ;;
  let '(m, nonce, buf, cached, out) := r in
  match prov with
  | None => Ok (Hcg m nonce (hc_code o) buf cached (hc_counter o) (hc_reseed o) (hc_ready o) (hc_calls o), None, out)
  | Some f =>
    let counter := hc_counter o + Z.of_nat len in
    if thr <=? counter then
      let o := Hcg m nonce (hc_code o) buf cached counter (hc_reseed o + 1) (hc_ready o) (hc_calls o) in
      if 10000 <? hc_reseed o then Ok (o, Some MaxExceeded, out) else
      o <- HCG_Derive f o ;;
      Ok (Hcg (hc_mac o) (hc_nonce o) (hc_code o) (hc_buf o) (hc_cached o) 0 (hc_reseed o) (hc_ready o) (hc_calls o), None, out)
    else Ok (Hcg m nonce (hc_code o) buf cached counter (hc_reseed o) (hc_ready o) (hc_calls o), None, out)
  end.
(** HCG.cpp:248-291 Initialize: key, IV and info of the key object.  A short key gives the InvalidNonce code *)
Definition HCG_Initialize (o : hcg) (key iv info : list Z) : res hcg :=
  _ <- guard (negb (length key <? 16)%nat) InvalidNonce ;;
  let o := HCG_Reset o in
  let code := hc_code o ++ [0x43; 0x45; 0x58; 0x2D] ++ name ++ le_bytes 2 (u16 (Z.of_nat HCG_strength)) ++ info in
  nonce <- (if negb (length iv =? 0)%nat then wcopy iv 0 (hc_nonce o) 0 (Nat.min (length iv) (length (hc_nonce o))) else Ok (hc_nonce o)) ;;
  m <- HCG_rekey (hc_mac o) key ;;
  nonce <- BeIncrease8 4 nonce nonce (u32 (Z.of_nat (length code))) ;;
  m <- HMAC_Update dupd m code 0 (length code) ;;
  m <- HMAC_Update dupd m nonce 0 (length nonce) ;;
  r <- HMAC_Finalize n dupd dfin m (hc_buf o) 0 ;;
  Ok (Hcg (fst r) nonce code (snd r) (hc_cached o) (hc_counter o) (hc_reseed o) true (hc_calls o)).
(** HCG.cpp:293-335 Update; :302 the condition is (Key.size() < SecurityStrength() / 8) * 2.  The SecureVector form
    :337-343 copies the key.  Reseed has been counted when the HMAC refuses *)
Definition HCG_Update (o : hcg) (key : list Z) : res (hcg * option err) :=
  _ <- guard (negb (length key <? HCG_strength / 8)%nat) InvalidKey ;;
  let o := Hcg (hc_mac o) (hc_nonce o) (hc_code o) (hc_buf o) (hc_cached o) (hc_counter o) (hc_reseed o + 1) (hc_ready o) (hc_calls o) in
  if 10000 <? hc_reseed o then Ok (o, Some MaxExceeded) else
  let tmpk := zeros rate in
  match HMAC_Update dupd (hc_mac o) key 0 (length key) with
  | Throw e => Ok (o, Some e)
  | UB => UB
  | Ok m =>
    r <- HMAC_Finalize n dupd dfin m tmpk 0 ;;
    o <- HCG_renew (set_mac o (fst r)) (snd r) ;;
    Ok (o, None)
  end.
End hcg.
Arguments hcg : clear implicits.
