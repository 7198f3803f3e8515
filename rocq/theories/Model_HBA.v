(** Model of CEX/HBA.cpp: the ICM counter mode with an authenticator whose key is replaced after every message.  The
    block cipher is a function [E key info] on blocks and a test [legal] for key sizes; the authenticator and the
    functions that derive its keys are a record, with the instances KMAC256, KMAC512, HMAC-SHA2-256 and HMAC-SHA2-512.
    Not modelled: the check of the parallel profile in Initialize :201-211 (Session_HBA only takes profiles that pass
    it), Poly1305, and Input and Output being the same array. *)
From Verif Require Import Base Model_IntegerTools Model_Modes Model_Keccak Model_SHAKE Model_HMAC Model_KDF.
Open Scope Z_scope.

(** IMac as HBA uses it, TagSize(), and the two key derivations :243-325 and :462-500.  [a_first] returns the cipher key
    and the MAC key; the first argument of [a_next] is the size of the user's key, which selects the digest of HKDF *)
Record engine (M : Type) := Engine {
  a_new : M; a_init : M -> list Z -> res M; a_reset : M -> res M; a_upd : M -> list Z -> nat -> nat -> res M;
  a_fin : M -> list Z -> nat -> res (M * list Z); a_tag : nat;
  a_first : list Z -> list Z -> list Z -> res (list Z * list Z);
  a_next : nat -> list Z -> list Z -> list Z -> res (list Z) }.
Arguments Engine {M}. Arguments a_new {M}. Arguments a_init {M}. Arguments a_reset {M}. Arguments a_upd {M}.
Arguments a_fin {M}. Arguments a_tag {M}. Arguments a_first {M}. Arguments a_next {M}.

(** HBA.cpp:243-278 SHA3 mode: cSHAKE(key, Custom, Name), a request for the cipher key, a request for the MAC key *)
Definition shake_first (rate klen : nat) (key cust name : list Z) : res (list Z * list Z) :=
  g <- SHAKE_Initialize rate SHAKE_new key cust name ;;
  r <- SHAKE_Generate rate g (zeros (length key)) 0 (length key) ;;
  let '(g, tmpk) := r in
  r <- SHAKE_Generate rate g (zeros klen) 0 klen ;;
  Ok (tmpk, snd r).
(** HBA.cpp:462-475 the next MAC key; LegalKeySizes()[0] of the authenticator is the size of the first one *)
Definition shake_next (rate klen : nat) (mkey cust name : list Z) : res (list Z) :=
  g <- SHAKE_Initialize rate SHAKE_new mkey cust name ;;
  r <- SHAKE_Generate rate g (zeros klen) 0 klen ;;
  Ok (snd r).
(** an authenticator exception becomes an exception of the call *)
Definition or_throw {A} (r : res (A * option err)) : res A :=
  x <- r ;; match snd x with None => Ok (fst x) | Some e => Throw e end.
Section hkdf.
Context {D : Type} (rate n : nat) (dupd : D -> list Z -> nat -> nat -> res D) (dfin : D -> list Z -> nat -> res (D * list Z)) (dnew : D).
(** HKDF.cpp:141-156 Extract(SecureVector) *)
Definition HKDF_ExtractS (o : hkdf_obj D) (key salt out : list Z) : res (hkdf_obj D * list Z) :=
  g <- or_throw (HKDF_rekey rate n dupd dfin dnew (hk_gen o) salt) ;;
  g <- HMAC_Update dupd g key 0 (length key) ;;
  r <- HMAC_FinalizeS n dupd dfin g out 0 ;;
  Ok (HKDFo (fst r) (hk_info o) (hk_state o) (hk_init o), snd r).
(** HBA.cpp:292-313 SHA2 mode; KEYLEN is the digest size *)
Definition hkdf_first (key cust name : list Z) : res (list Z * list Z) :=
  r <- HKDF_ExtractS (HKDF_new rate n dnew) key name (zeros n) ;;
  let '(g, tmpk) := r in
  g <- or_throw (HKDF_Initialize rate n dupd dfin dnew g tmpk [] cust) ;;
  r <- HKDF_GenAllS n dupd dfin g tmpk ;;
  let '(g, tmpk) := r in
  r <- HKDF_GenAllS n dupd dfin g (zeros n) ;;
  Ok (tmpk, snd r).
(** HBA.cpp:477-500 *)
Definition hkdf_next (mkey cust name : list Z) : res (list Z) :=
  r <- HKDF_ExtractS (HKDF_new rate n dnew) mkey name (zeros n) ;;
  let '(g, tmpk) := r in
  g <- or_throw (HKDF_Initialize rate n dupd dfin dnew g tmpk [] cust) ;;
  r <- HKDF_GenAllS n dupd dfin g (zeros n) ;;
  Ok (snd r).
End hkdf.

(** KMAC256 and KMAC512 *)
Definition kmac_engine (rate klen tag : nat) : engine kmac_obj :=
  Engine KMAC_new (fun o k => KMAC_Initialize rate o k [] []) (fun _ => Ok KMAC_new) (KMAC_Update rate) (KMAC_Finalize rate tag) tag
    (shake_first rate klen) (fun _ => shake_next rate klen).
(** HMAC; HKDF runs SHA2-512 for keys of 64 bytes and SHA2-256 for all others, :283-290, whatever the authenticator *)
Definition hmac_engine {D D2 D5 : Type} (rate n : nat) (dupd : D -> list Z -> nat -> nat -> res D) (dfin : D -> list Z -> nat -> res (D * list Z)) (dnew : D)
    (u2 : D2 -> list Z -> nat -> nat -> res D2) (f2 : D2 -> list Z -> nat -> res (D2 * list Z)) (n2 : D2)
    (u5 : D5 -> list Z -> nat -> nat -> res D5) (f5 : D5 -> list Z -> nat -> res (D5 * list Z)) (n5 : D5) : engine (hmac_obj D) :=
  Engine (HMAC_new rate dnew) (fun o k => or_throw (HMAC_Initialize rate n dupd dfin dnew o k)) (HMAC_Reset dnew) (HMAC_Update dupd) (HMAC_FinalizeS n dupd dfin) n
    (fun key => if (length key =? 64)%nat then hkdf_first 128 64 u5 f5 n5 key else hkdf_first 64 32 u2 f2 n2 key)
    (fun ksz => if (ksz =? 64)%nat then hkdf_next 128 64 u5 f5 n5 else hkdf_next 64 32 u2 f2 n2).

(** HBA.cpp:23-75 HbaState ([b_ksz] stands for Digest), the ICM object (key and info of its cipher, Nonce) and the authenticator *)
Record hobj (M : Type) := HObj {
  b_ckey : list Z; b_cinfo : list Z; b_nonce : list Z; b_custom : list Z; b_mkey : list Z; b_mtag : list Z; b_label : list Z;
  b_count : Z; b_ksz : nat; b_dir : bool; b_ready : bool; b_auth : M }.
Arguments HObj {M}. Arguments b_ckey {M}. Arguments b_cinfo {M}. Arguments b_nonce {M}. Arguments b_custom {M}. Arguments b_mkey {M}. Arguments b_mtag {M}.
Arguments b_label {M}. Arguments b_count {M}. Arguments b_ksz {M}. Arguments b_dir {M}. Arguments b_ready {M}. Arguments b_auth {M}.

Section hba.
Context {M : Type} (a : engine M) (E : list Z -> list Z -> list Z -> list Z) (legal : nat -> bool) (nm : list Z).
(** HBA.cpp:81-104 constructors *)
Definition H_new : hobj M := HObj [] [] (zeros 16) [] [] [] [] 0 0 false false (a_new a).
(** a call that may stop half way: the object and the output array when the exception leaves *)
Definition hres : Type := res (hobj M * list Z * option err).
Definition hthen (r : hres) (f : hobj M -> list Z -> hres) : hres := match r with Ok (o, out, None) => f o out | _ => r end.
(** HBA.cpp:187-328 Initialize; the name string is le64(Counter), le16(key bits), Name() *)
Definition H_Initialize (o : hobj M) (enc : bool) (key iv info : list Z) : hres :=
  if negb (legal (length key)) then Ok (o, [], Some InvalidKey) else
  if negb (length iv =? 16)%nat then Ok (o, [], Some InvalidNonce) else
  o <- (if b_ready o then m <- a_reset a (b_auth o) ;; Ok (HObj (b_ckey o) (b_cinfo o) (b_nonce o) [] [] [] [] 0 (b_ksz o) false false m) else Ok o) ;;
  let cust := if negb (length info =? 0)%nat then info else b_custom o in
  label <- wr (resized (b_label o) (10 + length nm)) 0 (le_bytes 8 1) ;;
  label <- wr label 8 (le_bytes 2 (u16 (Z.of_nat (length key) * 8))) ;;
  label <- wcopy nm 0 label 10 (length nm) ;;
  let o := HObj (b_ckey o) (b_cinfo o) (b_nonce o) cust (b_mkey o) (resized (b_mtag o) (a_tag a)) label 1 (length key) enc (b_ready o) (b_auth o) in
  match a_first a key cust label with
  | Throw e => Ok (o, [], Some e)
  | UB => UB
  | Ok (ck, mk) =>
    if negb (legal (length ck)) then Ok (o, [], Some InvalidKey) else
    m <- a_init a (b_auth o) mk ;;
    Ok (HObj ck info iv cust mk (b_mtag o) label 1 (length key) enc true m, [], None)
  end.
(** m_macAuthenticator->Update on this object *)
Definition H_mac (o : hobj M) (out inp : list Z) (io len : nat) : hres :=
  match a_upd a (b_auth o) inp io len with
  | Ok m => Ok (HObj (b_ckey o) (b_cinfo o) (b_nonce o) (b_custom o) (b_mkey o) (b_mtag o) (b_label o) (b_count o) (b_ksz o) (b_dir o) (b_ready o) m, out, None)
  | Throw e => Ok (o, out, Some e)
  | UB => UB
  end.
(** HBA.cpp:340-362 SetAssociatedData; [Length - Offset] is a size_t *)
Definition H_SetAssociatedData (o : hobj M) (inp : list Z) (off len : nat) : hres :=
  if negb (b_ready o) then Ok (o, [], Some NotInitialized) else
  if Z.of_nat (length inp) <? u64 (Z.of_nat len - Z.of_nat off) then Ok (o, [], Some InvalidSize) else
  if (len =? 0)%nat then Ok (o, [], None) else
  hthen (H_mac o [] inp off len) (fun o _ => H_mac o [] (le_bytes 4 (u32 (Z.of_nat len))) 0 4).
(** Counter += Length *)
Definition H_add (o : hobj M) (len : nat) : hobj M :=
  HObj (b_ckey o) (b_cinfo o) (b_nonce o) (b_custom o) (b_mkey o) (b_mtag o) (b_label o) (u64 (b_count o + Z.of_nat len)) (b_ksz o) (b_dir o) (b_ready o) (b_auth o).
(** HBA.cpp:439-508 Finalize, writing the tag into [out] at [oo]; inside it no exception is possible once Initialize
    has succeeded, so one is not caught *)
Definition H_Finalize (o : hobj M) (out : list Z) (oo : nat) : res (hobj M * list Z) :=
  let mctr := u64 (b_count o + Z.of_nat (length (b_nonce o)) + 8) in
  m <- a_upd a (b_auth o) (le_bytes 8 mctr) 0 8 ;;
  r <- a_fin a m (b_mtag o) 0 ;;
  let '(m, mtag) := r in
  out <- wcopy mtag 0 out oo (a_tag a) ;;
  label <- wr (b_label o) 0 (le_bytes 8 (b_count o)) ;;
  mack <- a_next a (b_ksz o) (b_mkey o) (b_custom o) label ;;
  m <- a_init a m mack ;;
  mkey <- wcopy mack 0 (b_mkey o) 0 (length mack) ;;
  Ok (HObj (b_ckey o) (b_cinfo o) (b_nonce o) (b_custom o) mkey mtag label (b_count o) (b_ksz o) (b_dir o) (b_ready o) m, out).
(** HBA.cpp:510-531 Verify *)
Definition H_Verify (o : hobj M) (inp : list Z) (io : nat) : res (hobj M * bool) :=
  r <- H_Finalize o (zeros (a_tag a)) 0 ;;
  let '(o, code) := r in
  let mtag := if negb (length (b_mtag o) =? 0)%nat then resized (zeros (length (b_mtag o))) (a_tag a) else b_mtag o in
  mtag <- wcopy code 0 mtag 0 (length mtag) ;;
  b <- Compare mtag 0 inp io (a_tag a) ;;
  Ok (HObj (b_ckey o) (b_cinfo o) (b_nonce o) (b_custom o) (b_mkey o) mtag (b_label o) (b_count o) (b_ksz o) (b_dir o) (b_ready o) (b_auth o), b).
(** m_cipherMode->Transform on this object *)
Definition H_crypt (s : nat) (p : prof) (ord : nat -> list nat) (o : hobj M) (inp : list Z) (io : nat) (out : list Z) (oo len : nat) : res (hobj M * list Z) :=
  r <- ICM_Transform (E (b_ckey o) (b_cinfo o)) s p ord (Some inp) io out oo len (b_nonce o) ;;
  let '(out, nonce) := r in
  Ok (HObj (b_ckey o) (b_cinfo o) nonce (b_custom o) (b_mkey o) (b_mtag o) (b_label o) (b_count o) (b_ksz o) (b_dir o) (b_ready o) (b_auth o), out).
(** HBA.cpp:388-435 Transform; the differences of sizes are taken in size_t *)
Definition H_Transform (s : nat) (p : prof) (ord : nat -> list nat) (o : hobj M) (inp : list Z) (io : nat) (out : list Z) (oo len : nat) : hres :=
  if negb (b_ready o) then Ok (o, out, Some NotInitialized) else
  hthen (H_mac o out (b_nonce o) 0 (length (b_nonce o))) (fun o out =>
  let room := u64 (Z.of_nat (length out) - Z.of_nat oo) in
  if b_dir o then
    if room <? u64 (Z.of_nat len + Z.of_nat (a_tag a)) then Ok (o, out, Some InvalidSize) else
    r <- H_crypt s p ord o inp io out oo len ;;
    let '(o, out) := r in
    hthen (H_mac o out out oo len) (fun o out =>
    r <- H_Finalize (H_add o len) out (oo + len) ;;
    Ok (fst r, snd r, None))
  else
    if room <? Z.of_nat len then Ok (o, out, Some InvalidSize) else
    hthen (H_mac o out inp io len) (fun o out =>
    r <- H_Verify (H_add o len) inp (io + len) ;;
    let '(o, ok) := r in
    if negb ok then Ok (o, out, Some AuthenticationFailure) else
    r <- H_crypt s p ord o inp io out oo len ;;
    Ok (fst r, snd r, None))).
(** HBA.cpp:170-173 Tag: no check *)
Definition H_Tag (o : hobj M) : list Z := b_mtag o.
End hba.
