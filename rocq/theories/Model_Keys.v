(** Model of the key containers: CEX/SymmetricKey.cpp, CEX/AsymmetricKey.cpp, CEX/SymmetricSecureKey.cpp.
    std::vector and SecureVector are both lists; erasure on destruction and the KeySizes object (SymmetricKey) are not
    represented. *)
From Verif Require Import Base Model_IntegerTools Model_Modes.
Open Scope Z_scope.

(** SymmetricKey.cpp:13-97 KeyState *)
Record skey := SKey { sk_key : list Z; sk_iv : list Z; sk_info : list Z }.
(** SymmetricKey.cpp:129-141 (and 101-127 with empty IV, Info): all three empty is refused *)
Definition SymmetricKey_new (key iv info : list Z) : res skey :=
  if (length key + length iv + length info =? 0)%nat then Throw InvalidParam else Ok (SKey key iv info).
(** SymmetricKey.cpp:198-201 Clone *)
Definition SymmetricKey_Clone (k : skey) : res skey := SymmetricKey_new (sk_key k) (sk_iv k) (sk_info k).
(** SymmetricKey.cpp:203-206 Reset: SecureClear empties the three arrays *)
Definition SymmetricKey_Reset (k : skey) : skey := SKey [] [] [].
(** ArrayTools.h:135-145 AppendVector *)
Definition AppendVector (inp out : list Z) : res (list Z) := wcopy inp 0 (out ++ zeros (length inp)) (length out) (length inp).
(** ArrayTools.h:114-125 AppendValue of one byte *)
Definition AppendByte (v : Z) (out : list Z) : res (list Z) := put (out ++ zeros 1) (length out) v.
(** the static_cast<uint16_t> of a size *)
Definition len16 (l : list Z) : Z := Z.of_nat (length l) mod 2 ^ 16.
(** SymmetricKey.cpp:242-273 Serialize (tlen is not used) *)
Definition SymmetricKey_Serialize (k : skey) : res (list Z) :=
  let klen := len16 (sk_key k) in let nlen := len16 (sk_iv k) in let ilen := len16 (sk_info k) in
  t <- AppendVector (le_bytes 2 klen) [] ;;
  t <- AppendVector (le_bytes 2 nlen) t ;;
  t <- AppendVector (le_bytes 2 ilen) t ;;
  t <- (if 0 <? klen then AppendVector (sk_key k) t else Ok t) ;;
  t <- (if 0 <? nlen then AppendVector (sk_iv k) t else Ok t) ;;
  if 0 <? ilen then AppendVector (sk_info k) t else Ok t.
(** SymmetricKey.cpp:210-240 DeSerialize *)
Definition SymmetricKey_DeSerialize (ks : list Z) : res skey :=
  klen <- LeBytesTo16 ks 0 ;;
  nlen <- LeBytesTo16 ks 2 ;;
  ilen <- LeBytesTo16 ks 4 ;;
  let kl := Z.to_nat klen in let nl := Z.to_nat nlen in let il := Z.to_nat ilen in
  key <- (if 0 <? klen then wcopy ks 6 (zeros kl) 0 kl else Ok []) ;;
  nonce <- (if 0 <? nlen then wcopy ks (kl + 6) (zeros nl) 0 nl else Ok []) ;;
  info <- (if 0 <? ilen then wcopy ks (kl + nl + 6) (zeros il) 0 il else Ok []) ;;
  SymmetricKey_new key nonce info.

(** ** AsymmetricKey *)
(** AsymmetricKey.cpp:16-73; the three enumerations are uint8_t, None is 0 *)
Record akey := AKey { ak_poly : list Z; ak_prim : Z; ak_class : Z; ak_params : Z }.
(** AsymmetricKey.cpp:77-91 *)
Definition AsymmetricKey_new (poly : list Z) (prim class params : Z) : res akey :=
  if negb (length poly =? 0)%nat && negb (prim =? 0) && negb (class =? 0) && negb (params =? 0) then Ok (AKey poly prim class params) else Throw InvalidParam.
(** AsymmetricKey.cpp:144-154 Serialize *)
Definition AsymmetricKey_Serialize (k : akey) : res (list Z) :=
  t <- AppendByte (u8 (ak_class k)) [] ;;
  t <- AppendByte (u8 (ak_params k)) t ;;
  t <- AppendByte (u8 (ak_prim k)) t ;;
  AppendVector (ak_poly k) t.
(** AsymmetricKey.cpp:134-142 DeSerialize: begin() + 3 beyond end() and indexing beyond the end are undefined *)
Definition AsymmetricKey_DeSerialize (ks : list Z) : res akey :=
  poly <- rd ks 3 (length ks - 3) ;;
  prim <- get ks 2 ;;
  class <- get ks 0 ;;
  params <- get ks 1 ;;
  AsymmetricKey_new poly prim class params.

(** ** SymmetricKeySize *)
(** SymmetricKeySize.cpp:14-22, 32-38 *)
Record ksize := KSize { ks_key : Z; ks_iv : Z; ks_info : Z }.
Definition KeySize_new (k v i : Z) : ksize := KSize (k mod 2 ^ 32) (v mod 2 ^ 32) (i mod 2 ^ 32).
(** SymmetricKeySize.cpp:23-30 *)
Definition KeySize_of (a : list Z) : res ksize :=
  if (12 <=? length a)%nat then i <- LeBytesTo32 a 0 ;; k <- LeBytesTo32 a 4 ;; v <- LeBytesTo32 a 8 ;; Ok (KSize k v i) else Throw InvalidSize.
(** ArrayTools.h:114-125 AppendValue of a uint32_t on a little-endian machine *)
Definition AppendValue32 (v : Z) (out : list Z) : res (list Z) := wr (out ++ zeros 4) (length out) (le_bytes 4 v).
(** SymmetricKeySize.cpp:106-115 ToBytes *)
Definition KeySize_ToBytes (s : ksize) : res (list Z) :=
  t <- AppendValue32 (ks_info s mod 2 ^ 32) [] ;; t <- AppendValue32 (ks_key s mod 2 ^ 32) t ;; AppendValue32 (ks_iv s mod 2 ^ 32) t.
(** SymmetricKeySize.cpp:59-97 Contains *)
Definition KeySize_Contains (l : list ksize) (k v i : Z) : bool :=
  existsb (fun s =>
    if negb (k =? 0) && negb (v =? 0) && negb (i =? 0) then (ks_key s =? k) && (ks_iv s =? v) && (ks_info s =? i)
    else if negb (k =? 0) && negb (v =? 0) then (ks_key s =? k) && (ks_iv s =? v)
    else if negb (k =? 0) && negb (i =? 0) then (ks_key s =? k) && (ks_info s =? i)
    else ks_key s =? k) l.

(** ** SymmetricSecureKey *)
(** The stream cipher of a policy (SymmetricSecureKey.cpp:534-578) is a parameter: [enc] and [dec] under a seed (key and nonce), with
    [tag policy] bytes of tag in the authenticated policies; [sys] is GetSystemKey (:580-624), which reads the machine and the salt *)
Section secure.
Context {P : Type} (isnone : P -> bool) (default : P) (tag : P -> nat) (sys : P -> list Z -> res (list Z))
  (enc : P -> list Z -> list Z -> res (list Z)) (dec : P -> list Z -> list Z -> res (list Z)).
(** SymmetricSecureKey.cpp:26-184; the three sizes are KeySizes *)
(** SymmetricKeySize.cpp:32-38: the sizes are cast to uint32_t *)
Definition size32 (l : list Z) : nat := Z.to_nat (Z.of_nat (length l) mod 2 ^ 32).
Record sskey := SSKey { ss_salt : list Z; ss_state : list Z; ss_ksize : nat; ss_isize : nat; ss_fsize : nat; ss_policy : P }.
(** SymmetricSecureKey.cpp:475-504 Encipher *)
Definition SecureKey_Encipher (s : sskey) : res sskey :=
  seed <- sys (ss_policy s) (ss_salt s) ;;
  cpt <- enc (ss_policy s) seed (ss_state s) ;;
  Ok (SSKey (ss_salt s) cpt (ss_ksize s) (ss_isize s) (ss_fsize s) (ss_policy s)).
(** SymmetricSecureKey.cpp:84-106 the state: key, IV, info one after the other *)
Definition SecureKey_state (key iv info : list Z) : res (list Z) :=
  let s := zeros (length key + length iv + length info) in
  s <- wcopy key 0 s 0 (length key) ;;
  s <- wcopy iv 0 s (length key) (length iv) ;;
  wcopy info 0 s (length key + length iv) (length info).
(** SymmetricSecureKey.cpp:188-234: the constructors without policy and salt *)
Definition SecureKey_new (key iv info : list Z) : res sskey :=
  if (length key + length iv + length info =? 0)%nat then Throw InvalidParam
  else s <- SecureKey_state key iv info ;; SecureKey_Encipher (SSKey [] s (size32 key) (size32 iv) (size32 info) default).
(** SymmetricSecureKey.cpp:236-282: the constructors with policy and salt *)
Definition SecureKey_new_salted (key iv info : list Z) (pol : P) (salt : list Z) : res sskey :=
  if negb (length key + length iv + length info =? 0)%nat && negb (length salt =? 0)%nat && negb (isnone pol)
  then s <- SecureKey_state key iv info ;; SecureKey_Encipher (SSKey salt s (size32 key) (size32 iv) (size32 info) pol)
  else Throw InvalidParam.
(** SymmetricSecureKey.cpp:506-532 Extract: the temporary keeps the size of the encrypted state *)
Definition SecureKey_Extract (s : sskey) (off len : nat) : res (list Z) :=
  seed <- sys (ss_policy s) (ss_salt s) ;;
  pt <- dec (ss_policy s) seed (ss_state s) ;;
  tmpt <- wr (zeros (length (ss_state s))) 0 pt ;;
  wcopy tmpt off (zeros len) 0 len.
(** SymmetricSecureKey.cpp:291-344 Info, Key, IV *)
Definition SecureKey_Key (s : sskey) : res (list Z) := SecureKey_Extract s 0 (ss_ksize s).
Definition SecureKey_IV (s : sskey) : res (list Z) := SecureKey_Extract s (ss_ksize s) (ss_isize s).
Definition SecureKey_Info (s : sskey) : res (list Z) := SecureKey_Extract s (ss_ksize s + ss_isize s) (ss_fsize s).
(** SymmetricSecureKey.cpp:396-399 Clone *)
Definition SecureKey_Clone (s : sskey) : res sskey :=
  k <- SecureKey_Key s ;; v <- SecureKey_IV s ;; i <- SecureKey_Info s ;; SecureKey_new_salted k v i (ss_policy s) (ss_salt s).
(** SymmetricSecureKey.cpp:440-471 Serialize; DeSerialize (:408-438) is the text of SymmetricKey::DeSerialize *)
Definition SecureKey_Serialize (s : sskey) : res (list Z) :=
  k <- SecureKey_Key s ;; v <- SecureKey_IV s ;; i <- SecureKey_Info s ;; SymmetricKey_Serialize (SKey k v i).
End secure.
Arguments sskey : clear implicits.
