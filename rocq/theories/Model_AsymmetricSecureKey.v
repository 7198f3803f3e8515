(** Model of CEX/AsymmetricSecureKey.cpp: an asymmetric key kept encrypted under a machine key. *)
From Verif Require Import Base Model_IntegerTools Model_Modes Model_Keys.
Open Scope Z_scope.

(** SecurityPolicy.h:14-41 *)
Inductive policy := SPNone | SPL256 | SPL256AE | SPL512 | SPL512AE | SPL1024 | SPL1024AE.
Definition policy_none (p : policy) : bool := match p with SPNone => true | _ => false end.
Inductive tsx := TSX256 | TSX512 | TSX1024.
Inductive shake := SHAKE256 | SHAKE512.
(** AsymmetricSecureKey.cpp:257-301 GetStreamCipher, with StreamCipherFromName.cpp:77-106: the cipher and whether it authenticates *)
Definition GetStreamCipher (p : policy) : tsx * bool :=
  match p with
  | SPL256 => (TSX256, false)
  | SPL256AE => (TSX1024, true)
  | SPL512 => (TSX512, false)
  | SPL512AE => (TSX512, true)
  | SPL1024 => (TSX1024, false)
  | SPL1024AE => (TSX1024, true)
  | SPNone => (TSX512, true)
  end.
(** AsymmetricSecureKey.cpp:323-342 *)
Definition shake_of (p : policy) : shake :=
  match p with SPL256 | SPL256AE => SHAKE256 | SPL512 | SPL512AE => SHAKE512 | _ => SHAKE256 end.

(** the machine and the ciphers: [gen mode salt n] is GetSystemKey (:303-347) for [n] bytes; [keylen], [ivlen] are LegalKeySizes()[0] and
    [tagsize] is TagSize() of an authenticating cipher; [enc c auth key nonce m] is Initialize(true) and Transform: the text with its tag;
    [dec c auth key nonce x n] is Initialize(false) and Transform of [n] bytes of [x] (the tag follows them): the text *)
Record ciphers := Ciphers {
  cs_gen : shake -> list Z -> nat -> res (list Z); keylen : tsx -> nat; ivlen : tsx -> nat; tagsize : tsx -> nat;
  cs_enc : tsx -> bool -> list Z -> list Z -> list Z -> res (list Z); cs_dec : tsx -> bool -> list Z -> list Z -> list Z -> nat -> res (list Z) }.
(** AsymmetricSecureKey.cpp:31-89 the state; the enumerations are uint8_t, None is 0 *)
Record askey := ASKey { as_poly : list Z; as_salt : list Z; as_prim : Z; as_class : Z; as_params : Z; as_pol : policy }.

(** AsymmetricSecureKey.cpp:217-221, 239-243: key and nonce *)
Definition as_seed (C : ciphers) (p : policy) (salt : list Z) : res (list Z * list Z) :=
  let c := fst (GetStreamCipher p) in
  seed <- cs_gen C (shake_of p) salt (keylen C c + ivlen C c) ;;
  k <- wcopy seed 0 (zeros (keylen C c)) 0 (keylen C c) ;;
  n <- wcopy seed (keylen C c) (zeros (ivlen C c)) 0 (ivlen C c) ;;
  Ok (k, n).
(** AsymmetricSecureKey.cpp:198-227 Encipher; what the cipher writes is copied into cpt *)
Definition AsymmetricSecureKey_Encipher (C : ciphers) (s : askey) : res askey :=
  let '(c, auth) := GetStreamCipher (as_pol s) in
  let cpt := zeros (length (as_poly s) + (if auth then tagsize C c else 0)) in
  kn <- as_seed C (as_pol s) (as_salt s) ;;
  ct <- cs_enc C c auth (fst kn) (snd kn) (as_poly s) ;;
  cpt <- wr cpt 0 ct ;;
  Ok (ASKey cpt (as_salt s) (as_prim s) (as_class s) (as_params s) (as_pol s)).
(** AsymmetricSecureKey.cpp:93-109 the constructors *)
Definition AsymmetricSecureKey_new (C : ciphers) (poly salt : list Z) (prim class params : Z) (p : policy) : res askey :=
  if negb (length poly =? 0)%nat && negb (class =? 0) && negb (prim =? 0) && negb (params =? 0) && negb (policy_none p)
  then AsymmetricSecureKey_Encipher C (ASKey poly salt prim class params p) else Throw InvalidParam.
(** AsymmetricSecureKey.cpp:229-255 Extract.  CPTSZE is a size_t: with fewer bytes than a tag it wraps and the cipher reads beyond the array *)
Definition AsymmetricSecureKey_Extract (C : ciphers) (s : askey) (out : list Z) (len : nat) : res (list Z) :=
  let '(c, auth) := GetStreamCipher (as_pol s) in
  kn <- as_seed C (as_pol s) (as_salt s) ;;
  let tag := if auth then tagsize C c else 0%nat in
  _ <- safe (tag <=? length (as_poly s))%nat ;;
  pt <- cs_dec C c auth (fst kn) (snd kn) (as_poly s) (length (as_poly s) - tag) ;;
  tmpt <- wr (zeros (length (as_poly s))) 0 pt ;;
  wcopy tmpt 0 out 0 len.
(** AsymmetricSecureKey.cpp:133-148 Polynomial *)
Definition AsymmetricSecureKey_Polynomial (C : ciphers) (s : askey) : res (list Z) :=
  AsymmetricSecureKey_Extract C s (zeros (length (as_poly s))) (length (as_poly s)).
(** AsymmetricSecureKey.cpp:150-166 SecurePolynomial *)
Definition AsymmetricSecureKey_SecurePolynomial (C : ciphers) (s : askey) (out : list Z) : res (list Z) :=
  if (length out <? length (as_poly s))%nat then Throw InvalidSize else AsymmetricSecureKey_Extract C s out (length (as_poly s)).
(** AsymmetricSecureKey.cpp:170-173, 80-88 Reset; SecureClear (SecureVector.h:102-109) empties the vectors *)
Definition AsymmetricSecureKey_Reset (s : askey) : askey := ASKey [] [] 0 0 0 SPNone.
(** AsymmetricSecureKey.cpp:184-194 Serialize; DeSerialize (:177-182) is AsymmetricKey::DeSerialize *)
Definition AsymmetricSecureKey_Serialize (C : ciphers) (s : askey) : res (list Z) :=
  t <- AppendByte (u8 (as_class s)) [] ;;
  t <- AppendByte (u8 (as_params s)) t ;;
  t <- AppendByte (u8 (as_prim s)) t ;;
  p <- AsymmetricSecureKey_Polynomial C s ;;
  AppendVector p t.
