(** C80 the encrypting container for asymmetric keys *)
From Verif Require Import Base Model_Keys Model_AsymmetricSecureKey Spec_AsymmetricSecureKey ProofsP_AsymmetricSecureKey.
Open Scope Z_scope.

(** C80: in the policies without authentication the container gives back the key: Polynomial, SecurePolynomial into any array that has room (the rest of
    it is left), and Serialize read back by DeSerialize *)
Theorem C80_contents : forall (C : ciphers) (poly salt : list Z) (prim class params : Z) (p : policy) (s : askey),
  ciphers_ok C -> is_byte prim -> is_byte class -> is_byte params -> plain_policy p ->
  AsymmetricSecureKey_new C poly salt prim class params p = Ok s ->
  AsymmetricSecureKey_Polynomial C s = Ok poly /\
  (forall out, (length poly <= length out)%nat -> AsymmetricSecureKey_SecurePolynomial C s out = Ok (poly ++ skipn (length poly) out)) /\
  (forall out, (length out < length poly)%nat -> AsymmetricSecureKey_SecurePolynomial C s out = Throw InvalidSize) /\
  exists ks, AsymmetricSecureKey_Serialize C s = Ok ks /\ AsymmetricKey_DeSerialize ks = Ok (AKey poly prim class params).
Proof. exact c80_contents. Qed.
Print Assumptions C80_contents.
Example C80_case : ciphers_ok toyc /\ plain_policy SPL512 /\
  match AsymmetricSecureKey_new toyc [5; 6; 7] [9] 1 2 3 SPL512 with Ok s => as_poly s = [2; 1; 0] /\ AsymmetricSecureKey_Serialize toyc s = Ok [2; 3; 1; 5; 6; 7] | _ => False end.
Proof. split; [exact toyc_ok|]. split; [right; left; reflexivity|]. vm_compute. split; reflexivity. Qed.

(** C80: what is kept is the key encrypted with the cipher of the policy, under the first bytes the machine gives for the salt, with the bytes that follow as nonce *)
Theorem C80_stored : forall (C : ciphers) (poly salt : list Z) (prim class params : Z) (p : policy) (s : askey),
  ciphers_ok C -> AsymmetricSecureKey_new C poly salt prim class params p = Ok s ->
  exists c auth m key nonce, In (p, c, auth, m) policy_table /\ length key = keylen C c /\ length nonce = ivlen C c /\
    cs_gen C m salt (keylen C c + ivlen C c) = Ok (key ++ nonce) /\ cs_enc C c auth key nonce poly = Ok (as_poly s).
Proof. exact c80_stored. Qed.
Print Assumptions C80_stored.
Example C80_stored_case : exists s, AsymmetricSecureKey_new toyc [5; 6; 7] [9] 1 2 3 SPL512AE = Ok s /\ cs_gen toyc SHAKE512 [9] 3 = Ok [7; 7; 7] /\ cs_enc toyc TSX512 true [7; 7] [7] [5; 6; 7] = Ok (as_poly s).
Proof. eexists. vm_compute. repeat split. Qed.

(** C80: the constructors refuse an empty key and every None *)
Theorem C80_constructor : forall (C : ciphers) (poly salt : list Z) (prim class params : Z) (p : policy),
  poly = [] \/ class = 0 \/ prim = 0 \/ params = 0 \/ p = SPNone -> AsymmetricSecureKey_new C poly salt prim class params p = Throw InvalidParam.
Proof. exact c80_new. Qed.
Print Assumptions C80_constructor.

(** C80: in the authenticated policies a stored key that does not verify is never given out *)
Theorem C80_tampered : forall (C : ciphers) (s : askey) (kn : list Z * list Z) (n : nat),
  as_seed C (as_pol s) (as_salt s) = Ok kn -> auth_policy (as_pol s) ->
  length (as_poly s) = (n + tagsize C (fst (GetStreamCipher (as_pol s))))%nat ->
  cs_dec C (fst (GetStreamCipher (as_pol s))) true (fst kn) (snd kn) (as_poly s) n = Throw AuthenticationFailure ->
  AsymmetricSecureKey_Polynomial C s = Throw AuthenticationFailure /\ AsymmetricSecureKey_Serialize C s = Throw AuthenticationFailure /\
  forall out, (length (as_poly s) <= length out)%nat -> AsymmetricSecureKey_SecurePolynomial C s out = Throw AuthenticationFailure.
Proof. exact c80_tamper. Qed.
Print Assumptions C80_tampered.
Example C80_tampered_case : match AsymmetricSecureKey_new toyc [5; 6; 7] [] 1 2 3 SPL512AE with
  | Ok s => as_poly s = [2; 1; 0; 1; 2] /\ AsymmetricSecureKey_Polynomial toyc (ASKey [2; 1; 0; 1; 3] (as_salt s) 1 2 3 SPL512AE) = Throw AuthenticationFailure | _ => False end.
Proof. vm_compute. split; reflexivity. Qed.

(** C80: in the authenticated policies the key comes back with a zero byte for every byte of the tag, DeSerialize after Serialize makes that longer key,
    and an array of the size of the key is refused *)
Theorem C80_authenticated_refuted : forall (C : ciphers) (poly salt : list Z) (prim class params : Z) (p : policy) (s : askey),
  ciphers_ok C -> is_byte prim -> is_byte class -> is_byte params -> auth_policy p ->
  AsymmetricSecureKey_new C poly salt prim class params p = Ok s ->
  let t := tagsize C (fst (GetStreamCipher p)) in
  (0 < t)%nat /\ AsymmetricSecureKey_Polynomial C s = Ok (poly ++ repeat 0 t) /\
  (forall out, length out = length poly -> AsymmetricSecureKey_SecurePolynomial C s out = Throw InvalidSize) /\
  exists ks, AsymmetricSecureKey_Serialize C s = Ok ks /\ AsymmetricKey_DeSerialize ks = Ok (AKey (poly ++ repeat 0 t) prim class params).
Proof. exact c80_auth. Qed.
Print Assumptions C80_authenticated_refuted.
Example C80_authenticated_case : auth_policy SPL1024AE /\ match AsymmetricSecureKey_new toyc [5; 6; 7] [] 1 2 3 SPL1024AE with Ok s => AsymmetricSecureKey_Polynomial toyc s = Ok [5; 6; 7; 0; 0] | _ => False end.
Proof. split; [right; right; reflexivity|]. vm_compute. reflexivity. Qed.

(** C80: asking for the key after Reset is undefined behaviour, for every key: the size of the text wraps below zero *)
Theorem C80_reset_refuted : forall (C : ciphers) (s : askey) (kn : list Z * list Z), ciphers_ok C -> as_seed C SPNone [] = Ok kn -> AsymmetricSecureKey_Polynomial C (AsymmetricSecureKey_Reset s) = UB.
Proof. exact c80_reset. Qed.
Print Assumptions C80_reset_refuted.
Example C80_reset_case : as_seed toyc SPNone [] = Ok ([7; 7], [7]).
Proof. reflexivity. Qed.

(** C80: the authenticated 256-bit and 1024-bit policies are one: same cipher, same seed, same stored bytes *)
Theorem C80_policies_refuted : forall (C : ciphers) (poly salt : list Z) (prim class params : Z) (s : askey), AsymmetricSecureKey_new C poly salt prim class params SPL256AE = Ok s ->
  exists s', AsymmetricSecureKey_new C poly salt prim class params SPL1024AE = Ok s' /\ as_poly s' = as_poly s.
Proof. exact c80_same. Qed.
Print Assumptions C80_policies_refuted.
Example C80_policies_case : exists s, AsymmetricSecureKey_new toyc [5; 6; 7] [] 1 2 3 SPL256AE = Ok s.
Proof. eexists. vm_compute. reflexivity. Qed.
