From Verif Require Import Base BaseLemmas Spec_Common Proofs_Common Model_IntegerTools Model_Modes Proofs_IntegerTools Proofs_Windows Model_Keys Spec_Keys Proofs_Keys.
From Verif Require Import Model_AsymmetricSecureKey Spec_AsymmetricSecureKey.
Open Scope Z_scope.

Definition tag_of (C : ciphers) (p : policy) : nat := let '(c, auth) := GetStreamCipher p in if auth then tagsize C c else 0%nat.
Lemma new_inv C poly salt prim class params p s : AsymmetricSecureKey_new C poly salt prim class params p = Ok s ->
  poly <> [] /\ class <> 0 /\ prim <> 0 /\ params <> 0 /\ p <> SPNone /\ AsymmetricSecureKey_Encipher C (ASKey poly salt prim class params p) = Ok s.
Proof.
  unfold AsymmetricSecureKey_new. intros E. destruct poly as [|a l]; [discriminate|]. destruct (Z.eqb_spec class 0); [discriminate|]. destruct (Z.eqb_spec prim 0); [discriminate|]. destruct (Z.eqb_spec params 0); [discriminate|].
  destruct p; cbn [length Nat.eqb negb andb policy_none] in E; [discriminate|..]; repeat split; auto; discriminate.
Qed.
Lemma encipher_inv C poly salt prim class params p s : ciphers_ok C -> AsymmetricSecureKey_Encipher C (ASKey poly salt prim class params p) = Ok s ->
  exists kn ct, as_seed C p salt = Ok kn /\ cs_enc C (fst (GetStreamCipher p)) (snd (GetStreamCipher p)) (fst kn) (snd kn) poly = Ok ct /\ length ct = (length poly + tag_of C p)%nat /\
    cs_dec C (fst (GetStreamCipher p)) (snd (GetStreamCipher p)) (fst kn) (snd kn) ct (length poly) = Ok poly /\ s = ASKey ct salt prim class params p.
Proof.
  intros (HG & HC & _) E. unfold AsymmetricSecureKey_Encipher in E. cbn [as_pol as_poly as_salt as_prim as_class as_params] in E. unfold tag_of.
  destruct (GetStreamCipher p) as [c auth]. cbn [fst snd]. destruct (as_seed C p salt) as [kn| |]; [|discriminate|discriminate]. cbn [bind] in E.
  destruct (cs_enc C c auth (fst kn) (snd kn) poly) as [ct| |] eqn:EE; [|discriminate|discriminate]. cbn [bind] in E. destruct (HC _ _ _ _ _ _ EE) as (L & D).
  unfold wr in E. rewrite length_zeros, L in E. rewrite (proj2 (Nat.leb_le _ _)) in E by lia. rewrite splice_all in E by (rewrite length_zeros; auto). cbn [bind] in E. inversion E. exists kn, ct. auto 10.
Qed.
Lemma extract_val C poly salt prim class params p kn ct out : as_seed C p salt = Ok kn -> length ct = (length poly + tag_of C p)%nat ->
  cs_dec C (fst (GetStreamCipher p)) (snd (GetStreamCipher p)) (fst kn) (snd kn) ct (length poly) = Ok poly -> (length ct <= length out)%nat ->
  AsymmetricSecureKey_Extract C (ASKey ct salt prim class params p) out (length ct) = Ok ((poly ++ zeros (tag_of C p)) ++ skipn (length ct) out).
Proof.
  intros ES L D LO. unfold AsymmetricSecureKey_Extract. cbn [as_pol as_poly as_salt]. unfold tag_of in *. destruct (GetStreamCipher p) as [c auth]. cbn [fst snd] in *. rewrite ES. cbn [bind].
  set (t := if auth then tagsize C c else 0%nat) in *. rewrite (proj2 (Nat.leb_le _ _)) by lia. cbn [safe bind]. replace (length ct - t)%nat with (length poly) by lia. rewrite D. cbn [bind].
  unfold wr. rewrite length_zeros. rewrite (proj2 (Nat.leb_le _ _)) by lia. cbn [bind].
  assert (ET : splice (zeros (length ct)) 0 poly = poly ++ zeros t). { unfold splice. cbn [firstn app Nat.add]. f_equal. rewrite L. unfold zeros. rewrite repeat_app, skipn_app, repeat_length, Nat.sub_diag, skipn_all2 by (rewrite repeat_length; lia). reflexivity. }
  rewrite ET. assert (LT : length (poly ++ zeros t) = length ct) by (rewrite app_length, length_zeros; lia).
  rewrite wcopy_ok by lia. f_equal. rewrite slice_all by auto. unfold splice. cbn [firstn app Nat.add]. rewrite LT. reflexivity.
Qed.
Lemma c80_all C poly salt prim class params p s : ciphers_ok C -> AsymmetricSecureKey_new C poly salt prim class params p = Ok s ->
  length (as_poly s) = (length poly + tag_of C p)%nat /\ as_prim s = prim /\ as_class s = class /\ as_params s = params /\
  AsymmetricSecureKey_Polynomial C s = Ok (poly ++ zeros (tag_of C p)) /\
  (forall out, (length poly + tag_of C p <= length out)%nat -> AsymmetricSecureKey_SecurePolynomial C s out = Ok ((poly ++ zeros (tag_of C p)) ++ skipn (length poly + tag_of C p) out)) /\
  (forall out, (length out < length poly + tag_of C p)%nat -> AsymmetricSecureKey_SecurePolynomial C s out = Throw InvalidSize).
Proof.
  intros HC E. destruct (new_inv _ _ _ _ _ _ _ _ E) as (_ & _ & _ & _ & _ & EE). destruct (encipher_inv _ _ _ _ _ _ _ _ HC EE) as (kn & ct & ES & EN & L & D & ->).
  pose proof (fun out => extract_val C poly salt prim class params p kn ct out ES L D) as X. cbn [as_poly as_prim as_class as_params]. repeat split; auto.
  - unfold AsymmetricSecureKey_Polynomial. cbn [as_poly]. rewrite X by (rewrite length_zeros; lia). rewrite skipn_all2 by (rewrite length_zeros; lia). rewrite app_nil_r. reflexivity.
  - intros out LO. unfold AsymmetricSecureKey_SecurePolynomial. cbn [as_poly]. rewrite (proj2 (Nat.ltb_ge _ _)) by lia. rewrite X by lia. rewrite L. reflexivity.
  - intros out LO. unfold AsymmetricSecureKey_SecurePolynomial. cbn [as_poly]. rewrite (proj2 (Nat.ltb_lt _ _)) by lia. reflexivity.
Qed.
Lemma c80_ser C poly salt prim class params p s : ciphers_ok C -> is_byte prim -> is_byte class -> is_byte params -> AsymmetricSecureKey_new C poly salt prim class params p = Ok s ->
  AsymmetricSecureKey_Serialize C s = Ok (asym_stream (poly ++ zeros (tag_of C p)) prim class params).
Proof.
  intros HC B1 B2 B3 E. destruct (c80_all _ _ _ _ _ _ _ _ HC E) as (_ & E1 & E2 & E3 & EP & _). unfold AsymmetricSecureKey_Serialize. rewrite E1, E2, E3, EP. rewrite !AppendByte_ok. cbn [bind]. rewrite !AppendByte_ok. cbn [bind]. rewrite AppendByte_ok. cbn [bind]. rewrite AppendVector_ok.
  unfold u8, is_byte in *. rewrite !Z.mod_small by lia. reflexivity.
Qed.
