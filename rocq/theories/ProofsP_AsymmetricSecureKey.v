From Verif Require Import Base BaseLemmas Spec_Common Proofs_Common Model_IntegerTools Model_Modes Proofs_IntegerTools Proofs_Windows Model_Keys Spec_Keys Proofs_Keys.
From Verif Require Import Model_AsymmetricSecureKey Spec_AsymmetricSecureKey Proofs_AsymmetricSecureKey.
Open Scope Z_scope.

Lemma des_ok poly prim class params : poly <> [] -> prim <> 0 -> class <> 0 -> params <> 0 -> AsymmetricKey_DeSerialize (asym_stream poly prim class params) = Ok (AKey poly prim class params).
Proof.
  intros H A B C. rewrite asym_all. unfold asym_stream. cbn [app length nth skipn Nat.ltb Nat.leb]. rewrite !(proj2 (Z.eqb_neq _ _)) by auto. destruct poly; [congruence|reflexivity].
Qed.
Lemma plain_tag C p : plain_policy p -> tag_of C p = 0%nat.
Proof. intros [->|[->| ->]]; reflexivity. Qed.
Lemma auth_tag C p : auth_policy p -> tag_of C p = tagsize C (fst (GetStreamCipher p)).
Proof. intros [->|[->| ->]]; reflexivity. Qed.
Lemma c80_contents C poly salt prim class params p s : ciphers_ok C -> is_byte prim -> is_byte class -> is_byte params -> plain_policy p ->
  AsymmetricSecureKey_new C poly salt prim class params p = Ok s ->
  AsymmetricSecureKey_Polynomial C s = Ok poly /\
  (forall out, (length poly <= length out)%nat -> AsymmetricSecureKey_SecurePolynomial C s out = Ok (poly ++ skipn (length poly) out)) /\
  (forall out, (length out < length poly)%nat -> AsymmetricSecureKey_SecurePolynomial C s out = Throw InvalidSize) /\
  exists ks, AsymmetricSecureKey_Serialize C s = Ok ks /\ AsymmetricKey_DeSerialize ks = Ok (AKey poly prim class params).
Proof.
  intros HC B1 B2 B3 HP E. pose proof (c80_ser _ _ _ _ _ _ _ _ HC B1 B2 B3 E) as S1. destruct (c80_all _ _ _ _ _ _ _ _ HC E) as (_ & _ & _ & _ & E1 & E2 & E3).
  rewrite (plain_tag C p HP) in *. rewrite Nat.add_0_r in *. change (zeros 0) with (@nil Z) in *. rewrite app_nil_r in *. destruct (new_inv _ _ _ _ _ _ _ _ E) as (N1 & N2 & N3 & N4 & _).
  repeat split; auto. eexists. split; [exact S1|]. apply des_ok; auto.
Qed.
Lemma c80_auth C poly salt prim class params p s : ciphers_ok C -> is_byte prim -> is_byte class -> is_byte params -> auth_policy p ->
  AsymmetricSecureKey_new C poly salt prim class params p = Ok s ->
  let t := tagsize C (fst (GetStreamCipher p)) in
  (0 < t)%nat /\ AsymmetricSecureKey_Polynomial C s = Ok (poly ++ repeat 0 t) /\
  (forall out, length out = length poly -> AsymmetricSecureKey_SecurePolynomial C s out = Throw InvalidSize) /\
  exists ks, AsymmetricSecureKey_Serialize C s = Ok ks /\ AsymmetricKey_DeSerialize ks = Ok (AKey (poly ++ repeat 0 t) prim class params).
Proof.
  intros HC B1 B2 B3 HP E t. pose proof (c80_ser _ _ _ _ _ _ _ _ HC B1 B2 B3 E) as S1. destruct (c80_all _ _ _ _ _ _ _ _ HC E) as (_ & _ & _ & _ & E1 & E2 & E3).
  rewrite (auth_tag C p HP) in *. fold t in E1, E2, E3, S1. assert (T : (0 < t)%nat) by apply HC. destruct (new_inv _ _ _ _ _ _ _ _ E) as (N1 & N2 & N3 & N4 & _).
  split; [auto|]. split; [exact E1|]. split; [intros out L; apply E3; lia|]. eexists. split; [exact S1|]. apply des_ok; auto. destruct poly; [congruence|discriminate].
Qed.
Lemma c80_new C poly salt prim class params p : poly = [] \/ class = 0 \/ prim = 0 \/ params = 0 \/ p = SPNone -> AsymmetricSecureKey_new C poly salt prim class params p = Throw InvalidParam.
Proof.
  unfold AsymmetricSecureKey_new. intros [->|[->|[->|[->| ->]]]]; cbn [length Nat.eqb Z.eqb negb andb policy_none]; rewrite ?Bool.andb_false_r; cbn [andb]; reflexivity.
Qed.
Lemma c80_tamper C s kn n : as_seed C (as_pol s) (as_salt s) = Ok kn -> auth_policy (as_pol s) ->
  length (as_poly s) = (n + tagsize C (fst (GetStreamCipher (as_pol s))))%nat ->
  cs_dec C (fst (GetStreamCipher (as_pol s))) true (fst kn) (snd kn) (as_poly s) n = Throw AuthenticationFailure ->
  AsymmetricSecureKey_Polynomial C s = Throw AuthenticationFailure /\ AsymmetricSecureKey_Serialize C s = Throw AuthenticationFailure /\
  forall out, (length (as_poly s) <= length out)%nat -> AsymmetricSecureKey_SecurePolynomial C s out = Throw AuthenticationFailure.
Proof.
  intros ES HP L D. assert (X : forall out m, AsymmetricSecureKey_Extract C s out m = Throw AuthenticationFailure).
  { intros out m. unfold AsymmetricSecureKey_Extract. rewrite ES. assert (A : snd (GetStreamCipher (as_pol s)) = true) by (destruct HP as [->|[->| ->]]; reflexivity).
    destruct (GetStreamCipher (as_pol s)) as [c auth]. cbn [fst snd] in *. subst auth. cbn [bind]. rewrite (proj2 (Nat.leb_le _ _)) by lia. cbn [safe bind]. replace (length (as_poly s) - tagsize C c)%nat with n by lia. rewrite D. reflexivity. }
  assert (P : AsymmetricSecureKey_Polynomial C s = Throw AuthenticationFailure) by apply X. split; [exact P|]. split.
  - unfold AsymmetricSecureKey_Serialize. rewrite P. rewrite AppendByte_ok. cbn [bind]. rewrite AppendByte_ok. cbn [bind]. rewrite AppendByte_ok. reflexivity.
  - intros out LO. unfold AsymmetricSecureKey_SecurePolynomial. rewrite (proj2 (Nat.ltb_ge _ _)) by lia. apply X.
Qed.
Lemma c80_reset C s kn : ciphers_ok C -> as_seed C SPNone [] = Ok kn -> AsymmetricSecureKey_Polynomial C (AsymmetricSecureKey_Reset s) = UB.
Proof.
  intros (_ & _ & T) E. unfold AsymmetricSecureKey_Polynomial, AsymmetricSecureKey_Extract, AsymmetricSecureKey_Reset. cbn [as_pol as_poly as_salt GetStreamCipher length]. rewrite E. cbn [bind].
  rewrite (proj2 (Nat.leb_gt _ _)) by apply T. reflexivity.
Qed.
Lemma c80_same C poly salt prim class params s : AsymmetricSecureKey_new C poly salt prim class params SPL256AE = Ok s ->
  exists s', AsymmetricSecureKey_new C poly salt prim class params SPL1024AE = Ok s' /\ as_poly s' = as_poly s.
Proof.
  unfold AsymmetricSecureKey_new. cbn [policy_none negb]. destruct (_ && _ && _ && _ && _); [|discriminate]. unfold AsymmetricSecureKey_Encipher. cbn [as_pol as_poly as_salt as_prim as_class as_params GetStreamCipher].
  change (as_seed C SPL1024AE salt) with (as_seed C SPL256AE salt). destruct (as_seed C SPL256AE salt) as [kn| |]; [|discriminate|discriminate]. cbn [bind]. destruct (cs_enc C _ _ _ _ _) as [ct| |]; [|discriminate|discriminate]. cbn [bind].
  destruct (wr _ _ ct) as [x| |]; [|discriminate|discriminate]. cbn [bind]. intros E. inversion E. eexists. split; reflexivity.
Qed.
Lemma seed_split C p salt kn : ciphers_ok C -> as_seed C p salt = Ok kn ->
  let c := fst (GetStreamCipher p) in
  cs_gen C (shake_of p) salt (keylen C c + ivlen C c) = Ok (fst kn ++ snd kn) /\ length (fst kn) = keylen C c /\ length (snd kn) = ivlen C c.
Proof.
  intros (HG & _) E c. unfold as_seed in E. fold c in E. destruct (cs_gen C (shake_of p) salt (keylen C c + ivlen C c)) as [x| |] eqn:EG; [|discriminate|discriminate].
  pose proof (HG _ _ _ _ EG) as L. cbn [bind] in E. rewrite wcopy_ok in E by (rewrite ?length_zeros; lia). cbn [bind] in E. rewrite wcopy_ok in E by (rewrite ?length_zeros; lia). cbn [bind] in E.
  assert (L1 : length (slice x 0 (keylen C c)) = keylen C c) by (unfold slice; rewrite firstn_length, skipn_length; lia).
  assert (L2 : length (slice x (keylen C c) (ivlen C c)) = ivlen C c) by (unfold slice; rewrite firstn_length, skipn_length; lia).
  rewrite !splice_all in E by (rewrite length_zeros; auto). inversion E; subst kn. cbn [fst snd]. repeat split; auto. f_equal.
  unfold slice. rewrite skipn_O. rewrite (firstn_all2 (n := ivlen C c)) by (rewrite skipn_length; lia). symmetry. apply firstn_skipn.
Qed.
Lemma c80_stored C poly salt prim class params p s : ciphers_ok C -> AsymmetricSecureKey_new C poly salt prim class params p = Ok s ->
  exists c auth m key nonce, In (p, c, auth, m) policy_table /\ length key = keylen C c /\ length nonce = ivlen C c /\
    cs_gen C m salt (keylen C c + ivlen C c) = Ok (key ++ nonce) /\ cs_enc C c auth key nonce poly = Ok (as_poly s).
Proof.
  intros HC E. destruct (new_inv _ _ _ _ _ _ _ _ E) as (_ & _ & _ & _ & NP & EE). destruct (encipher_inv _ _ _ _ _ _ _ _ HC EE) as (kn & ct & ES & EN & _ & _ & ->).
  destruct (seed_split _ _ _ _ HC ES) as (G & L1 & L2). exists (fst (GetStreamCipher p)), (snd (GetStreamCipher p)), (shake_of p), (fst kn), (snd kn).
  split; [destruct p; [congruence|..]; cbn [GetStreamCipher shake_of fst snd policy_table In]; tauto|]. auto.
Qed.
(** a cipher for the examples *)
Definition toyc : ciphers := Ciphers (fun _ _ n => Ok (repeat 7 n)) (fun _ => 2%nat) (fun _ => 1%nat) (fun _ => 2%nat)
  (fun _ auth k _ m => Ok (map (Z.lxor (hd 0 k)) m ++ (if auth then [1; 2] else [])))
  (fun _ auth k _ x n => if auth then match skipn n x with [1; 2] => Ok (map (Z.lxor (hd 0 k)) (firstn n x)) | _ => Throw AuthenticationFailure end else Ok (map (Z.lxor (hd 0 k)) (firstn n x))).
Lemma toyc_ok : ciphers_ok toyc.
Proof.
  assert (X : forall a l, map (Z.lxor a) (map (Z.lxor a) l) = l). { intros a l. rewrite map_map. rewrite <- (map_id l) at 2. apply map_ext. intros x. rewrite <- Z.lxor_assoc, Z.lxor_nilpotent. reflexivity. }
  split; [|split].
  - intros m salt n x E. inversion E. apply repeat_length.
  - intros c auth k n m x E. cbn [toyc cs_enc cs_dec tagsize] in *. inversion E; subst x. rewrite app_length, map_length. split; [destruct auth; reflexivity|].
    rewrite firstn_app, skipn_app, map_length, Nat.sub_diag. cbn [firstn skipn]. rewrite !app_nil_r. rewrite firstn_all2, skipn_all2 by (rewrite map_length; lia). cbn [app]. destruct auth; rewrite X; reflexivity.
  - intros c. cbn. lia.
Qed.
