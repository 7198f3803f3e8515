(** Glue: the GHASH and GCM properties from the lemmas about the model. *)
From Verif Require Import Base BaseLemmas Spec_Common Proofs_Common Spec_Modes Spec_Feed Spec_GCM Model_IntegerTools Proofs_IntegerTools Model_Modes Proofs_Windows Proofs_Modes5 ProofsP_Modes ProofsP_Modes2 Model_GHASH Proofs_GF Proofs_CMUL Proofs_GHASH Model_GCM Session_GCM Proofs_GCM.
Open Scope Z_scope.

(** * C21 *)
Lemma c21_words h : bytes h -> length h = 16%nat ->
  exists k0 k1, BeBytesTo64 h 0 = Ok k0 /\ BeBytesTo64 h 8 = Ok k1 /\
    forall x, bytes x -> length x = 16%nat -> CMUL_Permute (k0, k1) x = Ok (gmul h x).
Proof.
  intros B L. exists (fst (key_of h)), (snd (key_of h)). destruct (key_of_val h (conj B L)) as (K1 & K2).
  split; [exact K1|split; [exact K2|]]. intros x Bx Lx. exact (CMUL_Permute_correct h x B L Bx Lx).
Qed.
Lemma c21_remainder h x : bytes h -> length h = 16%nat -> bytes x -> length x = 16%nat ->
  bytes (gmul h x) /\ length (gmul h x) = 16%nat /\
  exists q, gf2_mul 128 (poly h) (poly x) = Z.lxor (poly (gmul h x)) (gf2_mul 128 gcm_modulus q).
Proof.
  intros Bh Lh Bx Lx. split; [apply bytes_gmul|split; [apply length_gmul|]].
  destruct (gf_mul_rel (poly h) (poly x)) as (R & q & _ & Q); try apply poly_range.
  exists q. unfold gmul. rewrite poly_block by exact R. exact Q.
Qed.
Lemma c21_comm h x : bytes h -> length h = 16%nat -> bytes x -> length x = 16%nat -> gmul h x = gmul x h.
Proof. intros. unfold gmul. f_equal. apply gf_mul_comm; apply poly_range. Qed.
Lemma poly_xorl a b : bytes a -> bytes b -> length a = 16%nat -> length b = 16%nat -> poly (xorl a b) = Z.lxor (poly a) (poly b).
Proof.
  intros Ba Bb La Lb. apply (bits_ext 128); [lia|apply poly_range|apply lxor_range; [lia|apply poly_range|apply poly_range]|].
  intros n Hn. rewrite Z.lxor_spec. replace n with (Z.of_nat (Z.to_nat n)) by lia.
  rewrite !poly_bit by lia. rewrite nth_xorl by lia. apply Z.lxor_spec.
Qed.
Lemma c21_linear h x y : bytes h -> length h = 16%nat -> bytes x -> length x = 16%nat -> bytes y -> length y = 16%nat ->
  gmul h (xorl x y) = xorl (gmul h x) (gmul h y).
Proof.
  intros Bh Lh Bx Lx By Ly. apply poly_inj; [apply bytes_gmul|apply bytes_xorl; apply bytes_gmul|apply length_gmul|rewrite length_xorl, !length_gmul; reflexivity|].
  rewrite poly_xorl by auto using bytes_gmul, length_gmul.
  unfold gmul. rewrite !poly_block by (apply gf_mul_rel, poly_range).
  rewrite poly_xorl by auto. apply gf_mul_xor_r, poly_range.
Qed.

(** * C22 *)
Lemma c22_run h aad ps : bytes h -> length h = 16%nat -> bytes aad -> Forall p_ok ps ->
  Z.of_nat (length aad) < 2 ^ 61 -> Z.of_nat (length (joined ps)) < 2 ^ 61 ->
  ghash_run h aad ps = Ok (ghash_of h aad (joined ps)).
Proof.
  intros Bh Lh Ba HF La Lc. assert (Hh : blk16 h) by (split; auto). unfold ghash_run.
  destruct (key_of_val h Hh) as (K1 & K2). rewrite K1, K2. cbn [bind].
  change (GHASH_Initialize GHASH_Reset (fst (key_of h), snd (key_of h))) with (gh0 h).
  rewrite (Multiply_ok h) by (auto using blk16_zeros). cbn [bind].
  set (y0 := ghash_from h (zeros 16) (pad_blocks aad)). assert (Hy : blk16 y0) by (apply ghash_from_blk, blk16_zeros).
  destruct (feed_ok h y0 ps Hh Hy HF [] (gh0 h) y0) as (g1 & t1 & E1 & G1).
  { apply ginv_start; auto. apply blk16_zeros. }
  rewrite E1. cbn [bind fst snd]. cbn [app] in G1.
  destruct (Finalize_ok h y0 (joined ps) g1 t1 (length aad) (length (joined ps)) Hh Hy G1 La Lc) as (g2 & E2 & _).
  rewrite E2. cbn [bind snd]. unfold ghash_of, y0. now rewrite <- ghash_from_app.
Qed.

(** * Sessions *)
Section S.
Variables (sizes : list nat) (E : list Z -> list Z -> list Z) (s : nat) (p : prof) (ord : nat -> list nat).
Hypothesis (HE : cipher E) (HP : small_profile p ord).
Notation run := (gcm_session sizes E s p ord).
Notation ready := (gcm_ready sizes E s p ord).

Lemma set_ad_ok k h iv enc g ad : blk16 h -> session E k h iv [] enc g -> ad_ok ad ->
  exists g1, gcm_set_ad g ad = Ok g1 /\ session E k h iv (ad_bytes ad) enc g1.
Proof.
  intros Hh S (A & _). destruct ad as [[[a o] n]|]; cbn [gcm_set_ad ad_bytes].
  - destruct A as (A1 & A2). now apply aad_ok.
  - exists g. auto.
Qed.

(** what a session does, once Initialize has produced a session with hash key [h] *)
Lemma session_enc g key iv ad inp io out oo len k h g1 : GCM_Initialize sizes E s p ord g true key iv = Ok g1 -> blk16 h -> session E k h iv [] true g1 ->
  session_ok true iv ad inp io out oo len ->
  let c := ctr_crypt (E k) (be_bytes 16) (value_be (gcm_j0 h iv) + 1) (slice inp io len) in
  exists g' out', run g true key iv ad inp io out oo len = Ok (g', out', None) /\
    written out out' oo (c ++ tag_of E k h iv (ad_bytes ad) c) /\ g_tag g' = tag_of E k h iv (ad_bytes ad) c /\ done k iv g'.
Proof using HE HP.
  intros EI Hh S (Bi & H8 & H61 & HA & Bin & Bout & Hlen & W1 & W2) c. unfold gcm_session. rewrite EI. cbn [bind].
  destruct (set_ad_ok k h iv true g1 ad Hh S HA) as (g2 & E2 & S2). rewrite E2. cbn [bind].
  apply encrypt_ok; auto. apply HA.
Qed.
Lemma session_dec g key iv ad inp io out oo len k h g1 : GCM_Initialize sizes E s p ord g false key iv = Ok g1 -> blk16 h -> session E k h iv [] false g1 ->
  session_ok false iv ad inp io out oo len ->
  let c := slice inp io len in
  exists g' out' e, run g false key iv ad inp io out oo len = Ok (g', out', e) /\ done k iv g' /\
    ((slice inp (io + len) 16 = tag_of E k h iv (ad_bytes ad) c /\ e = None /\ g_tag g' = tag_of E k h iv (ad_bytes ad) c /\
      written out out' oo (ctr_crypt (E k) (be_bytes 16) (value_be (gcm_j0 h iv) + 1) c)) \/
     (slice inp (io + len) 16 <> tag_of E k h iv (ad_bytes ad) c /\ e = Some AuthenticationFailure /\ out' = out)).
Proof using HE HP.
  intros EI Hh S (Bi & H8 & H61 & HA & Bin & Bout & Hlen & W1 & W2) c. unfold gcm_session. rewrite EI. cbn [bind].
  destruct (set_ad_ok k h iv false g1 ad Hh S HA) as (g2 & E2 & S2). rewrite E2. cbn [bind].
  apply decrypt_ok; auto. apply HA.
Qed.

Lemma init_cases g enc key iv g1 : idle g -> bytes iv -> Z.of_nat (length iv) < 2 ^ 61 -> GCM_Initialize sizes E s p ord g enc key iv = Ok g1 ->
  (key <> [] /\ legal sizes key = true /\ session E key (E key (zeros 16)) iv [] enc g1) \/
  (key = [] /\ g_cinit g = true /\ legal sizes (g_key g) = true /\ session E (g_key g) (zeros 16) iv [] enc g1).
Proof using HE HP.
  intros HI Bi H61 EI. pose proof EI as EI'. unfold GCM_Initialize in EI'.
  destruct (8 <=? length iv)%nat eqn:H8; [|discriminate]. apply Nat.leb_le in H8. cbn [guard bind] in EI'.
  destruct (gcm_load_key _ _ _ _ _ _ _) as [[gh gk]| |] eqn:EK; try discriminate. cbn [bind] in EI'.
  unfold gcm_load_key in EK. destruct (Nat.eqb_spec (length key) 0) as [K0|K0].
  - right. assert (Hk : key = []) by (destruct key; [reflexivity|discriminate]). subst key.
    unfold same_bytes in EK. destruct (list_eq_dec _ _ _) as [Q|Q]; [discriminate|]. cbn [negb guard bind] in EK.
    destruct (g_cinit g) eqn:CI; [|discriminate]. cbn [guard bind] in EK. injection EK as <- <-.
    destruct (gcm_load_nonce _ _ _) as [[gh n]| |]; try discriminate. cbn [bind] in EI'.
    destruct (legal sizes (g_key g)) eqn:LG; [|discriminate].
    destruct (init_keyless_ok sizes E s p ord HE HP g enc iv) as (g1' & E1 & S1); auto. assert (g1' = g1) by congruence. subst. auto.
  - left. destruct (legal sizes key) eqn:LG; [|discriminate].
    assert (Hk : key <> []) by (intros ->; now apply K0).
    destruct (init_ok sizes E s p ord HE HP g enc key iv) as (g1' & E1 & S1); auto. assert (g1' = g1) by congruence. subst. auto.
Qed.

Lemma session_state g enc key iv ad inp io out oo len g' out' e : idle g -> session_ok enc iv ad inp io out oo len ->
  run g enc key iv ad inp io out oo len = Ok (g', out', e) -> done (if (length key =? 0)%nat then g_key g else key) iv g'.
Proof using HE HP.
  intros HI OK R. pose proof OK as (Bi & H8 & H61 & _).
  pose proof R as R'. unfold gcm_session in R'. destruct (GCM_Initialize _ _ _ _ _ _ _ _ _) as [g1| |] eqn:EI; try discriminate. clear R'.
  set (k := if (length key =? 0)%nat then _ else _).
  assert (Q : exists h, blk16 h /\ session E k h iv [] enc g1).
  { destruct (init_cases g enc key iv g1 HI Bi H61 EI) as [(K & L & S)|(K & _ & L & S)].
    - exists (E key (zeros 16)). split; [now apply cipher_blk16, blk16_zeros|].
      assert (H0 : (length key =? 0)%nat = false) by (apply Nat.eqb_neq; destruct key; [congruence|discriminate]). unfold k. now rewrite H0.
    - exists (zeros 16). split; [apply blk16_zeros|]. subst key. exact S. }
  destruct Q as (h & Hh & S). destruct enc.
  - destruct (session_enc g key iv ad inp io out oo len k h g1 EI Hh S OK) as (g2 & o2 & R2 & _ & _ & D). congruence.
  - destruct (session_dec g key iv ad inp io out oo len k h g1 EI Hh S OK) as (g2 & o2 & e2 & R2 & D & _). congruence.
Qed.
Lemma ready_idle g : ready g -> idle g.
Proof using HE HP. induction 1; [apply idle_new|]. eapply session_state; eauto. Qed.

Lemma tag_of_spec k iv aad c : tag_of E k (E k (zeros 16)) iv aad c = gcm_tag (E k) iv aad c.
Proof. reflexivity. Qed.

(** * C23, C24 *)
Lemma c23_encrypt g key iv ad inp io out oo len : ready g -> In (length key) sizes -> key <> [] -> session_ok true iv ad inp io out oo len ->
  let c := gcm_wide (E key) iv (slice inp io len) in
  exists g' out', run g true key iv ad inp io out oo len = Ok (g', out', None) /\
    written out out' oo (c ++ gcm_tag (E key) iv (ad_bytes ad) c) /\ g_tag g' = gcm_tag (E key) iv (ad_bytes ad) c.
Proof using HE HP.
  intros R HK HN OK c. pose proof OK as (Bi & H8 & H61 & _).
  assert (L : legal sizes key = true) by (unfold legal; apply existsb_exists; exists (length key); split; auto; apply Nat.eqb_refl).
  destruct (init_ok sizes E s p ord HE HP g true key iv (ready_idle g R) L HN Bi H8 H61) as (g1 & E1 & S1).
  destruct (session_enc g key iv ad inp io out oo len key _ g1 E1 (cipher_blk16 E HE key _ blk16_zeros) S1 OK) as (g2 & o2 & R2 & W & T & _).
  exists g2, o2. auto.
Qed.
Lemma c24_decrypt g key iv ad inp io out oo len : ready g -> In (length key) sizes -> key <> [] -> session_ok false iv ad inp io out oo len ->
  let c := slice inp io len in
  exists g' out' e, run g false key iv ad inp io out oo len = Ok (g', out', e) /\
    ((slice inp (io + len) 16 = gcm_tag (E key) iv (ad_bytes ad) c /\ e = None /\ written out out' oo (gcm_wide (E key) iv c)) \/
     (slice inp (io + len) 16 <> gcm_tag (E key) iv (ad_bytes ad) c /\ e = Some AuthenticationFailure /\ out' = out)).
Proof using HE HP.
  intros R HK HN OK c. pose proof OK as (Bi & H8 & H61 & _).
  assert (L : legal sizes key = true) by (unfold legal; apply existsb_exists; exists (length key); split; auto; apply Nat.eqb_refl).
  destruct (init_ok sizes E s p ord HE HP g false key iv (ready_idle g R) L HN Bi H8 H61) as (g1 & E1 & S1).
  destruct (session_dec g key iv ad inp io out oo len key _ g1 E1 (cipher_blk16 E HE key _ blk16_zeros) S1 OK) as (g2 & o2 & e & R2 & _ & D).
  exists g2, o2, e. split; [exact R2|]. destruct D as [(D1 & D2 & _ & D4)|D]; [left|right]; auto.
Qed.
End S.

Lemma app_inj_len {A} (a b c d : list A) : length a = length c -> a ++ b = c ++ d -> a = c /\ b = d.
Proof.
  intros L Q. split.
  - apply (f_equal (firstn (length a))) in Q. rewrite firstn_app, Nat.sub_diag, firstn_all, firstn_O, app_nil_r in Q.
    rewrite L, firstn_app, Nat.sub_diag, firstn_all, firstn_O, app_nil_r in Q. exact Q.
  - apply (f_equal (skipn (length a))) in Q. rewrite skipn_app, Nat.sub_diag, skipn_all in Q.
    rewrite L, skipn_app, Nat.sub_diag, skipn_all in Q. exact Q.
Qed.
Lemma written_slice out out' o d e : (o + length (d ++ e) <= length out)%nat -> written out out' o (d ++ e) ->
  slice out' o (length d) = d /\ slice out' (o + length d) (length e) = e.
Proof.
  intros H W. apply written_eq in W; auto. subst out'. rewrite app_length in H.
  assert (Q : slice (splice out o (d ++ e)) o (length d + length e) = d ++ e).
  { rewrite <- app_length. apply slice_splice_same. rewrite app_length. lia. }
  rewrite slice_app in Q. apply app_inj_len in Q; auto. apply length_slice. rewrite length_splice; rewrite ?app_length; lia.
Qed.

Section S2.
Variables (sizes : list nat) (E : list Z -> list Z -> list Z) (s : nat) (p : prof) (ord : nat -> list nat).
Hypothesis (HE : cipher E) (HP : small_profile p ord).
Notation run := (gcm_session sizes E s p ord).
Notation ready := (gcm_ready sizes E s p ord).

Lemma gcm_wide_len k iv m : length (gcm_wide (E k) iv m) = length m.
Proof. apply length_ctr_crypt. Qed.
Lemma gcm_tag_blk k iv aad c : bytes iv -> blk16 (gcm_tag (E k) iv aad c).
Proof using HE. intros. rewrite <- tag_of_spec. apply tag_blk; auto. apply cipher_blk16, blk16_zeros; auto. Qed.

Lemma c23_round_trip g g' key iv ad ad' inp io out oo len out2 oo2 : ready g -> ready g' -> In (length key) sizes -> key <> [] ->
  session_ok true iv ad inp io out oo len -> ad_ok ad' -> ad_bytes ad' = ad_bytes ad -> bytes out2 -> (oo2 + len <= length out2)%nat ->
  exists g1 out1 g2 out2', run g true key iv ad inp io out oo len = Ok (g1, out1, None) /\
    run g' false key iv ad' out1 oo out2 oo2 len = Ok (g2, out2', None) /\
    written out2 out2' oo2 (slice inp io len).
Proof using HE HP.
  intros R R' HK HN OK AD ADE B2 W2.
  destruct (c23_encrypt sizes E s p ord HE HP g key iv ad inp io out oo len R HK HN OK) as (g1 & out1 & E1 & W1 & _).
  pose proof OK as (Bi & H8 & H61 & HA & Bin & Bout & Hlen & L1 & L2).
  set (c := gcm_wide (E key) iv (slice inp io len)) in *.
  assert (Lc : length c = len) by (unfold c; rewrite gcm_wide_len; now apply length_slice).
  pose proof (gcm_tag_blk key iv (ad_bytes ad) c Bi) as (TB & TL).
  assert (LL : (oo + length (c ++ gcm_tag (E key) iv (ad_bytes ad) c) <= length out)%nat) by (rewrite app_length; lia).
  destruct (written_slice _ _ _ _ _ LL W1) as (S1 & S2). rewrite Lc in S1, S2. rewrite TL in S2.
  assert (Bc : bytes c). { apply ctr_crypt_bytes; [now apply cipher_block|intros; now apply cipher_blk16|now apply bytes_slice]. }
  assert (B1 : bytes out1). { apply written_eq in W1; auto. rewrite W1. apply bytes_splice; auto. apply bytes_app. auto. }
  assert (OK2 : session_ok false iv ad' out1 oo out2 oo2 len).
  { unfold session_ok. assert (length out1 = length out) by apply W1. do 3 (split; [assumption|]). do 3 (split; [assumption|]). split; [assumption|]. split; [lia|assumption]. }
  destruct (c24_decrypt sizes E s p ord HE HP g' key iv ad' out1 oo out2 oo2 len R' HK HN OK2) as (g2 & o2 & e & E2 & D).
  rewrite S1, S2, ADE in D. destruct D as [(_ & -> & W)|(N & _)]; [|now contradict N].
  exists g1, out1, g2, o2. split; [exact E1|split; [exact E2|]].
  unfold c, gcm_wide in W. rewrite (ctr_twice (be_bytes 16)) in W by (first [apply length_be_bytes | now apply cipher_block]). exact W.
Qed.

(** * C25: initialization without a key *)
Lemma gmul_zero x : gmul (zeros 16) x = zeros 16.
Proof. unfold gmul. replace (poly (zeros 16)) with 0 by reflexivity. rewrite gf_mul_0_l. reflexivity. Qed.
Lemma ghash_zero a c : ghash_of (zeros 16) a c = zeros 16.
Proof.
  unfold ghash_of. rewrite app_assoc, ghash_from_app. cbn [ghash_from fold_left]. apply gmul_zero.
Qed.
Lemma keyless_j0_eq iv : gcm_j0 (zeros 16) iv = keyless_j0 iv.
Proof. unfold gcm_j0, keyless_j0. now rewrite ghash_zero. Qed.
Lemma keyless_tag k iv aad c : bytes iv -> tag_of E k (zeros 16) iv aad c = E k (keyless_j0 iv).
Proof using HE.
  intros Bi. unfold tag_of. rewrite ghash_zero, keyless_j0_eq, xorl_comm, xorl_zeros; auto.
  rewrite <- keyless_j0_eq. assert (Q := proj2 (cipher_blk16 E HE k _ (j0_blk (zeros 16) iv blk16_zeros Bi))). rewrite Q. auto.
Qed.
Lemma keyless_init g enc0 key iv0 ad0 inp0 io0 out0 oo0 len0 g1 o1 e1 : ready g -> In (length key) sizes -> key <> [] -> session_ok enc0 iv0 ad0 inp0 io0 out0 oo0 len0 ->
  run g enc0 key iv0 ad0 inp0 io0 out0 oo0 len0 = Ok (g1, o1, e1) ->
  forall enc iv, bytes iv -> (8 <= length iv)%nat -> Z.of_nat (length iv) < 2 ^ 61 -> iv <> zeros (length iv0) ->
  exists g2, GCM_Initialize sizes E s p ord g1 enc [] iv = Ok g2 /\ session E key (zeros 16) iv [] enc g2.
Proof using HE HP.
  intros R HK HN OK R0 enc iv Bi H8 H61 Hne.
  pose proof (session_state sizes E s p ord HE HP _ _ _ _ _ _ _ _ _ _ _ _ _ (ready_idle sizes E s p ord HE HP g R) OK R0) as (I & K & C & B & _).
  assert (H0 : (length key =? 0)%nat = false) by (apply Nat.eqb_neq; destruct key; [congruence|discriminate]). rewrite H0 in K.
  assert (L : legal sizes key = true) by (unfold legal; apply existsb_exists; exists (length key); split; auto; apply Nat.eqb_refl).
  destruct (init_keyless_ok sizes E s p ord HE HP g1 enc iv) as (g2 & E2 & S2); auto. { now rewrite K. } { now rewrite B. }
  exists g2. rewrite K in S2. auto.
Qed.
Lemma c25_encrypt g enc0 key iv0 ad0 inp0 io0 out0 oo0 len0 g1 o1 e1 : ready g -> In (length key) sizes -> key <> [] -> session_ok enc0 iv0 ad0 inp0 io0 out0 oo0 len0 ->
  run g enc0 key iv0 ad0 inp0 io0 out0 oo0 len0 = Ok (g1, o1, e1) ->
  forall iv ad inp io out oo len, session_ok true iv ad inp io out oo len -> iv <> zeros (length iv0) ->
  exists g2 out2, run g1 true [] iv ad inp io out oo len = Ok (g2, out2, None) /\
    written out out2 oo (ctr_crypt (E key) (be_bytes 16) (value_be (keyless_j0 iv) + 1) (slice inp io len) ++ E key (keyless_j0 iv)).
Proof using HE HP.
  intros R HK HN OK0 R0 iv ad inp io out oo len OK Hne. pose proof OK as (Bi & H8 & H61 & _).
  destruct (keyless_init g enc0 key iv0 ad0 inp0 io0 out0 oo0 len0 g1 o1 e1 R HK HN OK0 R0 true iv Bi H8 H61 Hne) as (g2 & E2 & S2).
  destruct (session_enc sizes E s p ord HE HP g1 [] iv ad inp io out oo len key (zeros 16) g2 E2 blk16_zeros S2 OK) as (g3 & o3 & R3 & W & _).
  exists g3, o3. split; [exact R3|]. rewrite keyless_tag, keyless_j0_eq in W by auto. exact W.
Qed.
Lemma c25_decrypt g enc0 key iv0 ad0 inp0 io0 out0 oo0 len0 g1 o1 e1 : ready g -> In (length key) sizes -> key <> [] -> session_ok enc0 iv0 ad0 inp0 io0 out0 oo0 len0 ->
  run g enc0 key iv0 ad0 inp0 io0 out0 oo0 len0 = Ok (g1, o1, e1) ->
  forall iv ad inp io out oo len, session_ok false iv ad inp io out oo len -> iv <> zeros (length iv0) ->
  slice inp (io + len) 16 = E key (keyless_j0 iv) ->
  exists g2 out2, run g1 false [] iv ad inp io out oo len = Ok (g2, out2, None) /\
    written out out2 oo (ctr_crypt (E key) (be_bytes 16) (value_be (keyless_j0 iv) + 1) (slice inp io len)).
Proof using HE HP.
  intros R HK HN OK0 R0 iv ad inp io out oo len OK Hne HT. pose proof OK as (Bi & H8 & H61 & _).
  destruct (keyless_init g enc0 key iv0 ad0 inp0 io0 out0 oo0 len0 g1 o1 e1 R HK HN OK0 R0 false iv Bi H8 H61 Hne) as (g2 & E2 & S2).
  destruct (session_dec sizes E s p ord HE HP g1 [] iv ad inp io out oo len key (zeros 16) g2 E2 blk16_zeros S2 OK) as (g3 & o3 & e & R3 & _ & D).
  rewrite keyless_tag, keyless_j0_eq, HT in D by auto. destruct D as [(_ & -> & _ & W)|(N & _)]; [|now contradict N].
  exists g3, o3. auto.
Qed.
End S2.

(** * C49: SP 800-38D *)
Lemma inc32_wide j n : bytes j -> length j = 16%nat -> 0 <= n -> value_be (skipn 12 j) + n < 2 ^ 32 ->
  inc32 j n = be_bytes 16 (value_be j + n).
Proof.
  intros B L Hn Hs. rewrite value_be_eq in *.
  apply be_val_inj; auto using bytes_be_bytes.
  { apply bytes_app. split; [now apply bytes_firstn|apply bytes_be_bytes]. }
  { unfold inc32. rewrite app_length, firstn_length, !length_be_bytes. lia. }
  unfold inc32. rewrite be_val_app, length_be_bytes, !be_val_be_bytes, value_be_eq.
  pose proof (be_val_range (skipn 12 j) (bytes_skipn _ _ B)) as R1. pose proof (be_val_range (firstn 12 j) (bytes_firstn _ _ B)) as R2.
  assert (Q : be_val j = be_val (skipn 12 j) + 256 ^ 4 * be_val (firstn 12 j)).
  { rewrite <- (firstn_skipn 12 j) at 1. rewrite be_val_app. rewrite skipn_length, L. reflexivity. }
  rewrite firstn_length, L in R2. rewrite Q. change (256 ^ Z.of_nat 4) with (2 ^ 32). change (256 ^ 4) with (2 ^ 32). change (256 ^ Z.of_nat 16) with (2 ^ 128).
  change (256 ^ Z.of_nat (Nat.min 12 16)) with (2 ^ 96) in R2.
  rewrite !Z.mod_small; lia.
Qed.
Lemma wide_is_gcm E iv msg : (forall b, length b = 16%nat -> bytes b -> bytes (E b) /\ length (E b) = 16%nat) -> bytes iv ->
  value_be (skipn 12 (gcm_j0 (E (zeros 16)) iv)) + Z.of_nat (blocks_for (length msg)) < 2 ^ 32 ->
  gcm_wide E iv msg = gcm_stream E (gcm_j0 (E (zeros 16)) iv) msg.
Proof.
  intros HE Bi H. unfold gcm_wide, gcm_stream, ctr_crypt. apply map_ext_in. intros i Hi. apply in_seq in Hi. do 3 f_equal.
  assert (Hh : blk16 (E (zeros 16))) by (apply HE; [reflexivity|apply bytes_zeros]).
  destruct (j0_blk _ iv Hh Bi) as (JB & JL).
  rewrite inc32_wide; auto; [|lia|].
  - f_equal. lia.
  - unfold blocks_for in H. assert (i / 16 < (length msg + 15) / 16)%nat; [|lia].
    assert (i / 16 + 1 <= (length msg + 15) / 16)%nat; [|lia].
    replace (i / 16 + 1)%nat with ((i + 1 * 16) / 16)%nat by (rewrite Nat.div_add; lia). apply Nat.div_le_mono; lia.
Qed.

Lemma c49_gcm sizes E s p ord (HE : cipher E) (HP : small_profile p ord) g key iv ad inp io out oo len :
  gcm_ready sizes E s p ord g -> In (length key) sizes -> key <> [] -> session_ok true iv ad inp io out oo len ->
  value_be (skipn 12 (gcm_j0 (E key (zeros 16)) iv)) + Z.of_nat (blocks_for len) < 2 ^ 32 ->
  exists g' out', gcm_session sizes E s p ord g true key iv ad inp io out oo len = Ok (g', out', None) /\
    written out out' oo (fst (gcm_seal (E key) iv (ad_bytes ad) (slice inp io len)) ++ snd (gcm_seal (E key) iv (ad_bytes ad) (slice inp io len))).
Proof.
  intros R HK HN OK HB. destruct (c23_encrypt sizes E s p ord HE HP g key iv ad inp io out oo len R HK HN OK) as (g' & o & E1 & W & _).
  exists g', o. split; [exact E1|]. pose proof OK as (Bi & _ & _ & _ & _ & _ & _ & W1 & _).
  rewrite wide_is_gcm in W; auto.
  { intros b L B. destruct (HE key b L). auto. }
  rewrite length_slice; auto.
Qed.
Lemma c49_twelve h iv : length iv = 12%nat -> value_be (skipn 12 (gcm_j0 h iv)) = 1.
Proof.
  intros L. unfold gcm_j0. rewrite L. cbn [Nat.eqb]. rewrite skipn_app, L, Nat.sub_diag. rewrite skipn_all2 by lia. reflexivity.
Qed.
