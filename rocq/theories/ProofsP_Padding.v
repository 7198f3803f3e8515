From Verif Require Import BaseLemmas Spec_Common Model_Padding Proofs_Padding.
Open Scope Z_scope.

Lemma c_pkcs7_round_trip inp lo o len : bytes inp -> (lo + 2 <= len)%nat -> (lo <= o < len)%nat ->
  (len - o <= 255)%nat -> (len <= length inp)%nat -> Z.of_nat len < 2 ^ 64 ->
  exists out, PKCS7_AddPadding inp o len = Ok out /\
    length out = length inp /\ firstn o out = firstn o inp /\ skipn len out = skipn len inp /\
    PKCS7_GetBlockLength_range out lo len = Ok (Z.of_nat o).
Proof. intros. now apply PKCS7_round_trip. Qed.
Lemma c_pkcs7_block inp o : bytes inp -> (2 <= length inp)%nat -> (o < length inp)%nat ->
  (length inp - o <= 255)%nat -> Z.of_nat (length inp) < 2 ^ 64 ->
  exists out, PKCS7_AddPadding inp o (length inp) = Ok out /\ firstn o out = firstn o inp /\
    PKCS7_GetBlockLength out = Ok (Z.of_nat o).
Proof.
  intros. destruct (c_pkcs7_round_trip inp 0 o (length inp)) as (out & E & L & F & _ & G); auto; try lia.
  exists out. unfold PKCS7_GetBlockLength. rewrite L. auto.
Qed.
Lemma c_x923_round_trip inp lo o len : bytes inp -> (lo + 2 <= len)%nat -> (lo <= o < len)%nat ->
  (len - o <= 255)%nat -> (len <= length inp)%nat -> Z.of_nat len < 2 ^ 64 ->
  exists out, X923_AddPadding inp o len = Ok out /\
    length out = length inp /\ firstn o out = firstn o inp /\ skipn len out = skipn len inp /\
    X923_GetBlockLength_range out lo len = Ok (Z.of_nat o).
Proof. intros. now apply X923_round_trip. Qed.
Lemma c_x923_block inp o : bytes inp -> (2 <= length inp)%nat -> (o < length inp)%nat ->
  (length inp - o <= 255)%nat -> Z.of_nat (length inp) < 2 ^ 64 ->
  exists out, X923_AddPadding inp o (length inp) = Ok out /\ firstn o out = firstn o inp /\
    X923_GetBlockLength out = Ok (Z.of_nat o).
Proof.
  intros. destruct (c_x923_round_trip inp 0 o (length inp)) as (out & E & L & F & _ & G); auto; try lia.
  exists out. unfold X923_GetBlockLength. rewrite L. auto.
Qed.
Lemma c_esp_round_trip inp lo o len : bytes inp -> (lo <= o < len)%nat ->
  (len - o <= 255)%nat -> (len <= length inp)%nat -> Z.of_nat len < 2 ^ 64 ->
  exists out, ESP_AddPadding inp o len = Ok out /\
    length out = length inp /\ firstn o out = firstn o inp /\ skipn len out = skipn len inp /\
    ESP_GetBlockLength_range out lo len = Ok (Z.of_nat o).
Proof. intros. now apply ESP_round_trip. Qed.
Lemma c_esp_block inp o : bytes inp -> (o < length inp)%nat ->
  (length inp - o <= 255)%nat -> Z.of_nat (length inp) < 2 ^ 64 ->
  exists out, ESP_AddPadding inp o (length inp) = Ok out /\ firstn o out = firstn o inp /\
    ESP_GetBlockLength out = Ok (Z.of_nat o).
Proof.
  intros. destruct (c_esp_round_trip inp 0 o (length inp)) as (out & E & L & F & _ & G); auto; try lia.
  exists out. unfold ESP_GetBlockLength. rewrite L. auto.
Qed.
Lemma c_zeroone_round_trip inp lo o len : bytes inp -> (lo <= o < len)%nat ->
  (len <= length inp)%nat -> Z.of_nat len < 2 ^ 64 ->
  exists out, ZeroOne_AddPadding inp o len = Ok out /\
    length out = length inp /\ firstn o out = firstn o inp /\ skipn len out = skipn len inp /\
    ZeroOne_GetBlockLength_range out lo len = Ok (Z.of_nat o).
Proof. intros. now apply ZeroOne_round_trip. Qed.
Lemma c_zeroone_block inp o : bytes inp -> (o < length inp)%nat ->
  Z.of_nat (length inp) < 2 ^ 64 ->
  exists out, ZeroOne_AddPadding inp o (length inp) = Ok out /\ firstn o out = firstn o inp /\
    ZeroOne_GetBlockLength out = Ok (Z.of_nat o).
Proof.
  intros. destruct (c_zeroone_round_trip inp 0 o (length inp)) as (out & E & L & F & _ & G); auto; try lia.
  exists out. unfold ZeroOne_GetBlockLength. rewrite L. auto.
Qed.

Lemma dec_valid (P Q : Prop) (r a b : Z) : (P -> r = a) -> (~ P -> r = b) -> r <> b -> ~ ~ P.
Proof. intros H1 H2 N H. apply N. auto. Qed.

Lemma c11_pkcs7_sound inp r : bytes inp -> (2 <= length inp)%nat -> Z.of_nat (length inp) < 2 ^ 64 ->
  PKCS7_GetBlockLength inp = Ok r -> 0 <= r <= Z.of_nat (length inp) /\
  (r < Z.of_nat (length inp) ->
   forall i, (0 < i < length inp)%nat -> r <= Z.of_nat i -> nth i inp 0 = Z.of_nat (length inp) - r).
Proof.
  intros Hb H2 Hs E. destruct (PKCS7_spec inp 0 (length inp) Hb ltac:(lia) ltac:(lia) Hs) as (r' & E' & V & N).
  unfold PKCS7_GetBlockLength in E. rewrite E in E'. injection E' as <-. unfold sz in *.
  set (p := nth (length inp - 1) inp 0) in *. pose proof (bytes_nth inp (length inp - 1) Hb) as Bp. fold p in Bp. red in Bp.
  split.
  - destruct (Z_le_dec 0 r), (Z_le_dec r (Z.of_nat (length inp))); try (split; assumption); exfalso;
    (assert (NN : ~ ~ pkcs7_valid inp 0 (length inp)) by (intros Q; apply N in Q; lia));
    apply NN; intros Q; pose proof (V Q); destruct Q as [Q1 _]; fold p in Q1; unfold sz in Q1; lia.
  - intros Hr i Hi Hri. destruct (Z.eq_dec (nth i inp 0) (Z.of_nat (length inp) - r)); [assumption|exfalso].
    assert (NN : ~ ~ pkcs7_valid inp 0 (length inp)) by (intros Q; apply N in Q; lia).
    apply NN; intros Q. pose proof (V Q) as R. destruct Q as [Q1 Q2]. fold p in Q1, Q2. unfold sz in *.
    destruct (Nat.eq_dec i (length inp - 1)) as [->|].
    + fold p in n. lia.
    + rewrite (Q2 i) in n by lia. lia.
Qed.
Lemma c11_x923_sound inp r : bytes inp -> (2 <= length inp)%nat -> Z.of_nat (length inp) < 2 ^ 64 ->
  X923_GetBlockLength inp = Ok r -> 0 <= r <= Z.of_nat (length inp) /\
  (r < Z.of_nat (length inp) -> nth (length inp - 1) inp 0 = Z.of_nat (length inp) - r /\
   forall i, (0 < i < length inp - 1)%nat -> r <= Z.of_nat i -> nth i inp 0 = 0).
Proof.
  intros Hb H2 Hs E. destruct (X923_spec inp 0 (length inp) Hb ltac:(lia) ltac:(lia) Hs) as (r' & E' & V & N).
  unfold X923_GetBlockLength in E. rewrite E in E'. injection E' as <-. unfold sz in *.
  set (p := nth (length inp - 1) inp 0) in *. pose proof (bytes_nth inp (length inp - 1) Hb) as Bp. fold p in Bp. red in Bp.
  split; [|intros Hr; split].
  - destruct (Z_le_dec 0 r), (Z_le_dec r (Z.of_nat (length inp))); try (split; assumption); exfalso;
    (assert (NN : ~ ~ x923_valid inp 0 (length inp)) by (intros Q; apply N in Q; lia));
    apply NN; intros Q; pose proof (V Q); destruct Q as [Q1 _]; fold p in Q1; unfold sz in Q1; lia.
  - destruct (Z.eq_dec p (Z.of_nat (length inp) - r)); [assumption|exfalso].
    assert (NN : ~ ~ x923_valid inp 0 (length inp)) by (intros Q; apply N in Q; lia).
    apply NN; intros Q. pose proof (V Q) as R. lia.
  - intros i Hi Hri. destruct (Z.eq_dec (nth i inp 0) 0); [assumption|exfalso].
    assert (NN : ~ ~ x923_valid inp 0 (length inp)) by (intros Q; apply N in Q; lia).
    apply NN; intros Q. pose proof (V Q) as R. destruct Q as [Q1 Q2]. fold p in Q1, Q2. unfold sz in *.
    apply n, Q2; lia.
Qed.
Lemma esp_chain inp m : bytes inp -> forall k, (k <= m)%nat -> (m < length inp)%nat ->
  (forall i, (m - k < i <= m)%nat -> nth (i - 1) inp 0 = (nth i inp 0 - 1) mod 256) ->
  Z.of_nat k < nth m inp 0 -> nth (m - k) inp 0 = nth m inp 0 - Z.of_nat k.
Proof.
  intros Hb. induction k as [|k IH]; intros Hk Hm H Hp.
  - rewrite Nat.sub_0_r. lia.
  - pose proof (bytes_nth inp m Hb) as B. red in B.
    assert (IH' := IH ltac:(lia) Hm ltac:(intros; apply H; lia) ltac:(lia)).
    replace (m - S k)%nat with (m - k - 1)%nat by lia. rewrite H, IH' by lia. rewrite Z.mod_small by lia. lia.
Qed.
Lemma c11_esp_sound inp r : bytes inp -> (1 <= length inp)%nat -> Z.of_nat (length inp) < 2 ^ 64 ->
  ESP_GetBlockLength inp = Ok r -> 0 <= r <= Z.of_nat (length inp) /\
  (r < Z.of_nat (length inp) ->
   forall i, (i < length inp)%nat -> r <= Z.of_nat i -> nth i inp 0 = Z.of_nat i - r + 1).
Proof.
  intros Hb H2 Hs E. destruct (ESP_spec inp 0 (length inp) Hb ltac:(lia) ltac:(lia) Hs) as (r' & E' & V & N).
  unfold ESP_GetBlockLength in E. rewrite E in E'. injection E' as <-. unfold sz in *.
  set (p := nth (length inp - 1) inp 0) in *. pose proof (bytes_nth inp (length inp - 1) Hb) as Bp. fold p in Bp. red in Bp.
  split.
  - destruct (Z_le_dec 0 r), (Z_le_dec r (Z.of_nat (length inp))); try (split; assumption); exfalso;
    (assert (NN : ~ ~ esp_valid inp 0 (length inp)) by (intros Q; apply N in Q; lia));
    apply NN; intros Q; pose proof (V Q); destruct Q as [Q1 _]; fold p in Q1; unfold sz in Q1; lia.
  - intros Hr i Hi Hri. destruct (Z.eq_dec (nth i inp 0) (Z.of_nat i - r + 1)) as [|n]; [assumption|exfalso].
    assert (NN : ~ ~ esp_valid inp 0 (length inp)) by (intros Q; apply N in Q; lia).
    apply NN; intros Q. pose proof (V Q) as R. destruct Q as [Q1 Q2]. fold p in Q1, Q2. unfold sz in *.
    apply n. pose proof (esp_chain inp (length inp - 1) Hb (length inp - 1 - i) ltac:(lia) ltac:(lia)) as C.
    fold p in C. replace (length inp - 1 - (length inp - 1 - i))%nat with i in C by lia.
    rewrite C; try lia. intros j Hj. apply Q2; lia.
Qed.
Lemma c11_pkcs7_refuted : exists inp, bytes inp /\ length inp = 3%nat /\
  nth 0 inp 0 <> nth 2 inp 0 /\ PKCS7_GetBlockLength inp = Ok 0.
Proof. exists [5; 3; 3]. split; [solve_bytes|]. split; [reflexivity|]. split; [cbn; lia|reflexivity]. Qed.
Lemma c11_x923_refuted : exists inp, bytes inp /\ length inp = 3%nat /\
  nth 0 inp 0 <> 0 /\ X923_GetBlockLength inp = Ok 0.
Proof. exists [5; 0; 3]. split; [solve_bytes|]. split; [reflexivity|]. split; [cbn; lia|reflexivity]. Qed.
Lemma c11_short inp : (length inp < 2)%nat ->
  PKCS7_GetBlockLength inp = UB /\ X923_GetBlockLength inp = UB.
Proof. destruct inp as [|x [|y t]]; cbn [length]; intros; try lia; split; reflexivity. Qed.
