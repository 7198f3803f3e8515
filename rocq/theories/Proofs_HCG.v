(** The HCG object. *)
From Verif Require Import BaseLemmas Spec_Common Proofs_Common Spec_Feed Spec_MAC Spec_HCG Model_IntegerTools Proofs_IntegerTools Proofs_IntegerTools2 Model_Modes Proofs_Windows Model_HMAC Session_Digest Session_Mac Session_MacObjs Proofs_Mac Proofs_HMAC
  Model_CSG Session_CSG Proofs_CSG Model_HCG Session_HCG.
Open Scope Z_scope.

(** the counter *)
Lemma be8_add c d : 0 <= d < 65280 -> BeIncrease8 4 (be_bytes 8 c) (be_bytes 8 c) (u32 d) = Ok (be_bytes 8 ((c + d) mod 2 ^ 64)).
Proof.
  intros Hd. assert (E32 : u32 d = d) by (unfold u32; apply Z.mod_small; lia). rewrite E32.
  destruct (BeIncrease8_spec 4 (be_bytes 8 c) (be_bytes 8 c) d) as (r & E & B & L & I).
  - apply bytes_be_bytes.
  - intros Q. apply (f_equal (@length Z)) in Q. rewrite length_be_bytes in Q. discriminate.
  - reflexivity.
  - rewrite E. f_equal. rewrite length_be_bytes in *. rewrite be_val_be_bytes in I.
    rewrite (Z.mod_small d) in I by (change (256 ^ Z.of_nat 4) with (2 ^ 32); lia).
    assert (V : be_val r = (c mod 256 ^ Z.of_nat 8 + d) mod 256 ^ Z.of_nat 8).
    { apply I. intros (j & Hj & Q1 & Q2). destruct j as [|[|j]].
      - change (256 ^ Z.of_nat 0) with 1 in Q2. rewrite !Z.mod_1_r in Q2. lia.
      - change (256 ^ Z.of_nat 1) with 256 in Q1. rewrite Z.mod_small in Q1; lia.
      - rewrite Z.div_small in Q1; [rewrite Z.mod_0_l in Q1 by lia; lia|]. assert (256 ^ 2 <= 256 ^ Z.of_nat (S (S j))) by (apply Z.pow_le_mono_r; lia). lia. }
    rewrite <- (be_bytes_be_val r) by auto. rewrite V, L. change (2 ^ 64) with (256 ^ Z.of_nat 8). f_equal. apply Zplus_mod_idemp_l.
Qed.

Section hcg.
Context {D : Type} (rate n : nat) (dupd : D -> list Z -> nat -> nat -> res D) (dfin : D -> list Z -> nat -> res (D * list Z)) (dnew : D).
Context (A : D -> list Z -> Prop) (H : list Z -> list Z).
Hypothesis Hn : rate = (n + n)%nat.
Hypothesis Hn8 : (8 <= n <= 64)%nat.
Hypothesis Anew : A dnew [].
Hypothesis Aupd : forall o m p, A o m -> p_ok p -> exists o', dupd o (p_in p) (p_off p) (p_len p) = Ok o' /\ A o' (m ++ p_data p).
Hypothesis Afin : forall o m out oo, A o m -> (oo + n <= length out)%nat -> dfin o out oo = Ok (dnew, splice out oo (H m)).
Hypothesis Hlen : forall m, length (H m) = n.
Hypothesis Hbytes : forall m, bytes (H m).
Let HRR := HR rate A H.
Lemma nle : (n <= rate)%nat. Proof. lia. Qed.
Lemma half : (rate / 2)%nat = n. Proof. rewrite Hn. symmetry. apply (Nat.div_unique _ _ _ 0); lia. Qed.
Lemma mupd k m o d : HRR (MOn k m) o -> bytes d -> exists o', HMAC_Update dupd o d 0 (length d) = Ok o' /\ HRR (MOn k (m ++ d)) o'.
Proof.
  intros HO B. destruct (hupd rate n dupd dfin dnew A H nle Aupd Afin Hlen Hbytes k m o (Piece d 0 (length d)) HO ltac:(cbn; lia) B) as (o' & E & R). exists o'. split; [exact E|].
  unfold p_data in R. cbn [p_in p_off p_len] in R. now rewrite slice_all in R by reflexivity.
Qed.
Lemma mfin k m o out oo : HRR (MOn k m) o -> (oo + n <= length out)%nat ->
  exists o', HMAC_Finalize n dupd dfin o out oo = Ok (o', splice out oo (hmac H rate k m)) /\ HRR (MOn k []) o'.
Proof. intros. eapply (hfin rate n dupd dfin dnew A H nle Anew Aupd Afin Hlen Hbytes); eauto. Qed.
Lemma mkey st o key : HRR st o -> bytes key -> (8 <= length key)%nat -> exists o', HCG_rekey rate n dupd dfin dnew o key = Ok o' /\ HRR (MOn key []) o'.
Proof.
  intros HO B L. unfold HCG_rekey.
  assert (exists o1, HRR MNone o1 /\ HMAC_Initialize rate n dupd dfin dnew o key = HMAC_Initialize rate n dupd dfin dnew o1 key) as (o1 & R1 & E2).
  { destruct st as [|k m|]; [exists o; auto| |contradiction]. destruct (hreset rate n dupd dfin dnew A H nle Anew Aupd Afin Hlen Hbytes o _ HO) as (o1 & Er & R1). exists o1. split; [exact R1|].
    unfold HMAC_Initialize. rewrite (proj2 (Nat.ltb_ge _ _) L), (proj1 HO : h_init o = true), Er, (proj1 R1 : h_init o1 = false). reflexivity. }
  rewrite E2. destruct (hinit rate n dupd dfin dnew A H nle Anew Aupd Afin Hlen Hbytes o1 key R1 B L) as (o' & -> & R'). cbn [bind fst snd]. eauto.
Qed.
Lemma mlen k m : length (hmac H rate k m) = n. Proof. apply Hlen. Qed.
Lemma mbytes k m : bytes (hmac H rate k m). Proof. apply Hbytes. Qed.

(** * one block *)
Section key.
Context (K code : list Z).
Hypothesis Hc : bytes code.
Definition Rx (x : hmac_obj D * list Z * list Z) (y : Z * list Z) : Prop :=
  HRR (MOn K []) (fst (fst x)) /\ snd (fst x) = be_bytes 8 (fst y) /\ snd x = snd y /\ bytes (snd y) /\ length (snd y) = n.
Let fill := HCG_fill rate n dupd dfin code.
Lemma fill_rel x y : Rx x y -> fill (fst x) (snd x) = Ok (fstep fill x) /\ Rx (fstep fill x) (next_block H rate K code y).
Proof.
  intros (H1 & H2 & H3 & H4 & H5). destruct x as [[m nonce] buf]. destruct y as [c V]. cbn [fst snd] in *. subst nonce buf.
  assert (exists z, fill (m, be_bytes 8 c) V = Ok z /\ Rx z (next_block H rate K code (c, V))) as (z & E & R).
  { unfold fill, HCG_fill. destruct (mupd K [] m V H1 H4) as (m1 & -> & R1). cbn [bind]. destruct (mupd K _ m1 code R1 Hc) as (m2 & -> & R2). cbn [bind].
    rewrite be8_add by lia. cbn [bind]. set (c' := (c + Z.of_nat rate) mod 2 ^ 64). destruct (mupd K _ m2 (be_bytes 8 c') R2 (bytes_be_bytes _ _)) as (m3 & -> & R3). cbn [bind].
    destruct (mfin K _ m3 V 0%nat R3 ltac:(lia)) as (m4 & -> & R4). cbn [bind fst snd]. eexists. split; [reflexivity|]. unfold Rx, next_block. cbn [fst snd]. fold c'. cbn [app].
    rewrite splice_all by (rewrite mlen; lia). rewrite <- app_assoc. split; [exact R4|]. split; [reflexivity|]. split; [reflexivity|]. split; [apply mbytes|apply mlen]. }
  unfold fstep. cbn [fst snd]. rewrite E. auto.
Qed.
Definition Ix (x : hmac_obj D * list Z * list Z) : Prop := exists y, Rx x y.
Lemma fill_inv x : Ix x -> length (snd x) = n -> fill (fst x) (snd x) = Ok (fstep fill x) /\ Ix (fstep fill x) /\ length (snd (fstep fill x)) = n.
Proof. intros (y & R) _. destruct (fill_rel x y R) as [E R']. split; [exact E|]. split; [now exists (next_block H rate K code y)|]. destruct R' as (_ & _ & -> & _ & L). exact L. Qed.
Lemma iter_rel k x y : Rx x y -> Rx (Nat.iter k (fstep fill) x) (Nat.iter k (next_block H rate K code) y).
Proof. intros R. induction k as [|k IH]; [exact R|]. exact (proj2 (fill_rel _ _ IH)). Qed.
Lemma made_blocks k : forall x y, Rx x y -> made fill k x = next_blocks H rate K code k y.
Proof. induction k as [|k IH]; intros x y R; [reflexivity|]. cbn [made next_blocks]. destruct (fill_rel x y R) as [_ R']. rewrite (IH _ _ R'). f_equal. apply R'. Qed.
End key.

(** * the object *)
Definition hrel (o : hcg D) (g : hgen) : Prop :=
  HRR (if hg_ready g then MOn (hg_key g) [] else MNone) (hc_mac o) /\ hc_nonce o = be_bytes 8 (fst (hg_x g)) /\ hc_code o = hg_code g /\ bytes (hg_code g) /\
  hc_buf o = snd (hg_x g) /\ bytes (snd (hg_x g)) /\ length (snd (hg_x g)) = n /\ hc_cached o = hg_left g /\ (hg_left g <= n)%nat /\
  hc_counter o = hg_since g /\ hc_reseed o = hg_reseeds g /\ hc_ready o = hg_ready g /\ hc_calls o = hg_calls g.
Lemma hrel_new : hrel (HCG_new rate dnew) (hgen_new n).
Proof.
  unfold hrel, HCG_new, hgen_new. cbn [hc_mac hc_nonce hc_code hc_buf hc_cached hc_counter hc_reseed hc_ready hc_calls hg_ready hg_key hg_code hg_x hg_left hg_since hg_reseeds hg_calls fst snd].
  rewrite half. split; [unfold HRR; eapply hmac_new_HR; eauto using nle|]. split; [reflexivity|]. split; [reflexivity|]. split; [constructor|]. split; [reflexivity|]. split; [apply bytes_zeros|]. split; [apply length_zeros|].
  repeat split; lia.
Qed.
Lemma wipe_bytes av V : bytes V -> bytes (wipe n av V).
Proof. intros B. unfold wipe. destruct (av =? 0)%nat; [exact B|]. apply bytes_app. split; [apply bytes_zeros|]. now apply bytes_skipn. Qed.
Lemma wipe_len av V : (av <= n)%nat -> length V = n -> length (wipe n av V) = n.
Proof. intros La L. unfold wipe. destruct (av =? 0)%nat; [exact L|]. rewrite app_length, length_zeros, skipn_length. lia. Qed.
Lemma next_blocks_len K code k : forall y, length (next_blocks H rate K code k y) = (k * n)%nat.
Proof. induction k as [|k IH]; intros y; [reflexivity|]. cbn [next_blocks]. rewrite app_length, IH. cbn [next_block snd]. rewrite mlen. lia. Qed.
Lemma needed_range g len : (len - hg_left g <= needed n g len * n < len - hg_left g + n)%nat.
Proof. exact (bf_range n ltac:(lia) (len - hg_left g)). Qed.
Lemma needed_0 g len : (len <= hg_left g)%nat -> needed n g len = 0%nat.
Proof. intros L. unfold needed. replace (len - hg_left g)%nat with 0%nat by lia. exact (bf_0 n ltac:(lia)). Qed.
Lemma hnext_len g len : length (snd (hg_x g)) = n -> (hg_left g <= n)%nat -> length (hnext_bytes H rate n g len) = len.
Proof.
  intros L Hl. unfold hnext_bytes. rewrite firstn_length, app_length, skipn_length, next_blocks_len, L. pose proof (needed_range g len). lia.
Qed.
Lemma hexpand o g out oo len : hrel o g -> hg_ready g = true -> (oo + len <= length out)%nat ->
  exists m nonce buf, Expand (HCG_fill rate n dupd dfin (hc_code o)) (hc_mac o, hc_nonce o) (hc_buf o) (hc_cached o) out oo len =
    Ok (m, nonce, buf, hg_left (hadvance H rate n g len), splice out oo (hnext_bytes H rate n g len)) /\
  forall c r, hrel (Hcg m nonce (hc_code o) buf (hg_left (hadvance H rate n g len)) c r (hc_ready o) (hc_calls o)) (hwith_counts (hadvance H rate n g len) c r).
Proof.
  intros (H1 & H2 & H3 & H4 & H5 & H6 & H7 & H8 & H9 & H10 & H11 & H12 & H13) RD HO. rewrite RD in H1.
  assert (R : Rx (hg_key g) (hc_mac o, hc_nonce o, hc_buf o) (hg_x g)) by (unfold Rx; cbn [fst snd]; auto).
  rewrite H3 in *. set (fill := HCG_fill rate n dupd dfin (hg_code g)) in *.
  pose proof (Expand_ok fill n (Ix (hg_key g)) ltac:(lia) (fill_inv (hg_key g) (hg_code g) H4) (hc_mac o, hc_nonce o, hc_buf o) (hc_cached o) out oo len (ex_intro _ _ R) ltac:(cbn [snd]; rewrite H5; exact H7) ltac:(lia) HO) as E.
  cbv zeta in E. cbn [fst snd] in E. rewrite H8, H5 in E. change (bf n (len - hg_left g)) with (needed n g len) in E. set (k := needed n g len) in *.
  rewrite H5 in R. unfold fill in E at 5. rewrite (made_blocks (hg_key g) (hg_code g) H4 k _ _ R) in E.
  pose proof (iter_rel (hg_key g) (hg_code g) H4 k _ _ R) as RK. fold fill in RK, E. set (z := Nat.iter k (fstep fill) (hc_mac o, hc_nonce o, snd (hg_x g))) in *.
  destruct RK as (K1 & K2 & K3 & K4 & K5). set (y := Nat.iter k (next_block H rate (hg_key g) (hg_code g)) (hg_x g)) in *.
  rewrite H5, H8. exists (fst (fst z)), (snd (fst z)), (if (k =? 0)%nat then snd z else wipe n (hg_left g + k * n - len) (snd z)). split.
  - rewrite E. rewrite <- (surjective_pairing (fst z)). reflexivity.
  - intros c r. pose proof (needed_range g len) as NR. fold k in NR.
    assert (LA : (hg_left g + k * n - len <= n)%nat) by (destruct (Nat.le_gt_cases len (hg_left g)) as [Q|Q]; [unfold k; rewrite (needed_0 _ _ Q); lia|lia]).
    unfold hrel, hwith_counts, hadvance. cbn [hc_mac hc_nonce hc_code hc_buf hc_cached hc_counter hc_reseed hc_ready hc_calls hg_ready hg_key hg_code hg_x hg_left hg_since hg_reseeds hg_calls fst snd].
    fold k y. rewrite RD, K3.
    assert (EV : (if ((k =? 0) || (hg_left g + k * n - len =? 0))%nat then snd y else zeros (n - (hg_left g + k * n - len)) ++ skipn (n - (hg_left g + k * n - len)) (snd y)) = (if (k =? 0)%nat then snd y else wipe n (hg_left g + k * n - len) (snd y))).
    { destruct (k =? 0)%nat; [reflexivity|]. cbn [orb]. reflexivity. }
    rewrite EV. split; [exact K1|]. split; [exact K2|]. split; [reflexivity|]. split; [exact H4|]. split; [reflexivity|].
    split; [destruct (k =? 0)%nat; [exact K4|now apply wipe_bytes]|]. split; [destruct (k =? 0)%nat; [exact K5|now apply wipe_len]|]. rewrite RD in H12. auto 10.
Qed.
Lemma Fill_rel o K x : HRR (MOn K []) (hc_mac o) -> hc_nonce o = be_bytes 8 (fst x) -> bytes (hc_code o) -> hc_buf o = snd x -> bytes (snd x) -> length (snd x) = n ->
  exists o', HCG_Fill rate n dupd dfin o = Ok o' /\ HRR (MOn K []) (hc_mac o') /\
    o' = Hcg (hc_mac o') (be_bytes 8 (fst (next_block H rate K (hc_code o) x))) (hc_code o) (snd (next_block H rate K (hc_code o) x)) n (hc_counter o) (hc_reseed o) (hc_ready o) (hc_calls o).
Proof.
  intros H1 H2 H3 H4 H5 H6. unfold HCG_Fill.
  destruct (fill_rel K (hc_code o) H3 (hc_mac o, hc_nonce o, hc_buf o) x) as [E (R1 & R2 & R3 & R4 & R5)]; [unfold Rx; cbn [fst snd]; auto|]. cbn [fst snd] in E. rewrite E. cbn [bind].
  destruct (fstep _ _) as [[m nonce] buf]. cbn [fst snd] in *. subst nonce buf. eexists. split; [reflexivity|]. cbn [hc_mac]. split; [exact R1|]. now rewrite R5.
Qed.
(** a new seed in the first half of tmpk *)
Lemma renew_rel o g tmpk seed : hrel o g -> hg_ready g = true -> bytes seed -> length seed = n -> length tmpk = rate -> firstn n tmpk = seed ->
  exists o', HCG_renew rate n dupd dfin dnew o tmpk = Ok o' /\ hrel o' (hreseed H rate n g seed).
Proof.
  intros (H1 & H2 & H3 & H4 & H5 & H6 & H7 & H8 & H9 & H10 & H11 & H12 & H13) RD Bs Ls Lt Et. rewrite RD in H1. unfold HCG_renew.
  destruct (Fill_rel o (hg_key g) (hg_x g) H1 H2 ltac:(rewrite H3; exact H4) H5 H6 H7) as (o1 & -> & R1 & E1). cbn [bind]. rewrite H3 in E1. set (x1 := next_block H rate (hg_key g) (hg_code g) (hg_x g)) in *.
  rewrite E1. cbn [hc_mac hc_buf]. assert (B1 : bytes (snd x1)) by apply mbytes. assert (L1 : length (snd x1) = n) by apply mlen.
  destruct (mupd _ _ (hc_mac o1) (snd x1) R1 B1) as (m2 & -> & R2). cbn [bind app] in *. rewrite Lt, half.
  destruct (mfin _ _ m2 tmpk n R2 ltac:(lia)) as (m3 & -> & R3). cbn [bind fst snd].
  assert (EK : splice tmpk n (hmac H rate (hg_key g) (snd x1)) = seed ++ hmac H rate (hg_key g) (snd x1)).
  { unfold splice. rewrite mlen, Et. rewrite skipn_all2 by lia. now rewrite app_nil_r. }
  rewrite EK. set (K := seed ++ hmac H rate (hg_key g) (snd x1)).
  assert (BK : bytes K) by (apply bytes_app; split; [exact Bs|apply mbytes]). assert (LK : length K = rate) by (unfold K; rewrite app_length, mlen; lia).
  destruct (mkey _ m3 K R3 BK ltac:(lia)) as (m4 & -> & R4). cbn [bind].
  destruct (Fill_rel (set_mac (Hcg (hc_mac o1) (be_bytes 8 (fst x1)) (hg_code g) (snd x1) n (hc_counter o) (hc_reseed o) (hc_ready o) (hc_calls o)) m4) K x1 R4 eq_refl H4 eq_refl B1 L1) as (o5 & -> & R5 & E5).
  exists o5. split; [reflexivity|]. rewrite E5. unfold hrel, hreseed. fold x1 K. cbn [set_mac hc_mac hc_nonce hc_code hc_buf hc_cached hc_counter hc_reseed hc_ready hc_calls hg_ready hg_key hg_code hg_x hg_left hg_since hg_reseeds hg_calls fst snd].
  rewrite RD in *. split; [exact R5|]. split; [reflexivity|]. split; [reflexivity|]. split; [exact H4|]. split; [reflexivity|]. split; [apply mbytes|]. split; [apply mlen|]. auto 10.
Qed.

(** * the calls *)
Context (name : list Z) (prov : option (nat -> nat -> list Z)) (thr : Z).
Hypothesis Bn : bytes name.
Hypothesis Ln : (length name <= 200)%nat.
Hypothesis HP : provider_ok prov.
Lemma strength_bytes : le_bytes 2 (u16 (Z.of_nat (HCG_strength rate))) = le_bytes 2 (Z.of_nat (rate / 4) * 8).
Proof. unfold HCG_strength. rewrite Nat2Z.inj_mul. change (Z.of_nat 8) with 8. f_equal. unfold u16. apply Z.mod_small. assert (rate / 4 <= rate)%nat by (apply Nat.div_le_upper_bound; lia). lia. Qed.
Lemma strength_8 : (HCG_strength rate / 8)%nat = (rate / 4)%nat.
Proof. unfold HCG_strength. now rewrite Nat.div_mul by lia. Qed.
Lemma splice0 (l d : list Z) : splice l 0 d = d ++ skipn (length d) l. Proof. reflexivity. Qed.
Lemma start_nonce iv : (if negb (length iv =? 0)%nat then wcopy iv 0 (zeros 8) 0 (Nat.min (length iv) (length (zeros 8))) else Ok (zeros 8)) = Ok (firstn 8 (iv ++ zeros 8)).
Proof.
  rewrite length_zeros. destruct (Nat.eqb_spec (length iv) 0) as [E|E]; cbn [negb].
  - destruct iv; [|discriminate]. reflexivity.
  - rewrite wcopy_ok by (rewrite ?length_zeros; lia). f_equal. rewrite splice0. change (slice iv 0 (Nat.min (length iv) 8)) with (firstn (Nat.min (length iv) 8) iv). rewrite firstn_length.
    destruct (Nat.le_gt_cases 8 (length iv)) as [L|L].
    + replace (Nat.min (Nat.min (length iv) 8) (length iv)) with 8%nat by lia. replace (Nat.min (length iv) 8) with 8%nat by lia. rewrite (skipn_all2 (n := 8) (zeros 8)) by (rewrite length_zeros; lia). rewrite app_nil_r. rewrite firstn_app. replace (8 - length iv)%nat with 0%nat by lia. now rewrite firstn_O, app_nil_r.
    + replace (Nat.min (Nat.min (length iv) 8) (length iv)) with (length iv) by lia. replace (Nat.min (length iv) 8) with (length iv) by lia. rewrite (firstn_all2 iv) by lia. rewrite firstn_app, (firstn_all2 iv) by lia. f_equal. generalize dependent (length iv). intros k _ L. clear - L. do 8 (destruct k as [|k]; [reflexivity|]). lia.
Qed.
Lemma hinit_rel o g key iv info : hrel o g -> hcall_ok (GInit key iv info) -> (16 <= length key)%nat ->
  exists o', HCG_Initialize rate n dupd dfin dnew name o key iv info = Ok o' /\ hrel o' (hkeyed H rate name g key iv info).
Proof.
  intros (H1 & H2 & H3 & H4 & H5 & H6 & H7 & H8 & H9 & H10 & H11 & H12 & H13) (Bk & Bv & Bi & Li) LK. unfold HCG_Initialize.
  replace (length key <? 16)%nat with false by (symmetry; apply Nat.ltb_ge; lia). cbn [negb guard bind].
  cbn [HCG_Reset hc_mac hc_nonce hc_code hc_buf hc_cached hc_counter hc_reseed hc_ready hc_calls]. rewrite H2, length_be_bytes, start_nonce. cbn [bind app]. rewrite strength_bytes.
  change (67 :: 69 :: 88 :: 45 :: name ++ le_bytes 2 (Z.of_nat (rate / 4) * 8) ++ info) with (hcode rate name info). set (code := hcode rate name info).
  assert (BC : bytes code) by (unfold code, hcode; apply bytes_app; split; [repeat (constructor; [red; lia|]); constructor|]; apply bytes_app; split; [exact Bn|]; apply bytes_app; split; [apply bytes_le_bytes|exact Bi]).
  assert (LC : Z.of_nat (length code) < 65280) by (unfold code, hcode; rewrite !app_length, length_le_bytes; cbn [length]; lia).
  destruct (mkey _ (hc_mac o) key H1 Bk ltac:(lia)) as (m1 & -> & R1). cbn [bind].
  set (iv8 := firstn 8 (iv ++ zeros 8)). assert (B8 : bytes iv8) by (apply bytes_firstn, bytes_app; split; [exact Bv|apply bytes_zeros]).
  assert (L8 : length iv8 = 8%nat) by (unfold iv8; rewrite firstn_length, app_length, length_zeros; lia).
  rewrite <- (be_bytes_be_val iv8 B8), L8. rewrite be8_add by lia. cbn [bind]. unfold iv8. set (c := (be_val (firstn 8 (iv ++ zeros 8)) + Z.of_nat (length code)) mod 2 ^ 64).
  destruct (mupd _ _ m1 code R1 BC) as (m2 & -> & R2). cbn [bind]. destruct (mupd _ _ m2 (be_bytes 8 c) R2 (bytes_be_bytes _ _)) as (m3 & -> & R3). cbn [bind app] in *.
  rewrite H5, H7. destruct (mfin _ _ m3 (zeros n) 0%nat R3 ltac:(rewrite length_zeros; lia)) as (m4 & -> & R4). cbn [bind fst snd]. rewrite splice_all by (rewrite mlen, length_zeros; lia).
  eexists. split; [reflexivity|]. unfold hrel, hkeyed. fold code c. cbn [hc_mac hc_nonce hc_code hc_buf hc_cached hc_counter hc_reseed hc_ready hc_calls hg_ready hg_key hg_code hg_x hg_left hg_since hg_reseeds hg_calls fst snd].
  split; [exact R4|]. split; [reflexivity|]. split; [reflexivity|]. split; [exact BC|]. split; [reflexivity|]. split; [apply mbytes|]. split; [apply mlen|]. split; [reflexivity|]. split; [lia|]. auto 10.
Qed.
Lemma hcount_rel o g c r : hrel o g -> hrel (Hcg (hc_mac o) (hc_nonce o) (hc_code o) (hc_buf o) (hc_cached o) c r (hc_ready o) (hc_calls o)) (hwith_counts g c r).
Proof. intros (H1 & H2 & H3 & H4 & H5 & H6 & H7 & H8 & H9 & H10 & H11 & H12 & H13). unfold hrel, hwith_counts. cbn [hc_mac hc_nonce hc_code hc_buf hc_cached hc_counter hc_reseed hc_ready hc_calls hg_ready hg_key hg_code hg_x hg_left hg_since hg_reseeds hg_calls]. auto 20. Qed.
Lemma hderive_rel p o g : (forall k m, length (p k m) = m /\ bytes (p k m)) -> hrel o g -> hg_ready g = true ->
  exists o', HCG_Derive rate n dupd dfin dnew p o = Ok o' /\ hrel o' (hprovided H rate n p g).
Proof.
  intros Hp HG RD. unfold HCG_Derive. rewrite length_zeros, half. assert (EC : hc_calls o = hg_calls g) by apply HG. rewrite EC. set (sd := p (hg_calls g) n). destruct (Hp (hg_calls g) n) as [L B]. fold sd in L, B.
  rewrite wr_ok by (rewrite length_zeros; lia). cbn [bind].
  assert (HG' : hrel (Hcg (hc_mac o) (hc_nonce o) (hc_code o) (hc_buf o) (hc_cached o) (hc_counter o) (hc_reseed o) (hc_ready o) (S (hg_calls g)))
    (HGen (hg_ready g) (hg_key g) (hg_code g) (hg_x g) (hg_left g) (hg_since g) (hg_reseeds g) (S (hg_calls g)))).
  { destruct HG as (H1 & H2 & H3 & H4 & H5 & H6 & H7 & H8 & H9 & H10 & H11 & H12 & H13). unfold hrel. cbn [hc_mac hc_nonce hc_code hc_buf hc_cached hc_counter hc_reseed hc_ready hc_calls hg_ready hg_key hg_code hg_x hg_left hg_since hg_reseeds hg_calls]. auto 20. }
  destruct (renew_rel _ _ (splice (zeros rate) 0 sd) sd HG' RD B L) as (o' & E & R).
  - rewrite length_splice; rewrite !length_zeros; lia.
  - unfold splice. cbn [firstn app]. rewrite <- L at 1. rewrite firstn_app, Nat.sub_diag, firstn_O, firstn_all, app_nil_r. reflexivity.
  - exists o'. split; [exact E|]. unfold hprovided. rewrite half. exact R.
Qed.
Lemma hstep_ok o g c : hrel o g -> hcall_ok c ->
  exists o' r g', hstep rate n dupd dfin dnew name prov thr o c = Ok (o', r) /\ hrel o' g' /\ forall cs rs, hexpected H rate n name prov thr g' cs rs -> hexpected H rate n name prov thr g (c :: cs) (r :: rs).
Proof.
  intros HG HC. destruct c as [key iv info|out oo len|key].
  - cbn [hstep hexpected]. destruct (Nat.ltb_spec (length key) 16) as [L|L].
    + unfold HCG_Initialize. replace (length key <? 16)%nat with true by (symmetry; apply Nat.ltb_lt; lia). cbn [negb guard bind]. exists o, (GFailed InvalidNonce), g. auto.
    + destruct (hinit_rel o g key iv info HG HC L) as (o' & -> & H'). exists o', GDone, (hkeyed H rate name g key iv info). auto.
  - cbn [hstep hexpected hcall_ok] in *. assert (ER : hc_ready o = hg_ready g) by apply HG. unfold HCG_Generate. rewrite ER. destruct (hg_ready g) eqn:RD; cbn [guard bind negb].
    2:{ exists o, (GFailed NotInitialized), g. auto. }
    destruct (Nat.ltb_spec (length out) (oo + len)) as [L|L].
    { replace ((oo <=? length out)%nat && (length out - oo <? len)%nat) with true by (symmetry; apply andb_true_iff; split; [apply Nat.leb_le; lia|apply Nat.ltb_lt; lia]). cbn [negb guard bind]. exists o, (GFailed InvalidSize), g. auto. }
    replace ((oo <=? length out)%nat && (length out - oo <? len)%nat) with false by (symmetry; apply andb_false_iff; right; apply Nat.ltb_ge; lia). cbn [negb guard bind].
    destruct (Z.ltb_spec 102400000 (Z.of_nat len)) as [M|M].
    { replace (Z.of_nat len <=? 102400000) with false by (symmetry; apply Z.leb_gt; lia). cbn [guard bind]. exists o, (GFailed MaxExceeded), g. auto. }
    replace (Z.of_nat len <=? 102400000) with true by (symmetry; apply Z.leb_le; lia). cbn [guard bind].
    destruct (hexpand o g out oo len HG RD L) as (m & nonce & buf & E & K). rewrite E. cbn [bind].
    assert (LN : length (hnext_bytes H rate n g len) = len) by (apply hnext_len; apply HG).
    assert (W : written out (splice out oo (hnext_bytes H rate n g len)) oo (hnext_bytes H rate n g len)) by (apply splice_written; lia).
    assert (ES : hc_counter o = hg_since g /\ hc_reseed o = hg_reseeds g) by (split; apply HG). destruct ES as [ES1 ES2]. rewrite ES1, ES2. set (o1 := splice out oo (hnext_bytes H rate n g len)) in *.
    unfold provider_ok in HP. rewrite ER in K. destruct prov as [p|] eqn:EP.
    + destruct (Z.ltb_spec (hg_since g + Z.of_nat len) thr) as [T|T].
      * replace (thr <=? hg_since g + Z.of_nat len) with false by (symmetry; apply Z.leb_gt; lia).
        eexists _, (GWrote o1), _. split; [reflexivity|]. split; [apply K|]. intros cs rs Hx. exists o1. auto.
      * replace (thr <=? hg_since g + Z.of_nat len) with true by (symmetry; apply Z.leb_le; lia). cbn [hc_reseed].
        destruct (Z.leb_spec 10000 (hg_reseeds g)) as [X|X].
        -- replace (10000 <? hg_reseeds g + 1) with true by (symmetry; apply Z.ltb_lt; lia). eexists _, (GLate MaxExceeded o1), _. split; [reflexivity|]. split; [apply K|]. intros cs rs Hx. exists o1. auto.
        -- replace (10000 <? hg_reseeds g + 1) with false by (symmetry; apply Z.ltb_ge; lia).
           destruct (hderive_rel p _ _ HP (K (hg_since g + Z.of_nat len) (hg_reseeds g + 1)) RD) as (o2 & E2 & K2). rewrite E2. cbn [bind].
           eexists _, (GWrote o1), _. split; [reflexivity|]. split; [apply hcount_rel; exact K2|]. intros cs rs Hx. exists o1. split; [exact W|]. split; [reflexivity|].
           replace (hc_reseed o2) with (hg_reseeds g + 1) in Hx; [exact Hx|]. symmetry. apply K2.
    + eexists _, (GWrote o1), _. split; [reflexivity|]. split; [apply K|]. intros cs rs Hx. exists o1. split; [exact W|]. split; [reflexivity|]. exact Hx.
  - cbn [hstep hexpected hcall_ok] in *. unfold HCG_Update. rewrite strength_8. destruct (Nat.ltb_spec (length key) (rate / 4)) as [L|L]; cbn [negb guard bind].
    { exists o, (GFailed InvalidKey), g. auto. }
    assert (ES : hc_counter o = hg_since g /\ hc_reseed o = hg_reseeds g) by (split; apply HG). destruct ES as [ES1 ES2].
    pose proof (hcount_rel o g (hg_since g) (hg_reseeds g + 1) HG) as HG1. rewrite ES1, ES2. cbn [hc_reseed]. destruct (Z.leb_spec 10000 (hg_reseeds g)) as [X|X].
    { replace (10000 <? hg_reseeds g + 1) with true by (symmetry; apply Z.ltb_lt; lia). eexists _, (GFailed MaxExceeded), _. split; [reflexivity|]. split; [exact HG1|]. auto. }
    replace (10000 <? hg_reseeds g + 1) with false by (symmetry; apply Z.ltb_ge; lia).
    set (g1 := hwith_counts g (hg_since g) (hg_reseeds g + 1)) in *. set (o1 := Hcg (hc_mac o) (hc_nonce o) (hc_code o) (hc_buf o) (hc_cached o) (hg_since g) (hg_reseeds g + 1) (hc_ready o) (hc_calls o)) in *.
    destruct (hg_ready g) eqn:RD; cbn [negb].
    + assert (RD1 : hg_ready g1 = true) by exact RD. assert (M1 : HRR (MOn (hg_key g1) []) (hc_mac o1)) by (destruct HG1 as [Q _]; now rewrite RD1 in Q).
      destruct (mupd _ _ _ key M1 HC) as (m2 & -> & R2). cbn [app] in R2. destruct (mfin _ _ m2 (zeros rate) 0%nat R2 ltac:(rewrite length_zeros; lia)) as (m3 & -> & R3). cbn [bind fst snd].
      assert (HG3 : hrel (set_mac o1 m3) g1).
      { destruct HG1 as (H1 & H2 & H3 & H4 & H5 & H6 & H7 & H8 & H9 & H10 & H11 & H12 & H13). unfold hrel, set_mac. cbn [hc_mac hc_nonce hc_code hc_buf hc_cached hc_counter hc_reseed hc_ready hc_calls]. rewrite RD1. rewrite RD1 in H12. auto 20. }
      destruct (renew_rel _ _ (splice (zeros rate) 0 (hmac H rate (hg_key g1) key)) (hmac H rate (hg_key g1) key) HG3 RD1 (mbytes _ _) (mlen _ _)) as (o4 & E4 & R4).
      * rewrite length_splice; rewrite !length_zeros; rewrite ?mlen; lia.
      * unfold splice. cbn [firstn app]. rewrite <- (mlen (hg_key g1) key) at 1. rewrite firstn_app, Nat.sub_diag, firstn_O, firstn_all, app_nil_r. reflexivity.
      * rewrite E4. cbn [bind]. eexists _, GDone, _. split; [reflexivity|]. split; [exact R4|]. auto.
    + assert (RD1 : hg_ready g1 = false) by exact RD. assert (M1 : HRR MNone (hc_mac o1)) by (destruct HG1 as [Q _]; now rewrite RD1 in Q).
      unfold HMAC_Update. rewrite (proj1 M1 : h_init (hc_mac o1) = false). cbn [guard bind]. eexists _, (GFailed NotInitialized), _. split; [reflexivity|]. split; [exact HG1|]. auto.
Qed.
Lemma hhistory_ok cs : forall o g, hrel o g -> Forall hcall_ok cs -> exists rs, hhistory rate n dupd dfin dnew name prov thr o cs = Ok rs /\ hexpected H rate n name prov thr g cs rs.
Proof.
  induction cs as [|c cs IH]; intros o g HG HC; [exists []; split; [reflexivity|exact Logic.I]|]. inversion HC as [|? ? Hc HC']; subst c cs. cbn [hhistory].
  destruct (hstep_ok o g _ HG Hc) as (o' & r & g' & -> & HG' & K). cbn [bind fst snd]. destruct (IH o' g' HG' HC') as (rs & -> & E). cbn [bind]. exists (r :: rs). split; [reflexivity|]. now apply K.
Qed.
Lemma hcg_history cs : Forall hcall_ok cs -> exists rs, hhistory rate n dupd dfin dnew name prov thr (HCG_new rate dnew) cs = Ok rs /\ hexpected H rate n name prov thr (hgen_new n) cs rs.
Proof. apply hhistory_ok, hrel_new. Qed.
End hcg.
