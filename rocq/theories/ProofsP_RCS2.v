(** Glue for Properties_RCS.v: splitting, in-place calls, lost carries, Serialize. *)
From Coq Require Import Permutation.
From Verif Require Import BaseLemmas Spec_Common Proofs_Common Model_IntegerTools Proofs_IntegerTools Proofs_IntegerTools2 Model_Modes Proofs_Windows Proofs_Modes5 Proofs_Keys Model_KDF Proofs_KDF Proofs_KDF2
  Spec_Keccak Proofs_Keccak Session_Digest Session_KMAC Session_SHAKE Model_SHAKE Proofs_KMAC Proofs_KMAC2 Proofs_KMAC3 Proofs_SHAKE
  Model_ChaCha Spec_ChaCha Proofs_ChaCha Proofs_ChaCha2 Spec_Stream Model_CSX Session_CSX Proofs_CSX Proofs_CSX2
  Spec_AES Proofs_AES Model_Rijndael Proofs_Rijndael Spec_RCS Model_RCS Session_RCS Proofs_RCS Proofs_RCS2 Proofs_RCS3 Proofs_RCS4 ProofsP_RCS ProofsP_CSX2.
Open Scope Z_scope.

(** * block-aligned pieces *)
Lemma ycrypt_app fam w nb (HM : wmatch fam w nb) auth k n a b : nok w nb auth k n -> (length a mod w_B w = 0)%nat -> ycrypt w n (a ++ b) = ycrypt w n a ++ ycrypt w (ymoved w n (length a)) b.
Proof.
  intros [(_ & _ & N) _] Ha. pose proof (V_nb _ _ _ HM) as NB. unfold ycrypt. rewrite (V_Bw _ _ _ HM) in *. set (q := (length a / (4 * nb))%nat). assert (LK : length a = (q * (4 * nb))%nat) by (rewrite Nat.mul_comm; apply Nat.div_exact; lia).
  rewrite (crypt_app (4 * nb) (pad_block w n) ltac:(lia) (fun v => proj1 (N v)) (y_pos n) q) by exact LK. cbn [ymoved y_pos]. rewrite (V_Bw _ _ _ HM), LK. rewrite (nblocks_exact (4 * nb) (pad_block w n) ltac:(lia) (fun v => proj1 (N v))). reflexivity.
Qed.
Lemma plain_packets fam w nb (HM : wmatch fam w nb) k ls : Forall (lok false) ls -> forall n l, nok w nb false k n -> Forall (fun l => (length (l_msg l) mod w_B w = 0)%nat) ls -> lok false l ->
  concat (packets w n (ls ++ [l])) = ycrypt w n (concat (map l_msg (ls ++ [l]))).
Proof.
  assert (HEAR : forall n l, lok false l -> heard n l = n) by (intros n l (_ & _ & L & _); unfold heard; now rewrite L).
  assert (PK : forall n m, nok w nb false k n -> packet w n m = ycrypt w n m /\ sent1 w n m = ymoved w n (length m)).
  { intros n m [_ N]. unfold packet, sent1. destruct (y_mac n) as [(A & x)|]; [destruct N; discriminate|auto]. }
  induction 1 as [|x ls Lx H IH]; intros n l N HB Ll; cbn [app packets map concat].
  - rewrite HEAR by exact Ll. destruct (PK n (l_msg l) N) as [-> _]. rewrite !app_nil_r. reflexivity.
  - inversion HB as [|? ? Hx HB']; subst. rewrite HEAR by exact Lx. destruct (PK n (l_msg x) N) as [-> ->].
    rewrite IH; auto. symmetry. apply (ycrypt_app fam w nb HM false k); auto.
Qed.
Lemma c57_split fam w p key iv info ls l : In (fam, w) wide_ciphers -> wide_profile (w_B w) p -> bytes key -> bytes iv -> yinfo info -> fitting w key iv = true ->
  Forall (yletter_ok (w_tag w (length key)) false p p) (ls ++ [l]) -> yroom w p iv (ls ++ [l]) -> Forall (fun l => (length (l_msg l) mod w_B w = 0)%nat) ls ->
  exists rs, yhistory fam p (R_new fam false) (XInit true key iv info :: seal_calls 0 (ls ++ [l])) = Ok rs /\
    concat (outs rs) = ycrypt w (begun w false [] true key iv info) (concat (map l_msg (ls ++ [l]))).
Proof.
  intros HI HP Bk Bi Bf HA HL HR HB. destruct (wm_all _ _ HI) as [nb HM]. pose proof (proj1 (fitting_size _ _ _ HA)) as Hk. pose proof (lok_of w false (length key) p p _ HL) as HK.
  destruct (c57_hist fam w HI p false true key iv info (seal_calls 0 (ls ++ [l]))) as (rs & E & X); auto; [now apply (seal_ok w false (length key) p p)|]. rewrite E. exists (XDone :: rs). split; [reflexivity|].
  set (n := begun w false [] true key iv info) in *. assert (N : nok w nb false (length key) n) by apply (begun_ok fam w nb false HM [] true key iv info nil_good Bk Bi Bf HA).
  rewrite <- (app_nil_r (seal_calls _ _)) in X. destruct (seal_run fam w nb false (length key) HM Hk _ HK n [] rs N eq_refl X) as (ra & rb & -> & O & _ & _ & X2). destruct rb; [|contradiction]. rewrite app_nil_r in *.
  change (outs (XDone :: ra)) with (outs ra). rewrite O. apply Forall_app in HK. destruct HK as [HK HKl]. inversion HKl; subst. rewrite (plain_packets fam w nb HM (length key)) by auto. reflexivity.
Qed.

(** * the block function on an initialised object *)
Section wide.
Context (fam : rfam) (w : wide) (nb : nat) (auth : bool).
Hypothesis HM : wmatch fam w nb.
Lemma blk_of o n : yabs fam w nb auth o n -> forall v out oo, (oo + 4 * nb <= length out)%nat ->
  R_block fam (r_rk o) (r_rounds o) (nonce_at (y_rest n) v) out oo = Ok (splice out oo (pad_block w n v)).
Proof.
  intros CA v out oo Ho. pose proof (nonce_st fam w nb auth HM o n v CA) as NS. pose proof (V_nb _ _ _ HM) as NB. destruct CA as (C1 & (C2 & C2' & C2w & C2r) & _). destruct (ynum _ _ _ HM _ C1) as (_ & _ & _ & _ & R5).
  rewrite C2r. rewrite (R_block_ok fam nb (w_offs w) (w_rounds w (y_size n)) (r_rk o)); [rewrite C2; reflexivity|exact (V_B _ _ _ HM)|lia|exact (V_offs _ _ _ HM)|exact (V_shift _ _ _ HM)|lia|exact C2'|exact NS|rewrite (V_B _ _ _ HM); exact Ho].
Qed.
Lemma proc_none p ord o n k out len : yabs fam w nb auth o n -> (k + len <= length out)%nat -> (sp_par p = false \/ (len < sp_blk p)%nat) ->
  exists o', R_proc fam p ord o None k out k len = Ok (o', splice out k (zeros len), None).
Proof.
  intros CA Ho HS. pose proof (pad_ok fam w nb auth HM o n CA) as PO. pose proof (blk_of o n CA) as HK. pose proof (V_nb _ _ _ HM) as NB. destruct CA as (_ & _ & _ & (C4 & C4l & C4b & _) & _).
  unfold R_proc. rewrite C4, (V_B _ _ _ HM). unfold W_Process. replace (sp_par p && (sp_blk p <=? len)%nat) with false by (symmetry; apply andb_false_iff; destruct HS as [->|]; [now left|right; now apply Nat.leb_gt]).
  unfold W_Sequential. cbn [src].
  rewrite (W_Generate_ok (4 * nb) (rijndael (w_offs w) (y_keys n)) (R_block fam (r_rk o) (r_rounds o)) (y_rest n) ltac:(lia) C4l C4b (fun v => proj1 (PO v)) HK) by exact Ho. cbn [bind].
  set (ks := keystream _ _ _ _). assert (LK : length ks = len) by apply keystream_len. set (out1 := splice out k ks). assert (L1 : length out1 = length out) by (apply length_splice; lia).
  set (aln := (len - len mod (4 * nb))%nat). assert (A1 : (aln <= len)%nat) by (unfold aln; lia).
  assert (E1 : (if (aln =? 0)%nat then Ok out1 else wxor out1 k out1 k aln) = Ok (splice out1 k (zeros aln))).
  { destruct (Nat.eqb_spec aln 0) as [->|]; [unfold splice; cbn [zeros repeat app length]; now rewrite Nat.add_0_r, firstn_skipn|]. rewrite wxor_ok by lia. rewrite xorl_self, length_slice by lia. reflexivity. }
  rewrite E1. cbn [bind]. rewrite zero_tail by (rewrite length_splice; rewrite ?length_zeros; lia). cbn [bind].
  assert (E2 : splice (splice out1 k (zeros aln)) (k + aln) (zeros (len - aln)) = splice out k (zeros len)).
  { replace (k + aln)%nat with (k + length (zeros aln))%nat by (now rewrite length_zeros). rewrite splice_splice_next by (rewrite !length_zeros; lia).
    replace (zeros aln ++ zeros (len - aln)) with (zeros len) by (unfold zeros; rewrite <- repeat_app; f_equal; lia). unfold out1. apply splice_over; rewrite ?length_zeros; lia. }
  rewrite E2. eexists. reflexivity.
Qed.
End wide.
Lemma c57_in_place fam w p ord enc key iv info k out len : In (fam, w) wide_ciphers -> wide_profile (w_B w) p -> bytes key -> bytes iv -> yinfo info -> fitting w key iv = true ->
  (k + len <= length out)%nat -> (sp_par p = false \/ (len < sp_blk p)%nat) ->
  exists o o', R_Initialize fam p (R_new fam false) enc key iv info = Ok (o, None) /\ R_Transform fam p ord o None k out k len = Ok (o', splice out k (zeros len), None).
Proof.
  intros HI HP Bk Bi (Bf & Sf & Lf) HA Ho HS. destruct (wm_all _ _ HI) as [nb HM]. destruct (yInit_ok fam w nb p false HM HP (R_new fam false) [] enc key iv info) as (o & E & CA); auto; [left; auto|].
  destruct (proc_none fam w nb false HM p ord o _ k out len CA Ho HS) as (o' & E'). exists o, o'. split; [exact E|]. unfold R_Transform. destruct CA as (_ & _ & _ & _ & _ & C6 & _). rewrite C6. destruct (r_enc o); exact E'.
Qed.

(** * the parallel counter loses a carry *)
Lemma many_val : Z.of_nat many = 65535. Proof. reflexivity. Qed.
#[global] Opaque many.
Lemma incd_zero l : bytes l -> forall n, length l = n -> incd l (le_bytes n 0) 0 = l.
Proof.
  induction 1 as [|x l Hx H IH]; intros n <-; [reflexivity|]. cbn [length le_bytes incd]. change (0 mod 256) with 0. change (0 / 256) with 0. unfold inc8_digit.
  red in Hx. assert (E : u8 (x + 0 + 0) = x) by (unfold u8; rewrite Z.mod_small; lia). cbv zeta. rewrite E, Z.ltb_irrefl. f_equal. now apply IH.
Qed.
Lemma incd_lost l s : incd (1 :: 0 :: 0 :: 0 :: 0 :: 0 :: 0 :: 0 :: 0 :: 0 :: 0 :: 0 :: 0 :: 0 :: 0 :: 0 :: l) (255 :: 255 :: 0 :: 0 :: 0 :: 0 :: 0 :: 0 :: 0 :: 0 :: 0 :: 0 :: 0 :: 0 :: 0 :: 0 :: s) 0 =
  0 :: 0 :: 0 :: 0 :: 0 :: 0 :: 0 :: 0 :: 0 :: 0 :: 0 :: 0 :: 0 :: 0 :: 0 :: 0 :: incd l s 0.
Proof. reflexivity. Qed.
Lemma lost_start rest B : bytes rest -> length rest = (B - 16)%nat -> (16 <= B)%nat -> LeIncrease8 4 (nonce_at rest 1) (zeros B) (u32 65535) = Ok (nonce_at rest 0).
Proof.
  intros Hr HL HB. assert (L : length (nonce_at rest 1) = (16 + (B - 16))%nat) by (unfold nonce_at; rewrite app_length, length_le_bytes; lia).
  rewrite LeIncrease8_incd; [|rewrite length_zeros; lia|intros Q; rewrite Q in L; cbn in L; lia]. f_equal. rewrite L. unfold incsrc. change (u32 65535 mod 256 ^ Z.of_nat 4) with 65535.
  unfold nonce_at. change (le_bytes 16 1) with [1; 0; 0; 0; 0; 0; 0; 0; 0; 0; 0; 0; 0; 0; 0; 0]. cbn [app].
  change (le_bytes (16 + (B - 16)) 65535) with (255 :: 255 :: 0 :: 0 :: 0 :: 0 :: 0 :: 0 :: 0 :: 0 :: 0 :: 0 :: 0 :: 0 :: 0 :: 0 :: le_bytes (B - 16) 0).
  rewrite incd_lost. rewrite incd_zero by auto. reflexivity.
Qed.
Lemma zero_start rest B : bytes rest -> length rest = (B - 16)%nat -> (16 <= B)%nat -> LeIncrease8 4 (nonce_at rest 1) (zeros B) (u32 0) = Ok (nonce_at rest 1).
Proof.
  intros Hr HL HB. assert (L : length (nonce_at rest 1) = B) by (unfold nonce_at; rewrite app_length, length_le_bytes; lia).
  rewrite LeIncrease8_incd; [|rewrite length_zeros; lia|intros Q; rewrite Q in L; cbn in L; lia]. f_equal. rewrite L. unfold incsrc. change (u32 0 mod 256 ^ Z.of_nat 4) with 0.
  apply incd_zero; [|exact L]. unfold nonce_at. apply Forall_app. split; [apply bytes_le_bytes|exact Hr].
Qed.
(** the checks of the profile are all that Initialize uses of it *)
Lemma init_profile fam p o enc key iv info : (sp_par p = true -> (0 < sp_min p)%nat /\ (sp_min p <= sp_blk p)%nat /\ Z.of_nat (sp_blk p) <= max_alloc /\ (sp_blk p mod sp_min p = 0)%nat) ->
  R_Initialize fam p o enc key iv info = R_Initialize fam noprof o enc key iv info.
Proof.
  intros H. unfold R_Initialize. change (sp_par noprof) with false. cbn [andb negb safe bind].
  assert (G : sp_par p && ((sp_blk p <? sp_min p)%nat || (max_alloc <? Z.of_nat (sp_blk p))) = false /\ sp_par p && (sp_min p =? 0)%nat = false /\ sp_par p && negb (sp_blk p mod sp_min p =? 0)%nat = false).
  { destruct (sp_par p); [|auto]. destruct (H eq_refl) as (H1 & H2 & H3 & H4). cbn [andb]. rewrite (proj2 (Nat.ltb_ge _ _) H2), (proj2 (Z.ltb_ge _ _) H3), H4. split; [reflexivity|]. split; [apply Nat.eqb_neq; lia|reflexivity]. }
  destruct G as (-> & -> & ->). reflexivity.
Qed.
Lemma crypt_block B pad (HB : (0 < B)%nat) (HE : forall v, length (pad v) = B) m v j : ((j + 1) * B <= length m)%nat ->
  slice (stream_crypt B pad v m) (j * B) B = xorl (slice m (j * B) B) (pad (v + Z.of_nat j)).
Proof.
  intros H. set (a := firstn (j * B) m). set (b := slice m (j * B) B). set (c := skipn (j * B + B) m).
  assert (EM : m = a ++ b ++ c). { unfold a, b, c, slice. rewrite <- (firstn_skipn (j * B) m) at 1. f_equal. rewrite <- (firstn_skipn B (skipn (j * B) m)) at 1. f_equal. rewrite skipn_skipn. f_equal. lia. }
  assert (LA : length a = (j * B)%nat) by (unfold a; rewrite firstn_length; lia). assert (LB : length b = (1 * B)%nat) by (unfold b; rewrite length_slice; lia).
  rewrite EM at 1. rewrite (crypt_app B pad HB HE v j) by exact LA. rewrite (crypt_app B pad HB HE (v + Z.of_nat j) 1) by exact LB.
  rewrite (slice_mid _ (stream_crypt B pad (v + Z.of_nat j) b)); [|rewrite (crypt_len B pad HB HE); lia|rewrite (crypt_len B pad HB HE); lia].
  unfold stream_crypt. rewrite LB. f_equal. rewrite (keystream_ksb B pad HB HE). apply (ksb_1 B pad HB HE).
Qed.
(** * what the finding says *)
Lemma lost_gen q (MV : Z.of_nat q = 65535) fam w key iv info ord m : In (fam, w) wide_ciphers -> bytes key -> bytes iv -> yinfo info -> fitting w key iv = true ->
  firstn 16 iv = 1 :: zeros 15 -> length m = (2 * (q * w_B w))%nat -> Permutation ord [0; 1]%nat -> let B := w_B w in
  exists o o' ct, R_Initialize fam (carry_profile q B) (R_new fam false) true key iv info = Ok (o, None) /\
    R_Transform fam (carry_profile q B) ord o (Some m) 0 (zeros (length m)) 0 (length m) = Ok (o', ct, None) /\
    forall j, (j + 1 < q)%nat -> xorl (slice m (j * B) B) (slice ct (j * B) B) = xorl (slice m ((q + 1 + j) * B) B) (slice ct ((q + 1 + j) * B) B).
Proof.
  intros HI Bk Bi (Bf & Sf & Lf) HA HV LM HO B. destruct (wm_all _ _ HI) as [nb HM]. pose proof (V_nb _ _ _ HM) as NB. pose proof (V_Bw _ _ _ HM) as VB. fold B in VB.
  assert (M0 : (0 < q)%nat) by lia.
  destruct (yInit_ok fam w nb noprof false HM (noprof_ok _) (R_new fam false) [] true key iv info) as (o & E & CA); auto; [left; auto|].
  rewrite <- (init_profile fam (carry_profile q B)) in E.
  2:{ intros _. cbn [carry_profile sp_min sp_blk]. split; [nia|]. split; [lia|]. split; [|apply Nat.mod_same; nia]. unfold max_alloc. rewrite !Nat2Z.inj_mul. nia. }
  set (n := begun w false [] true key iv info) in *. pose proof (pad_ok fam w nb false HM o n CA) as PO. pose proof (blk_of fam w nb false HM o n CA) as HK.
  pose proof CA as (_ & _ & _ & (C4 & C4l & C4b & _) & _ & C6 & C7 & _).
  assert (V1 : y_pos n = 1) by (unfold n, begun; cbn [y_pos]; rewrite HV, value_le_eq; reflexivity).
  exists o. unfold R_Transform. rewrite C6, C7. change (y_enc n) with true. cbv iota. unfold R_proc. rewrite C4, V1, (V_B _ _ _ HM), <- VB. unfold W_Process.
  set (cnk := (q * B)%nat) in *. assert (CK : (0 < cnk)%nat) by (unfold cnk; nia). change (sp_par (carry_profile q B)) with true. change (sp_blk (carry_profile q B)) with (2 * cnk)%nat. change (sp_deg (carry_profile q B)) with 2%nat.
  fold B in LM. fold cnk in LM. rewrite LM. rewrite Nat.leb_refl. cbn [andb]. replace (2 * cnk =? 0)%nat with false by (symmetry; apply Nat.eqb_neq; lia). cbn [negb safe bind]. rewrite Nat.div_same by lia.
  cbn [for_up]. rewrite !Nat.mul_0_l, !Nat.add_0_l.
  assert (SO : slice ord 0 2 = ord) by (apply slice_all; rewrite (Permutation_length HO); reflexivity). rewrite SO.
  assert (D1 : (2 * cnk / 2 = cnk)%nat) by (rewrite Nat.mul_comm; apply Nat.div_mul; lia). assert (D2 : (cnk / B = q)%nat) by (unfold cnk; apply Nat.div_mul; lia).
  set (a := fun i : nat => if (i =? 0)%nat then 1 else 0).
  assert (EP : W_Parallel B (R_block fam (r_rk o) (r_rounds o)) (carry_profile q B) ord (Some m) 0 (zeros (2 * cnk)) 0 (2 * cnk) (nonce_at (y_rest n) 1) =
    Ok (stream_crypt B (pad_block w n) 1 (slice m 0 cnk) ++ stream_crypt B (pad_block w n) 0 (slice m cnk cnk), nonce_at (y_rest n) (Z.of_nat q))).
  { pose proof (W_Parallel_raw B (rijndael (w_offs w) (y_keys n)) (R_block fam (r_rk o) (r_rounds o)) (y_rest n)) as W. rewrite <- VB in C4l, HK.
    specialize (W ltac:(lia) C4l C4b). specialize (W ltac:(intros v; rewrite VB; apply (PO v)) HK (carry_profile q B) ord m 0%nat (zeros (2 * cnk)) 0%nat 1 a).
    change (sp_blk (carry_profile q B)) with (2 * cnk)%nat in W. change (sp_deg (carry_profile q B)) with 2%nat in W. rewrite D1, D2 in W. specialize (W ltac:(lia) ltac:(reflexivity) ltac:(lia) ltac:(rewrite length_zeros; lia)).
    specialize (W ltac:(rewrite length_zeros; unfold cnk; rewrite !Nat2Z.inj_mul; clear - MV NB VB; nia) HO).
    assert (S0 : forall i, (i < 2)%nat -> LeIncrease8 4 (nonce_at (y_rest n) 1) (zeros B) (u32 (Z.of_nat (q * i))) = Ok (nonce_at (y_rest n) (a i))).
    { intros [|[|i]] Hi; [| |lia].
      - rewrite Nat.mul_0_r. apply zero_start; auto; lia.
      - rewrite Nat.mul_1_r, MV. apply lost_start; auto; lia. }
    specialize (W S0). cbv zeta in W. rewrite W. cbn [seq map concat a Nat.eqb Nat.sub Nat.add Nat.mul]. rewrite app_nil_r, Nat.add_0_r.
    rewrite D2. rewrite splice_all; [reflexivity|]. rewrite app_length, !(crypt_len B _); try lia; [|intros v; rewrite VB; apply (PO v)|intros v; rewrite VB; apply (PO v)]. rewrite length_zeros, !length_slice by lia. lia. }
  rewrite EP. cbn [bind]. replace (2 * cnk - 2 * cnk * 1)%nat with 0%nat by lia. cbn [Nat.eqb bind]. eexists. eexists. split; [exact E|]. split; [reflexivity|].
  intros j Hj. assert (HPL : forall v, length (pad_block w n v) = B) by (intros v; rewrite VB; apply (PO v)). assert (B0 : (0 < B)%nat) by lia.
  set (c1 := stream_crypt B (pad_block w n) 1 (slice m 0 cnk)). set (c2 := stream_crypt B (pad_block w n) 0 (slice m cnk cnk)).
  assert (L1 : length c1 = cnk) by (unfold c1; rewrite (crypt_len B _ B0 HPL), length_slice; lia).
  assert (J1 : ((j + 1) * B <= cnk)%nat) by (unfold cnk; nia). assert (J2 : ((j + 1 + 1) * B <= cnk)%nat) by (unfold cnk; nia).
  assert (X1 : slice (c1 ++ c2) (j * B) B = xorl (slice m (j * B) B) (pad_block w n (1 + Z.of_nat j))).
  { unfold slice at 1. rewrite skipn_app, firstn_app. replace (B - length (skipn (j * B) c1))%nat with 0%nat by (rewrite skipn_length; nia). rewrite firstn_O, app_nil_r. fold (slice c1 (j * B) B). unfold c1. rewrite (crypt_block B (pad_block w n) B0 HPL) by (rewrite length_slice; lia).
    f_equal. unfold slice. cbn [skipn]. rewrite skipn_firstn_comm, firstn_firstn. f_equal. nia. }
  assert (X2 : slice (c1 ++ c2) ((q + 1 + j) * B) B = xorl (slice m ((q + 1 + j) * B) B) (pad_block w n (0 + Z.of_nat (j + 1)))).
  { replace ((q + 1 + j) * B)%nat with (cnk + (j + 1) * B)%nat by (unfold cnk; nia). unfold slice at 1. rewrite skipn_app, L1. replace (cnk + (j + 1) * B - cnk)%nat with ((j + 1) * B)%nat by lia. rewrite skipn_all2 by lia. cbn [app]. fold (slice c2 ((j + 1) * B) B).
    unfold c2. rewrite (crypt_block B (pad_block w n) B0 HPL) by (rewrite length_slice; lia). f_equal. unfold slice. rewrite skipn_firstn_comm, firstn_firstn, skipn_skipn. f_equal; [|f_equal]; nia. }
  assert (K : forall x y : list Z, length x = length y -> xorl x (xorl x y) = y).
  { clear. induction x as [|u x IH]; intros [|v y] H; try discriminate; [reflexivity|]. cbn [xorl]. rewrite <- Z.lxor_assoc, Z.lxor_nilpotent, Z.lxor_0_l. f_equal. apply IH. now injection H. }
  rewrite X1, X2, !K; [f_equal; lia| |]; rewrite HPL, length_slice; unfold cnk in *; nia.
Qed.

Lemma c57_lost_carry fam w key iv info ord m : In (fam, w) wide_ciphers -> bytes key -> bytes iv -> yinfo info -> fitting w key iv = true ->
  firstn 16 iv = 1 :: zeros 15 -> length m = (2 * (many * w_B w))%nat -> Permutation ord [0; 1]%nat -> let B := w_B w in
  exists o o' ct, R_Initialize fam (carry_profile many B) (R_new fam false) true key iv info = Ok (o, None) /\
    R_Transform fam (carry_profile many B) ord o (Some m) 0 (zeros (length m)) 0 (length m) = Ok (o', ct, None) /\
    forall j, (j + 1 < many)%nat -> xorl (slice m (j * B) B) (slice ct (j * B) B) = xorl (slice m ((many + 1 + j) * B) B) (slice ct ((many + 1 + j) * B) B).
Proof. exact (lost_gen many many_val fam w key iv info ord m). Qed.
(** * RWS with a 128-bit key *)
Lemma c57_same_stream p key iv info m ord : wide_profile 64 p -> bytes key -> bytes iv -> yinfo info -> length key = 16%nat -> length iv = 64%nat -> yletter_ok 16 false p p (Letter [] m ord ord) -> yroom rws p iv [Letter [] m ord ord] ->
  exists c t, yhistory rws_fam p (R_new rws_fam false) [XInit true key iv info; XTransform m 0 (zeros (length m)) 0 (length m) ord] = Ok [XDone; XOut c] /\
    yhistory rws_fam p (R_new rws_fam true) [XInit true key iv info; XTransform m 0 (zeros (length m + 16)) 0 (length m) ord] = Ok [XDone; XOut (c ++ t)].
Proof.
  intros HP Bk Bi Bf LK LI HL HR. assert (HI : In (rws_fam, rws) wide_ciphers) by (right; left; reflexivity). assert (HA : fitting rws key iv = true) by (unfold fitting; rewrite LK, LI; reflexivity).
  set (l := Letter [] m ord ord) in *. pose proof wm_rws as HM. assert (Hk : In 16%nat (w_sizes rws)) by (left; reflexivity).
  assert (RUN : forall auth, exists rs, yhistory rws_fam p (R_new rws_fam auth) (XInit true key iv info :: seal_calls (T rws auth 16) [l]) = Ok (XDone :: rs) /\ rs = [XOut (packet rws (begun rws auth [] true key iv info) m)]).
  { intros auth. assert (HL' : Forall (yletter_ok (w_tag rws 16) auth p p) [l]) by (constructor; [|constructor]; destruct HL as (L1 & L2 & L3 & L4 & L5 & L6 & L7); repeat split; auto).
    destruct (c57_hist rws_fam rws HI p auth true key iv info (seal_calls (T rws auth 16) [l])) as (rs & E & X); auto; [rewrite LK; now apply (seal_ok rws auth 16 p p)|]. exists rs. split; [exact E|].
    pose proof (proj1 (begun_ok rws_fam rws 16 auth HM [] true key iv info nil_good Bk Bi Bf HA)) as N. rewrite LK in N.
    rewrite <- (app_nil_r (seal_calls _ _)) in X. destruct (seal_run rws_fam rws 16 auth 16 HM Hk [l] (lok_of rws auth 16 p p _ HL') _ [] rs N eq_refl X) as (ra & rb & -> & O & _ & _ & X2). destruct rb; [|contradiction]. rewrite app_nil_r in *.
    pose proof E as E2. apply (f_equal (fun r => match r with Ok x => length x | _ => 0%nat end)) in E2.
    change (seal_calls (T rws auth 16) [l]) with [XTransform m 0 (zeros (length m + T rws auth 16)) 0 (length m) ord] in X.
    destruct ra as [|r [|r2 ra]]; [contradiction| |].
    - cbn [packets outs flat_map] in O. cbn [l_msg l_aad l heard fold_left] in O. destruct r; try discriminate. cbn [app] in O. now injection O as ->.
    - exfalso. cbn [yexpected app] in X. cbv zeta in X. destruct (y_mac (begun rws auth [] true key iv info)) as [(A & x)|]; [|destruct X as [_ X]; contradiction]. change (y_enc (begun rws auth [] true key iv info)) with true in X. cbv iota in X. destruct (_ <? _)%nat; destruct X as [_ X]; contradiction. }
  destruct (RUN false) as (rs & E & ->). destruct (RUN true) as (rs' & E' & ->).
  assert (SC : ycrypt rws (begun rws true [] true key iv info) m = ycrypt rws (begun rws false [] true key iv info) m).
  { assert (KK : y_keys (begun rws true [] true key iv info) = y_keys (begun rws false [] true key iv info)) by (unfold begun; cbn [y_keys]; unfold round_keys, full_name; rewrite LK; reflexivity).
    clear - KK. unfold ycrypt, pad_block. rewrite KK. reflexivity. }
  exists (ycrypt rws (begun rws false [] true key iv info) m), (ytag_of rws (begun rws true [] true key iv info) (kmac_start (w_rate rws (length key)) kmac_name (auth_key rws key (custom_of [] info)) []) [] (ycrypt rws (begun rws true [] true key iv info) m)). split.
  - revert E. unfold seal_calls. cbn [flat_map app l l_aad l_msg l_ord aad_calls map T]. rewrite Nat.add_0_r. intros E. exact E.
  - revert E'. unfold seal_calls. cbn [flat_map app l l_aad l_msg l_ord aad_calls map T]. intros E'. change (w_tag rws 16) with 16%nat in E'. rewrite E'.
    rewrite <- SC at 1. exact eq_refl.
Qed.
(** * Initialize that fails half way, calls on an object that is not initialised *)
Lemma c57_short_info fam w p auth enc key iv info : In (fam, w) wide_ciphers -> wide_profile (w_B w) p -> fitting w key iv = true -> (1 <= length info <= 3)%nat ->
  exists o, R_Initialize fam p (R_new fam auth) enc key iv info = Ok (o, Some InvalidSalt) /\ r_init o = false /\ r_rk o = [].
Proof.
  intros HI HP HA HL. destruct (wm_all _ _ HI) as [nb HM]. destruct (fitting_size _ _ _ HA) as [Hk Hi]. rewrite init_profile.
  2:{ intros Q. destruct (HP Q) as (P1 & P2 & P3 & P4 & P5 & P6 & _). auto. }
  destruct (ynum _ _ _ HM _ Hk) as (R1 & R2 & R3 & R4 & R5). apply existsb_In in Hk.
  unfold R_Initialize. rewrite (V_legal _ _ _ HM), Hk, (V_B _ _ _ HM), Hi, (V_Bw _ _ _ HM), Nat.eqb_refl. change (sp_par noprof) with false. cbn [negb andb safe bind]. cbn [R_new r_init bind r_auth r_custom]. cbv zeta.
  replace (length info =? 0)%nat with false by (symmetry; apply Nat.eqb_neq; lia). rewrite wcopy_ok by (rewrite ?resized_len; lia). cbn [bind]. rewrite slice_all by reflexivity. rewrite splice_all by (rewrite resized_len; reflexivity).
  assert (LN : length (r_nonce (R_new fam auth)) = (4 * nb)%nat) by (unfold R_new; cbn [r_nonce]; rewrite length_zeros; apply (V_B _ _ _ HM)). rewrite wcopy_ok by (rewrite ?LN, ?Hi, ?(V_Bw _ _ _ HM); lia). cbn [bind].
  unfold SHAKE_Initialize. replace (length key <? 4)%nat with false by (symmetry; apply Nat.ltb_ge; lia). cbn [negb guard bind]. replace (length info =? 0)%nat with false by (symmetry; apply Nat.eqb_neq; lia). replace (length info <? 4)%nat with true by (symmetry; apply Nat.ltb_lt; lia). cbn [negb andb guard bind].
  eexists. split; [reflexivity|]. split; reflexivity.
Qed.
(** * Serialize *)
Definition rk32 (ws : list Z) : Prop := Forall (fun x => 0 <= x < 256 ^ Z.of_nat 4) ws.
Lemma serial_len o : length (R_Serialize o) = (4 * length (r_rk o) + length (r_custom o) + length (r_mkey o) + length (r_mtag o) + length (r_name o) + length (r_nonce o) + 31)%nat.
Proof. unfold R_Serialize, vec_bytes. rewrite !app_length, !length_le_bytes, concat_le_len. cbn [length]. change (length (zeros 2)) with 2%nat. lia. Qed.
Lemma le_at n v a b o : 0 <= v < 256 ^ Z.of_nat n -> o = length a -> LeBytesTo n (a ++ le_bytes n v ++ b) o = Ok v.
Proof.
  intros H ->. unfold LeBytesTo. pose proof (length_le_bytes n v) as L. rewrite rd_ok by (rewrite !app_length; lia). rewrite (slice_mid a (le_bytes n v)); [|reflexivity|lia]. cbn [bind]. f_equal. rewrite le_val_le_bytes. now apply Z.mod_small.
Qed.
Lemma get_at x (a b : list Z) o : o = length a -> get (a ++ x :: b) o = Ok x.
Proof. intros ->. rewrite (get_ok _ _ 0) by (rewrite app_length; cbn; lia). rewrite app_nth2, Nat.sub_diag by lia. reflexivity. Qed.
Lemma restore_ok fam o : rk32 (r_rk o) -> 4 * Z.of_nat (length (r_rk o)) < 65536 -> Z.of_nat (length (r_custom o)) < 65536 -> Z.of_nat (length (r_mkey o)) < 65536 -> Z.of_nat (length (r_mtag o)) < 65536 ->
  Z.of_nat (length (r_name o)) < 65536 -> Z.of_nat (length (r_nonce o)) < 65536 -> 0 <= r_count o < 2 ^ 64 -> Z.of_nat (r_rounds o) < 2 ^ 32 -> is_byte (r_amode o) -> is_byte (r_smode o) -> (f_thresh fam < length (R_Serialize o))%nat ->
  R_restore fam (R_Serialize o) = (mac <- (if r_amode o =? 0 then Ok None
          else
            _ <- guard ((r_amode o =? 16) || (r_amode o =? 17) || (r_amode o =? 18)) InvalidParam ;;
            _ <- guard (negb (length (r_mkey o) =? 0)%nat) InvalidParam ;;
            m <- KMAC_Initialize (kmac_rate (r_amode o)) KMAC_new (r_mkey o) [] [] ;; Ok (Some (r_amode o, m))) ;;
    Ok (RObj (r_rk o) (r_custom o) (r_mkey o) (r_mtag o) (r_name o) (r_nonce o) (r_count o) (r_rounds o) (r_amode o) (r_smode o) (r_auth o) (r_enc o) (r_init o) mac)).
Proof.
  intros W S0 S1 S2 S3 S4 S5 HC HR HA HS HT. unfold R_restore. rewrite (proj2 (Nat.ltb_lt _ _)) by exact HT. cbn [guard bind].
  set (rkb := concat (map (le_bytes 4) (r_rk o))). assert (LR : length rkb = (4 * length (r_rk o))%nat) by (unfold rkb; now rewrite concat_le_len).
  set (fl := [u8 (r_amode o); u8 (r_smode o); flag (r_auth o); flag (r_enc o); flag (r_init o)] ++ zeros 2).
  set (h := fun v : list Z => le_bytes 2 (u16 (Z.of_nat (length v)))). assert (LH : forall v, length (h v) = 2%nat) by (intros; apply length_le_bytes).
  set (cn := le_bytes 8 (r_count o)). set (rn := le_bytes 4 (u32 (Z.of_nat (r_rounds o)))).
  set (l := R_Serialize o).
  assert (E0 : l = h rkb ++ rkb ++ h (r_custom o) ++ r_custom o ++ h (r_mkey o) ++ r_mkey o ++ h (r_mtag o) ++ r_mtag o ++ h (r_name o) ++ r_name o ++ h (r_nonce o) ++ r_nonce o ++ cn ++ rn ++ fl) by (unfold l, R_Serialize, vec_bytes; rewrite <- !app_assoc; reflexivity).
  assert (VV : forall a v b i, l = a ++ h v ++ v ++ b -> Z.of_nat (length v) < 65536 -> i = length a -> vec16 l i = Ok (v, (i + 2 + length v)%nat)) by (intros a v b i -> Hv Hi; now apply vec_at).
  assert (X : vec16 l 0 = Ok (rkb, (0 + 2 + length rkb)%nat)) by (apply (VV [] rkb (h (r_custom o) ++ r_custom o ++ h (r_mkey o) ++ r_mkey o ++ h (r_mtag o) ++ r_mtag o ++ h (r_name o) ++ r_name o ++ h (r_nonce o) ++ r_nonce o ++ cn ++ rn ++ fl)); [exact E0|rewrite LR; lia|reflexivity]).
  rewrite X. cbn [bind]. clear X. set (k1 := (0 + 2 + length rkb)%nat).
  rewrite LR. replace (4 * length (r_rk o))%nat with (length (r_rk o) * 4)%nat by lia. rewrite Nat.mod_mul, Nat.div_mul by lia. cbn [Nat.eqb safe bind].
  assert (X : words 4 rkb 0 (length (r_rk o)) = Ok (r_rk o)) by (pose proof (words_at 4 (r_rk o) [] [] 0 ltac:(lia) W eq_refl) as Q; rewrite app_nil_r in Q; exact Q).
  rewrite X. cbn [bind]. clear X. pose proof (LH rkb) as L0.
  set (p1 := h rkb ++ rkb). assert (P1 : length p1 = k1) by (unfold p1, k1; rewrite app_length; lia).
  rewrite (VV p1 (r_custom o) (h (r_mkey o) ++ r_mkey o ++ h (r_mtag o) ++ r_mtag o ++ h (r_name o) ++ r_name o ++ h (r_nonce o) ++ r_nonce o ++ cn ++ rn ++ fl)); [|unfold p1; rewrite E0, <- !app_assoc; reflexivity|exact S1|now rewrite P1]. cbn [bind].
  set (k2 := (k1 + 2 + length (r_custom o))%nat). set (p2 := p1 ++ h (r_custom o) ++ r_custom o). assert (P2 : length p2 = k2) by (unfold p2, k2; rewrite !app_length, LH; lia).
  rewrite (VV p2 (r_mkey o) (h (r_mtag o) ++ r_mtag o ++ h (r_name o) ++ r_name o ++ h (r_nonce o) ++ r_nonce o ++ cn ++ rn ++ fl)); [|unfold p2, p1; rewrite E0, <- !app_assoc; reflexivity|exact S2|now rewrite P2]. cbn [bind].
  set (k3 := (k2 + 2 + length (r_mkey o))%nat). set (p3 := p2 ++ h (r_mkey o) ++ r_mkey o). assert (P3 : length p3 = k3) by (unfold p3, k3; rewrite !app_length, LH; lia).
  rewrite (VV p3 (r_mtag o) (h (r_name o) ++ r_name o ++ h (r_nonce o) ++ r_nonce o ++ cn ++ rn ++ fl)); [|unfold p3, p2, p1; rewrite E0, <- !app_assoc; reflexivity|exact S3|now rewrite P3]. cbn [bind].
  set (k4 := (k3 + 2 + length (r_mtag o))%nat). set (p4 := p3 ++ h (r_mtag o) ++ r_mtag o). assert (P4 : length p4 = k4) by (unfold p4, k4; rewrite !app_length, LH; lia).
  rewrite (VV p4 (r_name o) (h (r_nonce o) ++ r_nonce o ++ cn ++ rn ++ fl)); [|unfold p4, p3, p2, p1; rewrite E0, <- !app_assoc; reflexivity|exact S4|now rewrite P4]. cbn [bind].
  set (k5 := (k4 + 2 + length (r_name o))%nat). set (p5 := p4 ++ h (r_name o) ++ r_name o). assert (P5 : length p5 = k5) by (unfold p5, k5; rewrite !app_length, LH; lia).
  rewrite (VV p5 (r_nonce o) (cn ++ rn ++ fl)); [|unfold p5, p4, p3, p2, p1; rewrite E0, <- !app_assoc; reflexivity|exact S5|now rewrite P5]. cbn [bind].
  set (k6 := (k5 + 2 + length (r_nonce o))%nat). set (p6 := p5 ++ h (r_nonce o) ++ r_nonce o). assert (P6 : length p6 = k6) by (unfold p6, k6; rewrite !app_length, LH; lia).
  assert (E6 : l = p6 ++ cn ++ rn ++ fl) by (unfold p6, p5, p4, p3, p2, p1; rewrite E0, <- !app_assoc; reflexivity). clearbody k6 p6.
  assert (L8 : length cn = 8%nat) by apply length_le_bytes. assert (L4 : length rn = 4%nat) by apply length_le_bytes.
  assert (X : LeBytesTo 8 l k6 = Ok (r_count o)) by (rewrite E6; apply le_at; [exact HC|now rewrite P6]). rewrite X. cbn [bind]. clear X.
  assert (U : u32 (Z.of_nat (r_rounds o)) = Z.of_nat (r_rounds o)) by (unfold u32; apply Z.mod_small; lia).
  assert (X : LeBytesTo 4 l (k6 + 8) = Ok (Z.of_nat (r_rounds o))) by (rewrite E6, app_assoc; unfold rn; rewrite U; apply le_at; [change (256 ^ Z.of_nat 4) with (2 ^ 32); lia|rewrite app_length; lia]). rewrite X. cbn [bind]. clear X.
  assert (UA : u8 (r_amode o) = r_amode o) by (unfold u8; apply Z.mod_small; exact HA). assert (US : u8 (r_smode o) = r_smode o) by (unfold u8; apply Z.mod_small; exact HS).
  assert (EF : l = (p6 ++ cn ++ rn) ++ r_amode o :: r_smode o :: flag (r_auth o) :: flag (r_enc o) :: flag (r_init o) :: zeros 2) by (rewrite E6, <- !app_assoc; unfold fl; rewrite UA, US; reflexivity).
  set (q := p6 ++ cn ++ rn) in EF. assert (LQ : length q = (k6 + 12)%nat) by (unfold q; rewrite !app_length; lia). clearbody q. clear E6 E0 VV. clearbody l. subst l.
  rewrite (get_at (r_amode o) q) by lia. cbn [bind].
  assert (Q1 : forall a (x y : list Z), (a ++ x) ++ y = a ++ x ++ y) by (intros; now rewrite app_assoc).
  rewrite (get_at (r_smode o) (q ++ [r_amode o]) (flag (r_auth o) :: flag (r_enc o) :: flag (r_init o) :: zeros 2)) || (replace (q ++ r_amode o :: r_smode o :: flag (r_auth o) :: flag (r_enc o) :: flag (r_init o) :: zeros 2) with ((q ++ [r_amode o]) ++ r_smode o :: flag (r_auth o) :: flag (r_enc o) :: flag (r_init o) :: zeros 2) by (rewrite <- app_assoc; reflexivity); rewrite (get_at (r_smode o) (q ++ [r_amode o])) by (rewrite app_length; cbn [length]; lia)). cbn [bind].
  rewrite <- app_assoc. cbn [app].
  replace (q ++ r_amode o :: r_smode o :: flag (r_auth o) :: flag (r_enc o) :: flag (r_init o) :: zeros 2) with ((q ++ [r_amode o; r_smode o]) ++ flag (r_auth o) :: flag (r_enc o) :: flag (r_init o) :: zeros 2) by (rewrite <- app_assoc; reflexivity).
  rewrite (flag_at (r_auth o) (q ++ [r_amode o; r_smode o])) by (rewrite app_length; cbn [length]; lia). cbn [bind].
  replace ((q ++ [r_amode o; r_smode o]) ++ flag (r_auth o) :: flag (r_enc o) :: flag (r_init o) :: zeros 2) with ((q ++ [r_amode o; r_smode o; flag (r_auth o)]) ++ flag (r_enc o) :: flag (r_init o) :: zeros 2) by (rewrite <- !app_assoc; reflexivity).
  rewrite (flag_at (r_enc o) (q ++ [r_amode o; r_smode o; flag (r_auth o)])) by (rewrite app_length; cbn [length]; lia). cbn [bind].
  replace ((q ++ [r_amode o; r_smode o; flag (r_auth o)]) ++ flag (r_enc o) :: flag (r_init o) :: zeros 2) with ((q ++ [r_amode o; r_smode o; flag (r_auth o); flag (r_enc o)]) ++ flag (r_init o) :: zeros 2) by (rewrite <- !app_assoc; reflexivity).
  rewrite (flag_at (r_init o) (q ++ [r_amode o; r_smode o; flag (r_auth o); flag (r_enc o)])) by (rewrite app_length; cbn [length]; lia). cbn [bind].
  rewrite Nat2Z.id. reflexivity.
Qed.
