(** the engines and paddings satisfy what Proofs_CipherStream and Proofs_CipherStream2 ask of them *)
From Verif Require Import BaseLemmas Spec_Common Spec_Modes Spec_CipherStream Proofs_Common Model_IntegerTools Proofs_IntegerTools Model_Modes Model_Padding Model_CipherStream Session_CipherStream
  Proofs_Windows Proofs_Modes Proofs_Modes2 Proofs_Modes3 Proofs_Modes4 Proofs_Modes5 ProofsP_Modes ProofsP_Modes2 Proofs_Padding ProofsP_Padding Proofs_CipherStream.
Open Scope Z_scope.

Definition gecb1 (f : list Z -> list Z) (b st : list Z) : list Z * list Z := (f b, st).
Definition step_of (m : mode) (E D : list Z -> list Z) (enc : bool) : list Z -> list Z -> list Z * list Z :=
  match m with
  | ECB => gecb1 (if enc then E else D)
  | CBC => if enc then gce E else gcd D
  | CFB r => if enc then gfe E r else gfd E r
  | _ => gof E
  end.
Definition run (m : mode) (E D : list Z -> list Z) (enc : bool) (st msg : list Z) : list Z * list Z :=
  match m with
  | CTR => (ctr_crypt E (be_bytes 16) (value_be st) msg, be_bytes 16 (value_be st + Z.of_nat (blocks_for (length msg))))
  | ICM => (ctr_crypt E (le_bytes 16) (value_le st) msg, le_bytes 16 (value_le st + Z.of_nat (blocks_for (length msg))))
  | _ => dd (unit_size m) (step_of m E D enc) (length msg / unit_size m) msg st
  end.
Definition rcond (m : mode) (st : list Z) : Prop := if counter m then register st else iv16 st.
Definition lens (m : mode) (n : nat) : Prop := if counter m then True else (n mod unit_size m = 0)%nat.

Lemma unit_pos m : mode_ok m -> (0 < unit_size m <= 16)%nat.
Proof. destruct m; cbn; lia. Qed.
Lemma unit_two m : mode_ok m -> (2 <= unit_size m)%nat.
Proof. destruct m; cbn; lia. Qed.
Lemma reg_rcond m st : register st -> rcond m st.
Proof. unfold rcond, iv16. intros H. destruct (counter m); [exact H|apply H]. Qed.
Lemma step_wf m E D enc : block_fun E -> block_fun D -> mode_ok m -> counter m = false ->
  forall b st, length b = unit_size m -> iv16 st -> length (fst (step_of m E D enc b st)) = unit_size m /\ iv16 (snd (step_of m E D enc b st)).
Proof.
  intros HE HD HM C b st. destruct m; try discriminate; cbn [step_of unit_size] in *.
  - intros L I. unfold gecb1. cbn [fst snd]. split; [destruct enc; auto|auto].
  - destruct enc; [now apply gce_wf|now apply gcd_wf].
  - destruct enc; [apply gfe_wf; auto; cbn in HM; lia|apply gfd_wf; auto; cbn in HM; lia].
  - now apply gof_wf.
Qed.
Lemma dd_nil r G st : dd r G (0 / r) [] st = ([], st).
Proof. destruct r; [reflexivity|]. rewrite Nat.div_0_l by lia. reflexivity. Qed.

Lemma run_block m E D enc st msg : counter m = false -> run m E D enc st msg = dd (unit_size m) (step_of m E D enc) (length msg / unit_size m) msg st.
Proof. destruct m; try discriminate; reflexivity. Qed.
Section Run.
  Context (m : mode) (E D : list Z -> list Z) (enc : bool).
  Hypothesis (HE : block_fun E) (HD : block_fun D) (HM : mode_ok m).
  Let b := unit_size m.
  Lemma run_ok st msg : rcond m st -> lens m (length msg) -> length (fst (run m E D enc st msg)) = length msg /\ rcond m (snd (run m E D enc st msg)).
  Proof.
    unfold rcond, lens. destruct (counter m) eqn:C.
    - intros _ _. destruct m; try discriminate; cbn [run fst snd]; (split; [apply ctr_crypt_len; auto; intros; first [apply length_be_bytes|apply length_le_bytes]|]; split); first [apply length_be_bytes|apply bytes_be_bytes|apply length_le_bytes|apply bytes_le_bytes].
    - intros Hs Hl. rewrite run_block by auto. fold b. pose proof (unit_pos m HM) as U. fold b in U. destruct (div_rest (length msg) b ltac:(lia)) as (Q & _). fold b in Hl. rewrite Hl, Nat.add_0_r in Q.
      destruct (dd_wf b (step_of m E D enc) (step_wf m E D enc HE HD HM C) (length msg / b) msg st Q Hs) as (A & B). split; [lia|exact B].
  Qed.
  Lemma run_nil st : rcond m st -> run m E D enc st [] = ([], st).
  Proof.
    unfold rcond. destruct (counter m) eqn:C.
    - intros (L & B). destruct m; try discriminate; cbn [run]; change (blocks_for (length (@nil Z))) with 0%nat; change (Z.of_nat 0) with 0; rewrite Z.add_0_r; [rewrite <- as_be by auto|rewrite <- as_le by auto]; reflexivity.
    - intros _. rewrite run_block by auto. apply dd_nil.
  Qed.
  Lemma value_be_be v : value_be (be_bytes 16 v) = v mod 2 ^ 128.
  Proof. rewrite value_be_eq. apply be_val_be_bytes. Qed.
  Lemma value_le_le v : value_le (le_bytes 16 v) = v mod 2 ^ 128.
  Proof. rewrite value_le_eq. apply le_val_le_bytes. Qed.
  Lemma blocks_for_app n k : blocks_for (n * 16 + k) = (n + blocks_for k)%nat.
  Proof. unfold blocks_for. replace (n * 16 + k + 15)%nat with (k + 15 + n * 16)%nat by lia. rewrite Nat.div_add by lia. lia. Qed.
  Lemma blocks_for_mul n : blocks_for (n * 16) = n.
  Proof. replace (n * 16)%nat with (n * 16 + 0)%nat by lia. rewrite blocks_for_app. unfold blocks_for. cbn. lia. Qed.
  Lemma run_app st a c : rcond m st -> (length a mod b = 0)%nat -> lens m (length c) ->
    run m E D enc st (a ++ c) = (fst (run m E D enc st a) ++ fst (run m E D enc (snd (run m E D enc st a)) c), snd (run m E D enc (snd (run m E D enc st a)) c)).
  Proof.
    intros Hs Ha Hc. pose proof (unit_pos m HM) as U. fold b in U. destruct (div_rest (length a) b ltac:(lia)) as (Q & _). rewrite Ha, Nat.add_0_r in Q.
    unfold rcond, lens in *. destruct (counter m) eqn:C.
    - assert (b = 16%nat) as Eb by (unfold b; destruct m; try discriminate; reflexivity). rewrite Eb in *. set (n := (length a / 16)%nat) in *.
      assert (BF : blocks_for (length (a ++ c)) = (n + blocks_for (length c))%nat) by (rewrite app_length, Q; apply blocks_for_app).
      assert (BA : blocks_for (length a) = n) by (rewrite Q; apply blocks_for_mul).
      destruct m; try discriminate; cbn [run fst snd]; rewrite BF, BA, (ctr_crypt_app E _ HE) with (n := n) by (auto; intros; first [apply length_be_bytes|apply length_le_bytes]); f_equal.
      + f_equal. rewrite value_be_be. apply crypt_cong; [intros; now apply be_bytes_cong|]. rewrite Z.mod_mod by lia. reflexivity.
      + rewrite value_be_be. apply be_bytes_cong. change (256 ^ Z.of_nat 16) with (2 ^ 128). rewrite Zplus_mod_idemp_l. f_equal. lia.
      + f_equal. rewrite value_le_le. apply crypt_cong; [intros; now apply le_bytes_cong|]. rewrite Z.mod_mod by lia. reflexivity.
      + rewrite value_le_le. apply le_bytes_cong. change (256 ^ Z.of_nat 16) with (2 ^ 128). rewrite Zplus_mod_idemp_l. f_equal. lia.
    - rewrite !run_block by auto. fold b. set (n := (length a / b)%nat) in *.
      fold b in Hc. destruct (div_rest (length c) b ltac:(lia)) as (Qc & _). rewrite Hc, Nat.add_0_r in Qc. set (k := (length c / b)%nat) in *.
      replace (length (a ++ c) / b)%nat with (n + k)%nat by (rewrite app_length, Q, Qc, <- Nat.mul_add_distr_r, Nat.div_mul by lia; reflexivity).
      rewrite (dd_app b _ (step_wf m E D enc HE HD HM C) n k (a ++ c)) by (rewrite app_length; lia). rewrite <- Q.
      replace (firstn (length a) (a ++ c)) with a by (rewrite firstn_app, Nat.sub_diag, firstn_O, app_nil_r, firstn_all; reflexivity).
      replace (skipn (length a) (a ++ c)) with c by (rewrite skipn_app, Nat.sub_diag, skipn_all; reflexivity). reflexivity.
  Qed.
  Lemma run_spec st msg : lens m (length msg) -> fst (run m E D enc st msg) = if enc then mode_encrypt m E st msg else mode_decrypt m E D st msg.
  Proof.
    intros Hl. unfold lens in Hl. destruct (counter m) eqn:C; [destruct m; try discriminate; destruct enc; reflexivity|].
    pose proof (unit_pos m HM) as U. fold b in U. fold b in Hl. destruct (div_rest (length msg) b ltac:(lia)) as (Q & _). rewrite Hl, Nat.add_0_r in Q.
    rewrite run_block by auto. fold b. unfold dd. cbv zeta. cbn [fst]. rewrite <- (blocks_chunks b) by (auto; lia).
    unfold b in *. destruct m as [| |r| | |]; try discriminate; cbn [step_of unit_size mode_encrypt mode_decrypt].
    - assert (X : forall bs, fst (gfold (gecb1 (if enc then E else D)) bs st) = map (if enc then E else D) bs).
      { induction bs as [|x t IH]; [reflexivity|]. cbn [gfold gecb1]. destruct (gfold _ t st) as [cs q] eqn:G. cbn [fst map] in *. now rewrite IH. }
      rewrite X. destruct enc; reflexivity.
    - destruct enc; [now rewrite gce_spec|now rewrite gcd_spec].
    - destruct enc; [now rewrite gfe_spec|now rewrite gfd_spec].
    - destruct enc; now rewrite gof_spec.
  Qed.
End Run.

(** the padding objects *)
Lemma pad_len k n : (0 < n)%nat -> length (pad_bytes k n) = n.
Proof. destruct k; cbn [pad_bytes length]; rewrite ?app_length, ?repeat_length, ?map_length, ?seq_length; cbn [length]; lia. Qed.
Lemma splice_end (l d : list Z) o : (o + length d = length l)%nat -> splice l o d = firstn o l ++ d.
Proof. intros H. unfold splice. rewrite skipn_all2 by lia. now rewrite app_nil_r. Qed.
Lemma map_const (v : Z) o n : map (fun _ : nat => v) (seq o n) = repeat v n.
Proof. revert o. induction n as [|n IH]; intros o; [reflexivity|]. cbn. now rewrite IH. Qed.
Lemma add_ok k bk r b : length bk = b -> (r < b)%nat -> (b <= 16)%nat -> pd_add (padding_of k) bk r b = Ok (firstn r bk ++ pad_bytes k (b - r)).
Proof.
  intros L Hr Hb. destruct k; cbn [padding_of pd_add PKCS7_pad X923_pad ESP_pad ZeroOne_pad pad_bytes].
  - rewrite PKCS7_add by lia. rewrite splice_end by (rewrite map_length, seq_length; lia). do 2 f_equal. rewrite map_const. f_equal. unfold sz. rewrite u8_small; lia.
  - rewrite X923_add by lia. rewrite splice_end by (rewrite map_length, seq_length; lia). do 2 f_equal.
    replace (b - r)%nat with (b - r - 1 + 1)%nat by lia. rewrite seq_app, map_app. cbn [seq map]. replace (r + (b - r - 1))%nat with (b - 1)%nat by lia. rewrite Nat.eqb_refl.
    replace (b - r - 1 + 1 - 1)%nat with (b - r - 1)%nat by lia. f_equal.
    + rewrite <- (map_const 0 r). apply map_ext_in. intros i Hi. apply in_seq in Hi. destruct (Nat.eqb_spec i (b - 1)); [lia|reflexivity].
    + f_equal. unfold sz. rewrite u8_small; lia.
  - rewrite ESP_add by lia. rewrite splice_end by (rewrite map_length, seq_length; lia). do 2 f_equal.
    apply nth_ext with (d := 0) (d' := 0); [now rewrite !map_length, !seq_length|]. intros i Hi. rewrite map_length, seq_length in Hi.
    rewrite nth_map_seq by auto. rewrite nth_map_seq by auto. unfold sz. rewrite u8_small; lia.
  - unfold ZeroOne_AddPadding, guard, safe. rewrite (proj2 (Nat.leb_le _ _)) by lia. cbn [bind]. rewrite put_ok by lia. cbn [bind].
    rewrite (proj2 (Nat.leb_le _ _)) by lia. cbn [bind]. rewrite (zo_fill_ok (b - (r + 1))) by (rewrite ?length_upd; lia). f_equal.
    replace (128 :: repeat 0 (b - r - 1)) with ([128] ++ repeat 0 (b - (r + 1))) by (cbn [app]; do 2 f_equal; lia).
    rewrite <- splice_end by (rewrite app_length, repeat_length; cbn [length]; lia).
    rewrite <- splice_splice_next by (rewrite repeat_length; cbn; lia). rewrite <- upd_as_splice by lia. reflexivity.
Qed.
Lemma get_len_ok k (x : list Z) b : bytes x -> (length x < b)%nat -> (2 <= b <= 16)%nat -> pd_len (padding_of k) (x ++ pad_bytes k (b - length x)) = Ok (Z.of_nat (length x)).
Proof.
  intros Bx Lx Hb. set (bk := x ++ repeat 0 (b - length x)). assert (Lb : length bk = b) by (unfold bk; rewrite app_length, repeat_length; lia).
  assert (Bb : bytes bk). { unfold bk. apply bytes_app. split; [auto|apply bytes_zeros]. }
  pose proof (add_ok k bk (length x) b Lb ltac:(lia) ltac:(lia)) as A.
  assert (F : firstn (length x) bk = x) by (unfold bk; rewrite firstn_app, Nat.sub_diag, firstn_O, app_nil_r, firstn_all; reflexivity). rewrite F in A.
  assert (S : Z.of_nat (length bk) < 2 ^ 64) by lia.
  destruct k; cbn [padding_of pd_add pd_len PKCS7_pad X923_pad ESP_pad ZeroOne_pad] in *; rewrite <- Lb in A at 1.
  - destruct (c_pkcs7_block bk (length x)) as (o & O1 & _ & O2); auto; try lia. rewrite O1 in A. injection A as ->. exact O2.
  - destruct (c_x923_block bk (length x)) as (o & O1 & _ & O2); auto; try lia. rewrite O1 in A. injection A as ->. exact O2.
  - destruct (c_esp_block bk (length x)) as (o & O1 & _ & O2); auto; try lia. rewrite O1 in A. injection A as ->. exact O2.
  - destruct (c_zeroone_block bk (length x)) as (o & O1 & _ & O2); auto; try lia. rewrite O1 in A. injection A as ->. exact O2.
Qed.

Lemma alias_some l io oo : alias_ok (Some l) io oo. Proof. intros H. discriminate. Qed.
Lemma gecb_dd f n : forall l st, length l = (n * 16)%nat -> dd 16 (gecb1 f) n l st = (ecb_data f l, st).
Proof.
  induction n as [|n IH]; intros l st L; [destruct l; [reflexivity|discriminate]|].
  unfold dd in *. cbv zeta in *. cbn [blocks gfold gecb1]. specialize (IH (skipn 16 l) st). rewrite skipn_length in IH. specialize (IH ltac:(lia)).
  destruct (gfold (gecb1 f) (blocks 16 n (skipn 16 l)) st) as [cs q]. cbn [fst snd concat] in *. injection IH as I1 ->. rewrite I1. f_equal.
  unfold ecb_data. rewrite (blocks_chunks 16 (S n) l) by lia. cbn [blocks map concat]. rewrite <- (blocks_chunks 16 n) by (rewrite ?skipn_length; lia). reflexivity.
Qed.
Lemma blk_ub f l io out oo : (length (f (slice l io 16)) = 16)%nat -> (length out < oo + 16)%nat -> blk f l io out oo = UB.
Proof. intros L H. unfold blk, rd. destruct (_ <=? _)%nat; [|reflexivity]. cbn [bind]. unfold wr. rewrite L. rewrite (proj2 (Nat.leb_gt _ _)) by lia. reflexivity. Qed.
Lemma dd_one r G l st : length l = r -> dd r G 1 l st = (fst (G l st), snd (G l st)).
Proof.
  intros L. unfold dd. cbv zeta. cbn [blocks]. rewrite firstn_all2 by lia. cbn [gfold]. destruct (G l st) as [c q]. cbn [fst snd concat]. now rewrite app_nil_r.
Qed.
Lemma ofb_ub g l io out oo k : (16 <= length g)%nat -> (io + 16 <= length l)%nat -> (length out < oo + 16)%nat -> (k <= 16)%nat ->
  for_up (16 - k) k (fun i out0 => y <- get g i ;; z <- get l (io + i) ;; put out0 (oo + i) (Z.lxor y z)) out = UB \/
  exists o2, for_up (16 - k) k (fun i out0 => y <- get g i ;; z <- get l (io + i) ;; put out0 (oo + i) (Z.lxor y z)) out = Ok o2 /\ k = 0%nat.
Proof.
  intros Lg Ll. revert out. induction k as [|k IH]; intros out Ho Hk; [right; exists out; auto|]. cbn [for_up].
  rewrite (get_ok g _ 0) by lia. cbn [bind]. rewrite (get_ok l _ 0) by lia. cbn [bind].
  destruct (Nat.ltb_spec (oo + (16 - S k)) (length out)) as [X|X].
  - rewrite put_ok by auto. cbn [bind]. replace (S (16 - S k)) with (16 - k)%nat by lia.
    destruct (IH (upd out (oo + (16 - S k)) (Z.lxor (nth (16 - S k) g 0) (nth (io + (16 - S k)) l 0)))) as [-> |(o2 & Q1 & Q2)]; rewrite ?length_upd; auto; try lia.
  - left. unfold put. rewrite (proj2 (Nat.ltb_ge _ _)) by lia. reflexivity.
Qed.

(** what Transform, EncryptBlock and DecryptBlock of the engines do *)
Section Eng.
  Context (x : setup) (enc : bool).
  Hypothesis HX : good_setup x.
  Let m := s_mode x.
  Let E := s_E x.
  Let D := s_D x.
  Let b := unit_size m.
  Let en := engine_of m E D (s_wide x) (s_prof x) (s_sched x) enc.
  Let F := run m E D enc.
  Lemma cipherE : block_fun E. Proof. apply HX. Qed.
  Lemma cipherD : block_fun D. Proof. apply HX. Qed.
  Lemma en_bs_ok : en_bs en = b.
  Proof. unfold en, b. destruct m; reflexivity. Qed.
  Lemma modeok : mode_ok m. Proof. apply HX. Qed.
  Lemma en_par_ok : en_par en = true -> (0 < en_pblk en)%nat /\ (en_pblk en mod b = 0)%nat.
  Proof.
    destruct HX as (_ & _ & HP). fold m in HP. fold b in HP. intros H. assert (P : par (s_prof x) = true /\ en_pblk en = pblk (s_prof x)) by (unfold en in *; destruct m; try discriminate; auto).
    destruct P as (P1 & P2). destruct (HP P1) as ((q & Q1 & Q2 & Q3) & _ & Q4 & _). rewrite P2. split; [|exact Q4]. rewrite Q3. clear - Q1 Q2. nia.
  Qed.
  Lemma en_T_ok k l io out oo len st : rcond m st -> lens m len -> (io + len <= length l)%nat -> (oo + len <= length out)%nat ->
    en_T en k l io out oo len st = Ok (splice out oo (fst (F st (slice l io len))), snd (F st (slice l io len))).
  Proof.
    intros Hs Hl Hi Ho. pose proof cipherE as HE. pose proof cipherD as HD. pose proof modeok as HM.
    assert (Ls : length (slice l io len) = len) by (rewrite length_slice; lia).
    destruct HX as (_ & _ & HP). fold m in HP. fold b in HP.
    unfold rcond, lens in *. destruct (counter m) eqn:C.
    - assert (SP : small_profile (s_prof x) (s_sched x k)). { intros P. destruct (HP P) as (G & O & _ & S). split; [exact G|]. split; [apply O|]. auto. }
      destruct Hs as (L16 & Bs). unfold en, F. destruct m; try discriminate; cbn [engine_of en_T CTR_engine ICM_engine run fst snd]; rewrite Ls.
      + rewrite (as_be st) at 1 by auto. apply (ctr_counter_mode (s_wide x) (s_prof x) (s_sched x k) SP); auto.
      + rewrite (as_le st) at 1 by auto. apply (icm_counter_mode (s_wide x) (s_prof x) (s_sched x k) SP); auto.
    - unfold F. rewrite run_block by auto. fold b. rewrite Ls. pose proof (unit_pos m HM) as U. fold b in U, Hl. destruct (div_rest len b ltac:(lia)) as (Q & _). rewrite Hl, Nat.add_0_r in Q. set (n := (len / b)%nat) in *. clearbody n. subst len.
      assert (HP1 : par (s_prof x) = true -> good_profile (deg (s_prof x)) (pblk (s_prof x)) /\ forall i, schedule (deg (s_prof x)) (s_sched x k i)).
      { intros P. destruct (HP P) as (G & O & _). split; auto. }
      clear HP Hl. unfold en, b in *. destruct m as [| |r| | |]; try discriminate C; cbn [engine_of en_T ECB_engine CBC_engine CFB_engine OFB_engine unit_size step_of] in *.
      + rewrite ECB_Transform_ok by (cbn [src]; auto using alias_some; destruct enc; auto). cbn [with_state bind src]. rewrite gecb_dd by (rewrite length_slice; lia). reflexivity.
      + destruct enc; [apply CBC_encrypt_ok; auto using alias_some|apply CBC_decrypt_ok; auto using alias_some]. intros P _. split; [discriminate|auto].
      + destruct enc; [apply CFB_encrypt_ok; auto|apply CFB_decrypt_ok; auto].
      + apply OFB_Transform_ok; auto using alias_some.
  Qed.
  Lemma run_one st l io : rcond m st -> counter m = false -> (io + b <= length l)%nat -> F st (slice l io b) = (fst (step_of m E D enc (slice l io b) st), snd (step_of m E D enc (slice l io b) st)).
  Proof.
    intros Hs C H. unfold F. pose proof (unit_pos m modeok) as U. fold b in U. rewrite run_block by exact C. fold b. rewrite length_slice by auto. rewrite Nat.div_same by lia. apply dd_one. apply length_slice. auto.
  Qed.
  Lemma en_EB_ok l io out oo st : enc = true -> counter m = false -> rcond m st -> (io + b <= length l)%nat ->
    en_EB en l io out oo st = if (oo + b <=? length out)%nat then Ok (splice out oo (fst (F st (slice l io b))), snd (F st (slice l io b))) else UB.
  Proof.
    intros He C Hs Hi. rewrite run_one by auto. cbn [fst snd]. pose proof cipherE as HE. pose proof modeok as HM. unfold rcond in Hs. rewrite C in Hs.
    unfold en, b in *. clear F en b. subst m. destruct (s_mode x) as [| |r| | |]; try discriminate; rewrite He; cbn [engine_of en_EB ECB_engine CBC_engine CFB_engine OFB_engine step_of unit_size] in *.
    - destruct (Nat.leb_spec (oo + 16) (length out)).
      + rewrite blk_ok by (auto; rewrite HE; rewrite ?length_slice; lia). reflexivity.
      + rewrite blk_ub by (auto; rewrite HE; rewrite ?length_slice; lia). reflexivity.
    - destruct (Nat.leb_spec (oo + 16) (length out)); [apply CBC_Encrypt128_ok; auto|].
      unfold CBC_Encrypt128. cbn [src]. unfold iv16 in Hs. rewrite wxor_ok by (try lia). cbn [bind]. rewrite blk_ub; auto. rewrite HE; auto.
      rewrite length_slice; auto. rewrite length_splice; rewrite ?length_xorl, ?length_slice; lia.
    - cbn in HM. destruct (Nat.leb_spec (oo + r) (length out)); [apply CFB_Encrypt128_ok; auto; lia|].
      unfold CFB_Encrypt128. unfold iv16 in Hs. rewrite blk_ok by (rewrite ?HE; rewrite ?length_slice, ?length_zeros; auto; lia). cbn [bind].
      unfold wcopy at 1, rd. rewrite (proj2 (Nat.leb_le _ _)) by (rewrite length_splice; rewrite ?HE; rewrite ?length_slice, ?length_zeros; lia). cbn [bind].
      unfold wr. rewrite length_slice by (rewrite length_splice; rewrite ?HE; rewrite ?length_slice, ?length_zeros; lia). rewrite (proj2 (Nat.leb_gt _ _)) by lia. reflexivity.
    - destruct (Nat.leb_spec (oo + 16) (length out)); [apply OFB_Encrypt128_ok; auto using alias_some|].
      unfold OFB_Encrypt128. unfold iv16 in Hs. rewrite blk_ok by (rewrite ?HE; rewrite ?length_slice, ?length_zeros; auto; lia). cbn [bind src].
      set (g := splice (zeros 16) 0 (E (slice st 0 16))). assert (Lg : length g = 16%nat) by (unfold g; rewrite length_splice; rewrite ?HE; rewrite ?length_slice, ?length_zeros; lia).
      destruct (ofb_ub g l io out oo 16) as [U|(o2 & _ & U)]; try lia. change (16 - 16)%nat with 0%nat in U. rewrite U. reflexivity.
  Qed.
  Lemma en_DB_ok l io out oo st : enc = false -> counter m = false -> rcond m st -> (io + b <= length l)%nat -> (oo + b <= length out)%nat ->
    en_DB en l io out oo st = Ok (splice out oo (fst (F st (slice l io b))), snd (F st (slice l io b))).
  Proof.
    intros He C Hs Hi Ho. rewrite run_one by auto. cbn [fst snd]. pose proof cipherE as HE. pose proof cipherD as HD. pose proof modeok as HM. unfold rcond in Hs. rewrite C in Hs.
    unfold en, b in *. clear F en b. subst m. destruct (s_mode x) as [| |r| | |]; try discriminate; rewrite He; cbn [engine_of en_DB ECB_engine CBC_engine CFB_engine OFB_engine step_of unit_size] in *.
    - rewrite blk_ok by (auto; rewrite HD; rewrite ?length_slice; lia). reflexivity.
    - apply CBC_Decrypt128_ok; auto.
    - cbn in HM. apply CFB_Decrypt128_ok; auto; lia.
    - apply OFB_Encrypt128_ok; auto using alias_some.
  Qed.
End Eng.

(** decryption undoes encryption *)
Lemma step_inv m E D : inverse_cipher E D -> mode_ok m -> counter m = false -> forall bk st, length bk = unit_size m -> bytes bk -> register st ->
  let c := step_of m E D true bk st in register (snd c) /\ bytes (fst c) /\ step_of m E D false (fst c) st = (bk, snd c).
Proof.
  intros (HE & HD & HI) HM C bk st Lb Bb (Ls & Bs). destruct m as [| |r| | |]; try discriminate; cbn [step_of unit_size fst snd] in *.
  - unfold gecb1. cbn [fst snd]. destruct (HI bk Bb Lb) as (B1 & ->). repeat split; auto.
  - unfold gce, gcd. cbv zeta. cbn [fst snd]. assert (Lx : length (xorl bk st) = 16%nat) by (rewrite length_xorl; lia). assert (Bx : bytes (xorl bk st)) by now apply bytes_xorl.
    destruct (HI _ Bx Lx) as (B1 & ->). repeat split; auto. now rewrite xorl_cancel_r by lia.
  - cbn in HM. unfold gfe, gfd. cbv zeta. cbn [fst snd]. destruct (HI st Bs Ls) as (B1 & _). assert (L1 : length (E st) = 16%nat) by auto.
    assert (Lf : length (firstn r (E st)) = r) by (rewrite firstn_length; lia).
    assert (Bc : bytes (xorl bk (firstn r (E st)))) by (apply bytes_xorl; auto; now apply bytes_firstn).
    split; [split; [rewrite app_length, skipn_length, length_xorl; lia|apply bytes_app; split; auto; now apply bytes_skipn]|]. split; [auto|]. now rewrite xorl_cancel_r by lia.
  - unfold gof. cbv zeta. cbn [fst snd]. destruct (HI st Bs Ls) as (B1 & _). assert (L1 : length (E st) = 16%nat) by auto.
    split; [split; auto|]. split; [now apply bytes_xorl|]. now rewrite xorl_cancel_r by lia.
Qed.
Lemma run_inv m E D : inverse_cipher E D -> mode_ok m -> forall st msg, register st -> bytes msg -> lens m (length msg) ->
  register (snd (run m E D true st msg)) /\ run m E D false st (fst (run m E D true st msg)) = (msg, snd (run m E D true st msg)) /\ (counter m = false -> bytes (fst (run m E D true st msg))).
Proof.
  intros HI HM st msg Hs Bm Hl. pose proof HI as (HE & HD & _). unfold lens in Hl. destruct (counter m) eqn:C.
  - destruct m; try discriminate; cbn [run fst snd].
    + split; [split; [apply length_be_bytes|apply bytes_be_bytes]|]. rewrite ctr_twice by (auto; intros; apply length_be_bytes).
      rewrite ctr_crypt_len by (auto; intros; apply length_be_bytes). split; [reflexivity|discriminate].
    + split; [split; [apply length_le_bytes|apply bytes_le_bytes]|]. rewrite ctr_twice by (auto; intros; apply length_le_bytes).
      rewrite ctr_crypt_len by (auto; intros; apply length_le_bytes). split; [reflexivity|discriminate].
  - pose proof (unit_pos m HM) as U. destruct (div_rest (length msg) (unit_size m) ltac:(lia)) as (Q & _). rewrite Hl, Nat.add_0_r in Q.
    set (r := unit_size m) in *. remember (length msg / r)%nat as n eqn:En.
    assert (G : register (snd (dd r (step_of m E D true) n msg st)) /\ bytes (fst (dd r (step_of m E D true) n msg st)) /\ length (fst (dd r (step_of m E D true) n msg st)) = (n * r)%nat /\
      dd r (step_of m E D false) n (fst (dd r (step_of m E D true) n msg st)) st = (msg, snd (dd r (step_of m E D true) n msg st))).
    { clear En Hl. revert msg st Hs Bm Q. induction n as [|n IH]; intros msg st Hs Bm Q.
      - destruct msg; [|cbn in Q; lia]. unfold dd. cbn [blocks gfold fst snd concat]. split; [auto|]. split; [constructor|]. split; reflexivity.
      - unfold dd in *. cbv zeta in *. cbn [blocks gfold].
        assert (Lf : length (firstn r msg) = r) by (rewrite firstn_length; lia).
        destruct (step_inv m E D HI HM C (firstn r msg) st Lf (bytes_firstn _ _ Bm) Hs) as (S1 & S2 & S3). cbv zeta in S1, S2, S3.
        destruct (step_wf m E D true HE HD HM C (firstn r msg) st Lf (proj1 Hs)) as (W1 & _).
        destruct (step_of m E D true (firstn r msg) st) as [c q]. cbn [fst snd] in *.
        destruct (IH (skipn r msg) q S1 (bytes_skipn _ _ Bm)) as (J1 & J2 & J3 & J4). { rewrite skipn_length. lia. }
        destruct (gfold (step_of m E D true) (blocks r n (skipn r msg)) q) as [cs q2]. cbn [fst snd concat] in *. fold r in W1.
        split; [exact J1|]. split; [apply bytes_app; auto|]. split; [rewrite app_length; lia|].
        replace (firstn r (c ++ concat cs)) with c by (rewrite firstn_app, W1, Nat.sub_diag, firstn_O, app_nil_r; symmetry; apply firstn_all2; lia).
        replace (skipn r (c ++ concat cs)) with (concat cs) by (rewrite skipn_app, W1, Nat.sub_diag, skipn_all2 by lia; reflexivity).
        rewrite S3. destruct (gfold (step_of m E D false) (blocks r n (concat cs)) q) as [ps q3]. cbn [fst snd concat] in *. injection J4 as -> ->. now rewrite firstn_skipn. }
    rewrite !(run_block m) by auto. fold r. rewrite <- En. destruct G as (G1 & G2 & G3 & G4). rewrite G3, Nat.div_mul by lia. auto.
Qed.
