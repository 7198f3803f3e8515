(** Histories of RCS and RWS objects. *)
From Coq Require Import Permutation.
From Verif Require Import BaseLemmas Spec_Common Proofs_Common Model_IntegerTools Proofs_IntegerTools Proofs_IntegerTools2 Model_Modes Proofs_Windows Proofs_Modes5 Model_KDF Proofs_KDF Proofs_KDF2
  Spec_Keccak Proofs_Keccak Session_Digest Session_KMAC Session_SHAKE Model_SHAKE Proofs_KMAC Proofs_KMAC2 Proofs_KMAC3 Proofs_SHAKE
  Model_ChaCha Spec_ChaCha Proofs_ChaCha Proofs_ChaCha2 Spec_Stream Model_CSX Session_CSX Proofs_CSX Proofs_CSX2
  Spec_AES Proofs_AES Model_Rijndael Proofs_Rijndael Spec_RCS Model_RCS Session_RCS Proofs_RCS Proofs_RCS2.
Open Scope Z_scope.

(** the two families agree with the two ciphers *)
Record wmatch (fam : rfam) (w : wide) (nb : nat) : Prop := {
  V_B : f_B fam = (4 * nb)%nat; V_Bw : w_B w = (4 * nb)%nat; V_nb : (8 <= nb <= 16)%nat;
  V_offs : forall r, (nth r (w_offs w) 0 <= nb)%nat;
  V_shift : forall s, length s = (4 * nb)%nat -> f_shift fam s = Ok (shift_rows (w_offs w) s);
  V_first : f_start fam = w_first w; V_first0 : 0 <= w_first w <= 1;
  V_legal : f_legal fam = w_sizes w;
  V_size : forall k, In k (w_sizes w) ->
    f_rounds fam k = w_rounds w k /\ shake_rate (f_smode fam k) = w_rate w k /\ kmac_rate (f_amode fam k) = w_rate w k /\
    kmac_tag (f_amode fam k) = w_tag w k /\ f_name fam (f_amode fam k) = w_label w true k /\ f_name fam 0 = w_label w false k /\
    (64 <= w_rate w k <= 190)%nat /\ (w_rate w k mod 8 = 0)%nat /\ (16 <= w_tag w k <= w_rate w k)%nat /\ (16 <= k <= 64)%nat /\ (1 <= w_rounds w k <= 80)%nat;
  V_label : forall a k, bytes (w_label w a k) /\ (length (w_label w a k) <= 7)%nat }.
Lemma wm_rcs : wmatch rcs_fam rcs 8.
Proof.
  constructor; try reflexivity; try (cbn; lia).
  - intros r. destruct r as [|[|[|[|[|r]]]]]; cbn; lia.
  - exact ShiftRows256_ok.
  - intros k Hk. cbn in Hk. destruct Hk as [<-|[<-|[]]]; cbn [rcs_fam f_rounds rcs w_rounds f_smode f_amode f_name w_rate w_tag w_label Nat.eqb]; repeat split; try reflexivity; try lia.
  - intros a k. cbn [rcs w_label]. destruct a; [destruct (k =? 64)%nat|]; split; try (cbn; lia); cbn [app]; repeat constructor; lia.
Qed.
Lemma wm_rws : wmatch rws_fam rws 16.
Proof.
  constructor; try reflexivity; try (cbn; lia).
  - intros r. destruct r as [|[|[|[|[|r]]]]]; cbn; lia.
  - exact ShiftRows512_ok.
  - intros k Hk. cbn in Hk. destruct Hk as [<-|[<-|[<-|[]]]]; cbn [rws_fam f_rounds rws w_rounds f_smode f_amode f_name w_rate w_tag w_label Nat.eqb]; repeat split; try reflexivity; try lia.
  - intros a k. cbn [rws w_label]. destruct a; [destruct (k =? 64)%nat; [|destruct (k =? 32)%nat]|]; split; try (cbn; lia); cbn [app]; repeat constructor; lia.
Qed.
Lemma wm_all fam w : In (fam, w) wide_ciphers -> exists nb, wmatch fam w nb.
Proof. intros [E|[E|[]]]; inversion E; subst; [exists 8%nat; exact wm_rcs|exists 16%nat; exact wm_rws]. Qed.

(** round keys from bytes *)
Lemma be_words_ok l : bytes l -> forall n o, (o + 4 * n <= length l)%nat -> exists ws, be_words l o n = Ok ws /\ length ws = n /\ Forall (is_word 32) ws /\ rk_bytes ws = slice l o (4 * n).
Proof.
  intros Bl. induction n as [|n IH]; intros o Hl; cbn [be_words].
  - exists []. split; [reflexivity|]. split; [reflexivity|]. split; [constructor|]. unfold slice. rewrite Nat.mul_0_r. rewrite firstn_O. reflexivity.
  - rewrite BeBytesTo32_correct by (auto; lia). cbn [bind]. destruct (IH (o + 4)%nat ltac:(lia)) as (ws & -> & L & F & E). cbn [bind]. eexists. split; [reflexivity|].
    assert (LS : length (slice l o 4) = 4%nat) by (apply length_slice; lia). assert (BS : bytes (slice l o 4)) by (now apply bytes_slice).
    split; [cbn [length]; now rewrite L|]. split.
    + constructor; [|exact F]. red. pose proof (be_val_range (slice l o 4) BS) as Q. rewrite LS in Q. exact Q.
    + unfold rk_bytes in *. cbn [map concat]. rewrite E. replace (4 * S n)%nat with (4 + 4 * n)%nat by lia. rewrite slice_app. f_equal. pose proof (be_bytes_be_val (slice l o 4) BS) as Q. rewrite LS in Q. exact Q.
Qed.
Lemma existsb_In k l : existsb (Nat.eqb k) l = true <-> In k l.
Proof. rewrite existsb_exists. split; [intros (x & Hx & E); apply Nat.eqb_eq in E; now subst|intros H; exists k; split; [exact H|apply Nat.eqb_refl]]. Qed.
Lemma small_name_fits rate name cust : (64 <= rate <= 190)%nat -> (length name <= 31)%nat -> short cust -> fits_block rate name cust.
Proof.
  intros Hr Hn Hc. unfold fits_block. rewrite app_length, rate_left by lia. unfold encode_string. rewrite app_length.
  assert (E : forallb (fun k => (length (left_encode (8 * Z.of_nat k)) =? 2)%nat) (seq 0 32) = true) by (vm_compute; reflexivity).
  rewrite forallb_forall in E. specialize (E (length name) ltac:(apply in_seq; lia)). apply Nat.eqb_eq in E. rewrite E.
  assert (LC : (length (left_encode (8 * Z.of_nat (length cust))) <= 9)%nat) by (apply left_le9; exact Hc). rewrite Nat.mod_small by lia. lia.
Qed.

Section obj.
Context (fam : rfam) (w : wide) (nb : nat) (p : sprof) (auth : bool).
Hypothesis HM : wmatch fam w nb.
Hypothesis HP : wide_profile (w_B w) p.
Local Notation rate n := (w_rate w (y_size n)).
Local Notation tag n := (w_tag w (y_size n)).

Definition yabs (o : robj) (n : line) : Prop :=
  In (y_size n) (w_sizes w) /\ (chunks (4 * nb) (rk_bytes (r_rk o)) = y_keys n /\ length (r_rk o) = (nb * (w_rounds w (y_size n) + 1))%nat /\ Forall (is_word 32) (r_rk o) /\ r_rounds o = w_rounds w (y_size n)) /\
  (r_custom o = y_custom n /\ bytes (y_custom n) /\ short (y_custom n) /\ (length (y_custom n) = 0 \/ 4 <= length (y_custom n))%nat) /\
  (r_nonce o = nonce_at (y_rest n) (y_pos n) /\ length (y_rest n) = (4 * nb - 16)%nat /\ bytes (y_rest n) /\ 0 <= y_pos n) /\
  (r_count o = y_total n /\ 0 <= y_total n < 2 ^ 64) /\ r_auth o = auth /\ r_enc o = y_enc n /\ r_init o = true /\ r_mtag o = y_tag n /\
  match y_mac n with
  | None => auth = false /\ y_tag n = [] /\ r_mac o = None
  | Some (A, m) => auth = true /\ length (y_tag n) = tag n /\ exists k, r_mac o = Some (f_amode fam (y_size n), k) /\ kabs (rate n) k (Some (A, m))
  end.
(** fresh, or initialised before *)
Definition ybefore (o : robj) (prev : list Z) : Prop :=
  (o = R_new fam auth /\ prev = []) \/ exists n, yabs o n /\ prev = y_custom n.

Lemma ynum k : In k (w_sizes w) -> (64 <= w_rate w k <= 190)%nat /\ (w_rate w k mod 8 = 0)%nat /\ (16 <= w_tag w k <= w_rate w k)%nat /\ (16 <= k <= 64)%nat /\ (1 <= w_rounds w k <= 80)%nat.
Proof. intros H. apply (V_size _ _ _ HM) in H. tauto. Qed.

(** what the generator yields *)
Lemma ykeys a key custom : In (length key) (w_sizes w) -> bytes key -> bytes custom -> short custom -> (length custom = 0 \/ 4 <= length custom)%nat ->
  let k := length key in let rt := w_rate w k in let n := key_bytes w k in let nm := full_name w a k in
  exists g g1 g2, SHAKE_Initialize rt SHAKE_new key custom nm = Ok g /\
    SHAKE_Generate rt g (zeros n) 0 n = Ok (g1, cshake 24 rt key n nm custom) /\
    SHAKE_Generate rt g1 (zeros (w_tag w k)) 0 (w_tag w k) = Ok (g2, skipn (key_blocks w k * rt) (cshake 24 rt key (key_blocks w k * rt + w_tag w k) nm custom)) /\
    length (cshake 24 rt key n nm custom) = n /\ length (skipn (key_blocks w k * rt) (cshake 24 rt key (key_blocks w k * rt + w_tag w k) nm custom)) = w_tag w k.
Proof.
  intros HI Bk Bc Sc Lc k rt n nm. destruct (ynum _ HI) as (R1 & R2 & R3 & R4 & R5). fold k rt in R1, R2, R3, R4, R5.
  destruct (V_label _ _ _ HM a k) as [Bn Ln].
  assert (LN : (length nm <= 17)%nat) by (unfold nm, full_name; rewrite !app_length, !length_le_bytes; lia).
  assert (BN : bytes nm) by (unfold nm, full_name; apply bytes_app; split; [apply bytes_le_bytes|apply bytes_app; split; [apply bytes_le_bytes|exact Bn]]).
  assert (SN : short nm) by (red; clear - LN; lia).
  assert (NB : (n <= 64 * 81)%nat) by (unfold n, key_bytes; rewrite (V_Bw _ _ _ HM); pose proof (V_nb _ _ _ HM); fold k; nia).
  clearbody nm. set (T := w_tag w k) in *.
  destruct (SHAKE_Init_ok rt ltac:(lia) SHAKE_new None key custom nm eq_refl) as (g & E & G); [cbn [scall_ok]; repeat split; auto; apply small_name_fits; auto; lia|lia|exact Lc|].
  assert (LZ : forall j, length (zeros j) = j) by (intros; apply length_zeros).
  destruct (SHAKE_Gen_ok rt ltac:(lia) g key custom nm 0 0 (zeros n) 0 n G) as (g1 & E1 & L1 & G1); [rewrite LZ; lia| |].
  { cbn [Nat.add]. assert (n / rt <= n)%nat by (apply Nat.div_le_upper_bound; [lia|nia]). lia. }
  assert (KB : (0 + (n + rt - 1) / rt)%nat = key_blocks w k) by (unfold key_blocks, nblocks; reflexivity). rewrite KB in G1. set (q := key_blocks w k) in *.
  destruct (SHAKE_Gen_ok rt ltac:(lia) g1 key custom nm q _ (zeros T) 0 T G1) as (g2 & E2 & L2 & _); [rewrite LZ; lia| |].
  { assert (T / rt <= T)%nat by (apply Nat.div_le_upper_bound; [lia|nia]). destruct (_ =? _)%nat; lia. }
  cbn [Nat.mul Nat.add] in *. rewrite skipn_O in *. exists g, g1, g2. split; [exact E|]. split; [|split; [|split; [exact L1|exact L2]]].
  - rewrite E1. do 2 f_equal. apply splice_all. rewrite LZ. exact L1.
  - rewrite E2. do 2 f_equal. apply splice_all. rewrite LZ. exact L2.
Qed.

Lemma custom_of_ok prev info : bytes prev -> short prev -> (length prev = 0 \/ 4 <= length prev)%nat -> bytes info -> short info -> (length info = 0 \/ 4 <= length info)%nat ->
  bytes (custom_of prev info) /\ short (custom_of prev info) /\ (length (custom_of prev info) = 0 \/ 4 <= length (custom_of prev info))%nat.
Proof.
  intros B1 S1 L1 B2 S2 L2. unfold custom_of. destruct info; [|auto]. split; [apply bytes_zeros|]. unfold short. rewrite length_zeros. auto.
Qed.
Lemma nonce_split iv : bytes iv -> (16 <= length iv)%nat -> nonce_at (skipn 16 iv) (value_le (firstn 16 iv)) = iv.
Proof.
  intros Bv L. unfold nonce_at. rewrite value_le_eq. pose proof (le_bytes_le_val (firstn 16 iv) (bytes_firstn _ _ Bv)) as Q. rewrite firstn_length, Nat.min_l in Q by lia. rewrite Q. apply firstn_skipn.
Qed.
Lemma yInit_ok o prev enc key iv info : ybefore o prev -> bytes key -> bytes iv -> bytes info -> short info -> (length info = 0 \/ 4 <= length info)%nat -> fitting w key iv = true ->
  exists o', R_Initialize fam p o enc key iv info = Ok (o', None) /\ yabs o' (begun w auth prev enc key iv info).
Proof.
  intros HB Bk Bi Bf Sf Lf HA. unfold fitting in HA. apply andb_true_iff in HA. destruct HA as [H1 H2].
  pose proof (V_nb _ _ _ HM) as NB. pose proof (V_B _ _ _ HM) as VB. pose proof (V_Bw _ _ _ HM) as VBw.
  assert (HI : In (length key) (w_sizes w)) by (now apply existsb_In). apply Nat.eqb_eq in H2. rewrite VBw in H2.
  destruct (V_size _ _ _ HM _ HI) as (K1 & K2 & K3 & K4 & K5 & K6 & K7 & K8 & K9 & K10 & K11).
  unfold R_Initialize. rewrite (V_legal _ _ _ HM), H1, VB, (proj2 (Nat.eqb_eq _ _) H2). cbn [negb].
  assert (G1 : sp_par p && ((sp_blk p <? sp_min p)%nat || (max_alloc <? Z.of_nat (sp_blk p))) = false).
  { destruct (sp_par p) eqn:EP; [|reflexivity]. destruct (HP EP) as (P1 & P2 & P3 & P4 & P5 & P6 & _). cbn [andb]. rewrite (proj2 (Nat.ltb_ge _ _) P4), (proj2 (Z.ltb_ge _ _) P5). reflexivity. }
  assert (G2 : sp_par p && (sp_min p =? 0)%nat = false).
  { destruct (sp_par p) eqn:EP; [|reflexivity]. destruct (HP EP) as (P1 & P2 & _). cbn [andb]. apply Nat.eqb_neq. clear - P2. lia. }
  assert (G3 : sp_par p && negb (sp_blk p mod sp_min p =? 0)%nat = false).
  { destruct (sp_par p) eqn:EP; [|reflexivity]. destruct (HP EP) as (P1 & P2 & P3 & P4 & P5 & P6 & _). cbn [andb]. rewrite P6. reflexivity. }
  rewrite G1, G2. cbn [negb safe bind]. rewrite G3. clear G1 G2 G3.
  (* the object after a possible Reset *)
  assert (RS : exists o1, (if r_init o then R_Reset o else Ok o) = Ok o1 /\ length (r_nonce o1) = (4 * nb)%nat /\ r_auth o1 = auth /\
    r_custom o1 = zeros (length prev) /\ (auth = true -> forall t, resized (r_mtag o1) t = zeros t) /\ (auth = false -> r_mtag o1 = [] /\ r_mac o1 = None)).
  { destruct HB as [(-> & ->)|(n & CA & ->)].
    - exists (R_new fam auth). cbn [R_new r_init r_nonce r_auth r_custom r_mtag r_mac length]. split; [reflexivity|]. split; [rewrite length_zeros; exact VB|]. split; [reflexivity|]. split; [reflexivity|]. split.
      + intros _ t. apply (resized_zeros 0).
      + intros _. split; reflexivity.
    - destruct CA as (C1 & C2 & (C3 & _) & (C4 & C4' & _) & C5 & C6 & C7 & C8 & C9 & C10). rewrite C8. unfold R_Reset. rewrite C6.
      assert (X : exists mac, (if auth then match r_mac o with Some (m, _) => Ok (Some (m, KMAC_new)) | None => UB end else Ok (r_mac o)) = Ok mac /\ (auth = false -> mac = None)).
      { destruct (y_mac n) as [(A & m)|]; [destruct C10 as (-> & _ & k & -> & _); eexists; split; [reflexivity|discriminate]|destruct C10 as (-> & _ & ->); eexists; split; reflexivity]. }
      destruct X as (mac & -> & XM). cbn [bind]. eexists. split; [reflexivity|]. cbn [r_nonce r_auth r_custom r_mtag r_mac].
      split; [rewrite length_zeros, C4; unfold nonce_at; rewrite app_length, length_le_bytes, C4'; lia|]. split; [reflexivity|]. split; [now rewrite C3|]. split; [intros _ t; apply resized_zeros|].
      intros AF. split; [|now apply XM]. rewrite C9. destruct (y_mac n) as [(A & m)|]; [destruct C10 as (C10 & _); congruence|]. destruct C10 as (_ & -> & _). reflexivity. }
  destruct RS as (o1 & -> & A1 & A2 & A3 & A4 & A5). cbn [bind]. cbv zeta.
  assert (BP : bytes prev /\ short prev /\ (length prev = 0 \/ 4 <= length prev)%nat).
  { destruct HB as [(_ & ->)|(n & CA & ->)]; [split; [constructor|]; split; [red; cbn; lia|left; reflexivity]|]. destruct CA as (_ & _ & (_ & Q) & _). exact Q. }
  destruct BP as (BP1 & BP2 & BP3). destruct (custom_of_ok prev info BP1 BP2 BP3 Bf Sf Lf) as (Bc & Sc & Lc).
  assert (CU : (if (length info =? 0)%nat then Ok (r_custom o1) else wcopy info 0 (resized (r_custom o1) (length info)) 0 (length info)) = Ok (custom_of prev info)).
  { rewrite A3. destruct (Nat.eqb_spec (length info) 0) as [E|E].
    - destruct info; [|discriminate]. reflexivity.
    - rewrite wcopy_ok by (rewrite ?resized_len; lia). rewrite slice_all by reflexivity. rewrite splice_all by (rewrite resized_len; reflexivity). destruct info; [now elim E|reflexivity]. }
  rewrite CU. cbn [bind]. clear CU. rewrite wcopy_ok by lia. cbn [bind]. rewrite slice_all by lia. rewrite splice_all by lia. rewrite A2.
  set (k := length key) in *. set (custom := custom_of prev info) in *.
  assert (NM : le_bytes 8 (f_start fam) ++ le_bytes 2 (u16 (Z.of_nat (k * 8))) ++ f_name fam (if auth then (if auth then f_amode fam k else r_amode o1) else 0) = full_name w auth k).
  { unfold full_name. rewrite (V_first _ _ _ HM). f_equal. replace (u16 (Z.of_nat (k * 8))) with (8 * Z.of_nat k) by (unfold u16; rewrite Z.mod_small; lia). f_equal. destruct auth; auto. }
  rewrite NM, K2. clear NM. destruct (ykeys auth key custom HI Bk Bc Sc Lc) as (g & g1 & g2 & E1 & E2 & E3 & L1 & L2). fold k in E1, E2, E3, L1, L2. rewrite E1.
  replace (4 * nb / 4)%nat with nb by (rewrite Nat.mul_comm, Nat.div_mul; lia). rewrite K1.
  assert (KB : (nb * (w_rounds w k + 1) * 4 = key_bytes w k)%nat) by (unfold key_bytes; rewrite VBw; lia). rewrite KB, E2. cbn [bind].
  destruct (be_words_ok (cshake 24 (w_rate w k) key (key_bytes w k) (full_name w auth k) custom) (cshake_bytes _ _ _ _ _ _) (nb * (w_rounds w k + 1)) 0 ltac:(lia)) as (rk & -> & LR & FR & ER). cbn [bind].
  rewrite slice_all in ER by lia.
  assert (RK : chunks (4 * nb) (rk_bytes rk) = round_keys w auth key custom) by (unfold round_keys; fold k; rewrite VBw, ER; reflexivity).
  assert (L16 : (16 <= length iv)%nat) by lia.
  assert (YP : 0 <= value_le (firstn 16 iv)) by (rewrite value_le_eq; apply le_val_range; now apply bytes_firstn).
  assert (LRS : length (skipn 16 iv) = (4 * nb - 16)%nat) by (rewrite skipn_length; lia).
  assert (FST : 0 <= w_first w < 2 ^ 64) by (pose proof (V_first0 _ _ _ HM) as Q; clear - Q; lia).
  unfold begun. cbv zeta. fold k. fold custom. rewrite (V_first _ _ _ HM). destruct auth eqn:EA.
  - rewrite K4, E3. cbn [bind]. rewrite K3.
    destruct (KMAC_Init_ok (w_rate w k) (w_tag w k) K7 K8 ltac:(lia) KMAC_new None (auth_key w key custom) [] [] eq_refl) as (kk & EK & KA).
    { cbn [kcall_ok]. split; [unfold auth_key; apply bytes_skipn, cshake_bytes|]. split; [constructor|]. split; [constructor|]. split; [red; unfold auth_key; fold k; rewrite L2; lia|]. split; [red; cbn; lia|]. split; [red; cbn; lia|]. apply kname_fits. exact K7. }
    { unfold auth_key. fold k. rewrite L2. lia. } { left. reflexivity. }
    unfold auth_key in EK. fold k in EK. rewrite EK. cbn [bind]. eexists. split; [reflexivity|]. red.
    cbn [r_rk r_custom r_nonce r_count r_rounds r_auth r_enc r_init r_mtag r_mac y_enc y_size y_keys y_custom y_rest y_pos y_mac y_total y_tag].
    rewrite A4 by reflexivity. rewrite nonce_split by auto. rewrite length_zeros.
    split; [exact HI|]. split; [exact (conj RK (conj LR (conj FR eq_refl)))|]. split; [exact (conj eq_refl (conj Bc (conj Sc Lc)))|]. split; [exact (conj eq_refl (conj LRS (conj (bytes_skipn 16 iv Bi) YP)))|]. split; [exact (conj eq_refl FST)|]. do 6 (split; [first [reflexivity|congruence]|]). exists kk. split; [reflexivity|exact KA].
  - eexists. split; [reflexivity|]. red. destruct (A5 eq_refl) as [A6 A7].
    cbn [r_rk r_custom r_nonce r_count r_rounds r_auth r_enc r_init r_mtag r_mac y_enc y_size y_keys y_custom y_rest y_pos y_mac y_total y_tag].
    rewrite nonce_split by auto.
    split; [exact HI|]. split; [exact (conj RK (conj LR (conj FR eq_refl)))|]. split; [exact (conj eq_refl (conj Bc (conj Sc Lc)))|]. split; [exact (conj eq_refl (conj LRS (conj (bytes_skipn 16 iv Bi) YP)))|]. split; [exact (conj eq_refl FST)|]. do 6 (split; [first [reflexivity|congruence]|]). exact A7.
Qed.

(** the line with another message in its authenticator *)
Definition ywith (n : line) (A m : list Z) : line := Line (y_enc n) (y_size n) (y_keys n) (y_custom n) (y_rest n) (y_pos n) (Some (A, m)) (y_total n) (y_tag n).
Lemma ywith_mac n A m : y_mac (ywith n A m) = Some (A, m). Proof. reflexivity. Qed.
Lemma ymac_ok o n A m out inp io len : yabs o n -> y_mac n = Some (A, m) -> bytes inp -> (io + len <= length inp)%nat ->
  exists o', R_mac o out inp io len = Ok (o', out, None) /\ yabs o' (ywith n A (m ++ slice inp io len)).
Proof.
  intros CA EM Bi HL. destruct CA as (C1 & C2 & C3 & C4 & C5 & C6 & C7 & C8 & C9 & C10). rewrite EM in C10. destruct C10 as (CT & CL & k & CK & KA).
  destruct (V_size _ _ _ HM _ C1) as (K1 & K2 & K3 & K4 & K5 & K6 & K7 & K8 & K9 & K10 & K11).
  unfold R_mac. rewrite CK, K3. destruct (kabs_upd (rate n) (tag n) K7 K8 ltac:(lia) k A m inp io len KA Bi HL) as (k' & -> & KA'). eexists. split; [reflexivity|].
  red. cbn [ywith set_rmac r_rk r_custom r_nonce r_count r_rounds r_auth r_enc r_init r_mtag r_mac y_enc y_size y_keys y_custom y_rest y_pos y_mac y_total y_tag].
  do 9 (split; [assumption|]). split; [assumption|]. split; [assumption|]. exists k'. split; [reflexivity|exact KA'].
Qed.
Lemma nonce_st o n v : yabs o n -> length (nonce_at (y_rest n) v) = (4 * nb)%nat /\ bytes (nonce_at (y_rest n) v).
Proof.
  intros (C1 & C2 & C3 & (_ & C4 & C4' & _) & _). pose proof (V_nb _ _ _ HM). unfold nonce_at. split; [rewrite app_length, length_le_bytes, C4; lia|]. apply bytes_app. split; [apply bytes_le_bytes|exact C4'].
Qed.
Lemma ynonce_ok o n A m out : yabs o n -> y_mac n = Some (A, m) ->
  exists o', R_mac o out (r_nonce o) 0 (f_B fam) = Ok (o', out, None) /\ yabs o' (ywith n A (m ++ nonce_at (y_rest n) (y_pos n))).
Proof.
  intros CA EM. pose proof (nonce_st o n (y_pos n) CA) as [L B]. assert (E : r_nonce o = nonce_at (y_rest n) (y_pos n)) by apply CA. rewrite E, (V_B _ _ _ HM).
  destruct (ymac_ok o n A m out (nonce_at (y_rest n) (y_pos n)) 0 (4 * nb) CA EM B ltac:(lia)) as (o' & -> & CA'). exists o'. split; [reflexivity|]. rewrite slice_all in CA' by lia. exact CA'.
Qed.
Lemma pad_ok o n : yabs o n -> forall v, st nb (pad_block w n v).
Proof.
  intros CA v. pose proof (nonce_st o n v CA) as S. destruct CA as (C1 & (C2 & C2' & _) & _). destruct (ynum _ C1) as (_ & _ & _ & _ & R5).
  unfold pad_block. rewrite <- C2. pose proof (V_nb _ _ _ HM) as NB. apply (wide_st fam nb (w_offs w) (w_rounds w (y_size n)) (r_rk o)); [exact (V_B _ _ _ HM)|lia|exact (V_offs _ _ _ HM)|exact (V_shift _ _ _ HM)|lia|exact C2'|exact S].
Qed.
Lemma ycrypt_length o n m : yabs o n -> length (ycrypt w n m) = length m.
Proof.
  intros CA. pose proof (V_nb _ _ _ HM). unfold ycrypt. apply (crypt_len (w_B w) (pad_block w n)); [rewrite (V_Bw _ _ _ HM); lia|]. intros v. rewrite (V_Bw _ _ _ HM). apply (pad_ok o n CA v).
Qed.
Lemma ycrypt_bytes o n m : yabs o n -> bytes m -> bytes (ycrypt w n m).
Proof.
  intros CA Bm. pose proof (V_nb _ _ _ HM). unfold ycrypt, stream_crypt. apply bytes_xorl; [exact Bm|]. rewrite (V_Bw _ _ _ HM). apply keystream_bytes; [lia| |]; intros v; apply (pad_ok o n CA v).
Qed.
(** Process on the object *)
Definition yproc_pre (n : line) (inp : list Z) (io : nat) (out : list Z) (oo len : nat) (ord : list nat) : Prop :=
  (io + len <= length inp)%nat /\ (oo + len <= length out)%nat /\ short inp /\ short out /\ orders_ok p len ord /\ (sp_par p = true -> y_pos n + Z.of_nat (nblocks (w_B w) len) <= 2 ^ 128).
Lemma yproc_ok o n inp io out oo len ord : yabs o n -> yproc_pre n inp io out oo len ord ->
  exists o', R_proc fam p ord o (Some inp) io out oo len = Ok (o', splice out oo (ycrypt w n (slice inp io len)), None) /\ yabs o' (ymoved w n len).
Proof.
  intros CA (P1 & P2 & P3 & P4 & P5 & P6). pose proof (pad_ok o n CA) as PO. pose proof (fun v => nonce_st o n v CA) as NS. pose proof (V_nb _ _ _ HM) as NB.
  destruct CA as (C1 & (C2 & C2' & C2w & C2r) & C3 & (C4 & C4l & C4b & C4p) & C5 & C6 & C7 & C8 & C9 & C10). destruct (ynum _ C1) as (_ & _ & _ & _ & R5).
  unfold R_proc. rewrite C4, C2r, (V_B _ _ _ HM).
  pose proof HP as HP'. rewrite (V_Bw _ _ _ HM) in HP', P6.
  assert (E : W_Process (4 * nb) (R_block fam (r_rk o) (w_rounds w (y_size n))) p ord (Some inp) io out oo len (nonce_at (y_rest n) (y_pos n)) =
    Ok (splice out oo (stream_crypt (4 * nb) (pad_block w n) (y_pos n) (slice inp io len)), nonce_at (y_rest n) (y_pos n + Z.of_nat (nblocks (4 * nb) len)))).
  { apply (W_Process_ok (4 * nb) (rijndael (w_offs w) (y_keys n)) (R_block fam (r_rk o) (w_rounds w (y_size n))) (y_rest n) ltac:(lia) C4l C4b); auto.
    - intros v. apply (PO v).
    - intros v out' oo' Ho. rewrite (R_block_ok fam nb (w_offs w) (w_rounds w (y_size n)) (r_rk o)); [rewrite C2; reflexivity|exact (V_B _ _ _ HM)|lia|exact (V_offs _ _ _ HM)|exact (V_shift _ _ _ HM)|lia|exact C2'|exact (NS v)|rewrite (V_B _ _ _ HM); exact Ho].
    - unfold short in P4. clear - P4. lia. }
  rewrite E. cbn [bind]. unfold ycrypt. rewrite (V_Bw _ _ _ HM). eexists. split; [reflexivity|].
  red. cbn [ymoved r_rk r_custom r_nonce r_count r_rounds r_auth r_enc r_init r_mtag r_mac y_enc y_size y_keys y_custom y_rest y_pos y_mac y_total y_tag]. rewrite (V_Bw _ _ _ HM).
  split; [exact C1|]. split; [exact (conj C2 (conj C2' (conj C2w eq_refl)))|]. split; [exact C3|]. split; [refine (conj eq_refl (conj C4l (conj C4b _))); clear - C4p; lia|]. do 5 (split; [assumption|]). exact C10.
Qed.
(** Counter += Length; Finalize *)
Lemma yfin_ok o n A m out len : yabs o n -> y_mac n = Some (A, m) ->
  exists o', R_Finalize (R_add o len) out = Ok (o', out, None) /\
    let M := m ++ le_bytes 8 (ytotal n len + Z.of_nat (w_B w) + 8) in
    r_mtag o' = kmac_out (rate n) A M (tag n) /\ length (kmac_out (rate n) A M (tag n)) = tag n /\
    yabs o' (Line (y_enc n) (y_size n) (y_keys n) (y_custom n) (y_rest n) (y_pos n) (Some (kmac_after (rate n) A M (tag n), [])) (ytotal n len) (kmac_out (rate n) A M (tag n))).
Proof.
  intros CA EM. pose proof (nonce_st o n (y_pos n) CA) as [NL _].
  set (n1 := Line (y_enc n) (y_size n) (y_keys n) (y_custom n) (y_rest n) (y_pos n) (y_mac n) (ytotal n len) (y_tag n)).
  assert (CA1 : yabs (R_add o len) n1).
  { destruct CA as (C1 & C2 & C3 & C4 & (C5 & C5') & C6 & C7 & C8 & C9 & C10). red. unfold n1, R_add.
    cbn [r_rk r_custom r_nonce r_count r_rounds r_auth r_enc r_init r_mtag r_mac y_enc y_size y_keys y_custom y_rest y_pos y_mac y_total y_tag]. rewrite C5.
    do 4 (split; [assumption|]). split; [split; [reflexivity|]; unfold ytotal; apply Z.mod_pos_bound; reflexivity|]. do 4 (split; [assumption|]). exact C10. }
  unfold R_Finalize. assert (CNT : r_count (R_add o len) = ytotal n len) by apply CA1. rewrite CNT. assert (NC : r_nonce (R_add o len) = nonce_at (y_rest n) (y_pos n)) by apply CA1. rewrite NC, NL.
  assert (LE : le_bytes 8 (u64 (ytotal n len + Z.of_nat (4 * nb) + 8)) = le_bytes 8 (ytotal n len + Z.of_nat (w_B w) + 8)) by (rewrite (V_Bw _ _ _ HM); unfold u64; exact (le_bytes_mod 8 _)). rewrite LE.
  set (tl := le_bytes 8 (ytotal n len + Z.of_nat (w_B w) + 8)) in *. assert (LT : length tl = 8%nat) by apply length_le_bytes.
  destruct (ymac_ok (R_add o len) n1 A m out tl 0 8 CA1 EM (bytes_le_bytes _ _) ltac:(lia)) as (o2 & -> & CA2). cbn [rthen].
  rewrite slice_all in CA2 by lia. destruct CA2 as (C1 & C2 & C3 & C4 & C5 & C6 & C7 & C8 & C9 & C10). rewrite ywith_mac in C10. destruct C10 as (CT & CL & k & CK & KA).
  cbn [ywith n1 y_size] in C1. destruct (V_size _ _ _ HM _ C1) as (K1 & K2 & K3 & K4 & K5 & K6 & K7 & K8 & K9 & K10 & K11).
  rewrite CK. cbn [ywith n1 y_size y_tag] in KA, CL, C9 |- *. rewrite K3, K4, C9. set (M := m ++ tl) in *.
  destruct (kabs_fin (rate n) (tag n) K7 K8 ltac:(lia) k A M (y_tag n) 0 KA ltac:(lia) ltac:(lia) ltac:(red; lia)) as (k' & EF & KA' & LF). rewrite Nat.sub_0_r, CL in *. rewrite EF.
  rewrite splice_all by lia. eexists. split; [reflexivity|]. cbv zeta. cbn [r_mtag]. split; [reflexivity|]. split; [exact LF|].
  red. cbn [ywith n1 r_rk r_custom r_nonce r_count r_rounds r_auth r_enc r_init r_mtag r_mac y_enc y_size y_keys y_custom y_rest y_pos y_mac y_total y_tag] in *.
  do 8 (split; [assumption|]). split; [reflexivity|]. split; [assumption|]. split; [exact LF|]. exists k'. split; [reflexivity|exact KA'].
Qed.
Lemma ycrypt_with n A m x : ycrypt w (ywith n A m) x = ycrypt w n x. Proof. reflexivity. Qed.

Lemma yTransform_plain o n inp io out oo len ord : yabs o n -> y_mac n = None -> yproc_pre n inp io out oo len ord ->
  exists o', R_Transform fam p ord o (Some inp) io out oo len = Ok (o', splice out oo (ycrypt w n (slice inp io len)), None) /\ yabs o' (ymoved w n len).
Proof.
  intros CA EM PP. destruct (yproc_ok o n inp io out oo len ord CA PP) as (o' & E & CA'). exists o'. split; [|exact CA']. unfold R_Transform.
  destruct CA as (C1 & C2 & C3 & C4 & C5 & C6 & C7 & C8 & C9 & C10). rewrite EM in C10. destruct C10 as [C10 _]. rewrite C6, C10. destruct (r_enc o); exact E.
Qed.
Lemma yTransform_seal o n A m inp io out oo len ord : yabs o n -> y_mac n = Some (A, m) -> y_enc n = true -> bytes inp -> bytes out -> yproc_pre n inp io out oo len ord -> (oo + len + tag n <= length out)%nat ->
  exists o', let ct := ycrypt w n (slice inp io len) in R_Transform fam p ord o (Some inp) io out oo len = Ok (o', splice out oo (ct ++ ytag_of w n A m ct), None) /\
    yabs o' (ymoved w (ytagged w n A m ct) len) /\ length (ct ++ ytag_of w n A m ct) = (len + tag n)%nat.
Proof.
  intros CA EM EE Bi Bo PP HT. pose proof CA as (C1 & C2 & C3 & C4 & C5 & C6 & C7 & C8 & C9 & C10). rewrite EM in C10. destruct C10 as (CT & CL & k & CK & KA).
  destruct (V_size _ _ _ HM _ C1) as (K1 & K2 & K3 & K4 & K5 & K6 & K7 & K8 & K9 & K10 & K11).
  unfold R_Transform. rewrite C7, EE, C6, CT, CK, K4. pose proof PP as (P1 & P2 & P3 & P4 & _). unfold short in P3, P4.
  replace (Z.of_nat (length out) <? u64 (Z.of_nat len + Z.of_nat oo + Z.of_nat (tag n))) with false by (symmetry; apply Z.ltb_ge; unfold u64; rewrite Z.mod_small; clear - P4 HT; lia).
  destruct (ynonce_ok o n A m out CA EM) as (o1 & -> & CA1). cbn [rthen]. set (nn := nonce_at (y_rest n) (y_pos n)) in *.
  destruct (yproc_ok o1 _ inp io out oo len ord CA1 PP) as (o2 & -> & CA2). cbn [rthen]. rewrite ycrypt_with. set (data := slice inp io len) in *. assert (LD : length data = len) by (apply length_slice; lia).
  assert (LC : length (ycrypt w n data) = len) by (rewrite (ycrypt_length o n data CA); exact LD).
  assert (Bct : bytes (ycrypt w n data)) by (apply (ycrypt_bytes o n data CA); now apply bytes_slice). set (ct := ycrypt w n data) in *.
  assert (Bo2 : bytes (splice out oo ct)) by (apply bytes_splice; auto).
  assert (Lo2 : length (splice out oo ct) = length out) by (apply length_splice; lia).
  assert (EM2 : y_mac (ymoved w (ywith n A (m ++ nn)) len) = Some (A, m ++ nn)) by reflexivity.
  destruct (ymac_ok o2 _ A (m ++ nn) (splice out oo ct) (splice out oo ct) oo len CA2 EM2 Bo2 ltac:(lia)) as (o3 & -> & CA3). cbn [rthen].
  assert (SS : slice (splice out oo ct) oo len = ct) by (replace len with (length ct) by exact LC; apply slice_splice_same; lia). rewrite SS in CA3.
  destruct (yfin_ok o3 _ A ((m ++ nn) ++ ct) (splice out oo ct) len CA3 (ywith_mac _ _ _)) as (o4 & -> & F). cbn [rthen]. cbv zeta in F. destruct F as (F1 & F2 & F3).
  cbn [ywith ymoved y_enc y_size y_keys y_custom y_rest y_pos y_total y_tag] in F1, F2, F3.
  change (ytotal (ywith (ymoved w (ywith n A (m ++ nn)) len) A ((m ++ nn) ++ ct)) len) with (ytotal n len) in *.
  assert (TE : kmac_out (rate n) A (((m ++ nn) ++ ct) ++ le_bytes 8 (ytotal n len + Z.of_nat (w_B w) + 8)) (tag n) = ytag_of w n A m ct) by (unfold ytag_of, ycovered; rewrite LC; fold nn; rewrite <- !app_assoc; reflexivity).
  assert (AE : kmac_after (rate n) A (((m ++ nn) ++ ct) ++ le_bytes 8 (ytotal n len + Z.of_nat (w_B w) + 8)) (tag n) = ymac_after w n A m ct) by (unfold ymac_after, ycovered; rewrite LC; fold nn; rewrite <- !app_assoc; reflexivity).
  rewrite TE, AE in *. rewrite F1, F2. rewrite wcopy_ok by lia. cbn [bind]. rewrite slice_all by lia. exists o4. cbv zeta. split; [|split].
  - do 3 f_equal. apply splice_splice_next_at; lia.
  - unfold ymoved, ytagged. cbn [y_enc y_size y_keys y_custom y_rest y_pos y_mac y_total y_tag]. rewrite LC. exact F3.
  - rewrite app_length. lia.
Qed.
Lemma yTransform_open o n A m inp io out oo len ord : yabs o n -> y_mac n = Some (A, m) -> y_enc n = false -> bytes inp -> bytes out -> yproc_pre n inp io out oo len ord -> (io + len + tag n <= length inp)%nat ->
  let data := slice inp io len in exists o',
    (slice inp (io + len) (tag n) = ytag_of w n A m data /\ R_Transform fam p ord o (Some inp) io out oo len = Ok (o', splice out oo (ycrypt w n data), None) /\ yabs o' (ymoved w (ytagged w n A m data) len)) \/
    (slice inp (io + len) (tag n) <> ytag_of w n A m data /\ R_Transform fam p ord o (Some inp) io out oo len = Ok (o', out, Some AuthenticationFailure) /\ yabs o' (ytagged w n A m data)).
Proof.
  intros CA EM EE Bi Bo PP HT data. pose proof CA as (C1 & C2 & C3 & C4 & C5 & C6 & C7 & C8 & C9 & C10). rewrite EM in C10. destruct C10 as (CT & CL & k & CK & KA).
  unfold R_Transform. rewrite C7, EE, C6, CT. cbn [src].
  destruct (ynonce_ok o n A m out CA EM) as (o1 & -> & CA1). cbn [rthen]. set (nn := nonce_at (y_rest n) (y_pos n)) in *.
  destruct (ymac_ok o1 _ A (m ++ nn) out inp io len CA1 (ywith_mac _ _ _) Bi ltac:(lia)) as (o2 & -> & CA2). cbn [rthen]. fold data in CA2. assert (LD : length data = len) by (apply length_slice; lia).
  destruct (yfin_ok o2 _ A ((m ++ nn) ++ data) out len CA2 (ywith_mac _ _ _)) as (o3 & -> & F). cbn [rthen]. cbv zeta in F. destruct F as (F1 & F2 & F3).
  cbn [ywith y_enc y_size y_keys y_custom y_rest y_pos y_total y_tag] in F1, F2, F3. change (ytotal (ywith (ywith n A (m ++ nn)) A ((m ++ nn) ++ data)) len) with (ytotal n len) in *.
  assert (TE : kmac_out (rate n) A (((m ++ nn) ++ data) ++ le_bytes 8 (ytotal n len + Z.of_nat (w_B w) + 8)) (tag n) = ytag_of w n A m data) by (unfold ytag_of, ycovered; rewrite LD; fold nn; rewrite <- !app_assoc; reflexivity).
  assert (AE : kmac_after (rate n) A (((m ++ nn) ++ data) ++ le_bytes 8 (ytotal n len + Z.of_nat (w_B w) + 8)) (tag n) = ymac_after w n A m data) by (unfold ymac_after, ycovered; rewrite LD; fold nn; rewrite <- !app_assoc; reflexivity).
  rewrite TE, AE in *. assert (CA3 : yabs o3 (ytagged w n A m data)) by (unfold ytagged; rewrite LD; exact F3). clear F3. rewrite F1, F2.
  assert (Bt : bytes (ytag_of w n A m data)) by (unfold ytag_of; apply kmac_out_bytes).
  destruct (Compare_correct inp (io + len) (ytag_of w n A m data) 0 (tag n) ltac:(lia) ltac:(lia) Bi Bt) as (b & -> & HC). cbn [bind]. rewrite (slice_all (ytag_of w n A m data)) in HC by (symmetry; exact F2). destruct b.
  - destruct (yproc_ok o3 _ inp io out oo len ord CA3 PP) as (o4 & E4 & CA4). exists o4. left. split; [now apply HC|]. split; [|exact CA4]. exact E4.
  - exists o3. right. split; [intros Q; apply HC in Q; discriminate|]. split; [reflexivity|exact CA3].
Qed.
Lemma yAad_ok o n A m inp off len : yabs o n -> y_mac n = Some (A, m) -> bytes inp -> (off + len <= length inp)%nat -> (len =? 0)%nat = false ->
  exists o', R_SetAssociatedData o inp off len = Ok (o', [], None) /\ yabs o' (yaad n A m (slice inp off len)).
Proof.
  intros CA EM Bi HL HZ. pose proof CA as (C1 & C2 & C3 & C4 & C5 & C6 & C7 & C8 & C9 & C10). rewrite EM in C10. destruct C10 as (CT & CL & k & CK & KA).
  unfold R_SetAssociatedData. rewrite C8, C6, CT, CK, HZ. cbn [negb].
  destruct (ymac_ok o n A m [] inp off len CA EM Bi HL) as (o1 & -> & CA1). cbn [rthen]. unfold yaad. rewrite length_slice by lia.
  destruct (ymac_ok o1 _ A _ [] (le_bytes 4 (u32 (Z.of_nat len))) 0 4 CA1 (ywith_mac _ _ _) (bytes_le_bytes _ _) ltac:(rewrite length_le_bytes; lia)) as (o2 & -> & CA2).
  exists o2. split; [reflexivity|]. rewrite slice_all in CA2 by (symmetry; apply length_le_bytes). rewrite <- app_assoc in CA2. exact CA2.
Qed.

(** the direction, the key size and the bound of the counter after a call *)
Definition yturned (e : bool) (k : nat) (hi : Z) (x : xcall) : bool * nat * Z :=
  match x with
  | XInit e' key iv info => if fitting w key iv then (e', length key, value_le (firstn 16 iv)) else (e, k, hi)
  | XTransform _ _ _ _ len _ => (e, k, hi + Z.of_nat (nblocks (w_B w) len))
  | _ => (e, k, hi)
  end.
Lemma ystep_ok o n x cs hi : yabs o n -> y_pos n <= hi -> ycall_ok w p (if auth && negb (y_enc n) then tag n else 0) hi x ->
  exists o' n' r, ystep fam p o x = Ok (o', r) /\ yabs o' n' /\ (let '(e, k, h) := yturned (y_enc n) (y_size n) hi x in y_enc n' = e /\ y_size n' = k /\ y_pos n' <= h) /\
    (forall rs, yexpected w auth n' cs rs -> yexpected w auth n (x :: cs) (r :: rs)).
Proof.
  intros CA Hhi Hx.
  assert (STEP : forall o' n' r, ystep fam p o x = Ok (o', r) -> yabs o' n' -> (let '(e, k, h) := yturned (y_enc n) (y_size n) hi x in y_enc n' = e /\ y_size n' = k /\ y_pos n' <= h) ->
    (forall rs, yexpected w auth n' cs rs -> yexpected w auth n (x :: cs) (r :: rs)) ->
    exists o' n' r, ystep fam p o x = Ok (o', r) /\ yabs o' n' /\ (let '(e, k, h) := yturned (y_enc n) (y_size n) hi x in y_enc n' = e /\ y_size n' = k /\ y_pos n' <= h) /\ (forall rs, yexpected w auth n' cs rs -> yexpected w auth n (x :: cs) (r :: rs))) by eauto 10.
  destruct x as [enc key iv info|inp off len|inp io out oo len ord|].
  - destruct Hx as (Bk & Bv & Bf & Sf & Lf). cbn [yturned] in *. destruct (fitting w key iv) eqn:AC.
    + destruct (yInit_ok o (y_custom n) enc key iv info ltac:(right; exists n; auto) Bk Bv Bf Sf Lf AC) as (o' & E & CA'). eapply (STEP o' _ XDone); [cbn [ystep]; rewrite E; reflexivity|exact CA'|repeat split; cbn; lia|].
      intros rs H. cbn [yexpected]. unfold fitting in AC. apply andb_true_iff in AC. destruct AC as [A1 A2]. rewrite A1, A2. cbn [negb]. split; [reflexivity|exact H].
    + assert (E : exists e, ystep fam p o (XInit enc key iv info) = Ok (o, XFail e []) /\ forall rs, yexpected w auth n cs rs -> yexpected w auth n (XInit enc key iv info :: cs) (XFail e [] :: rs)).
      { cbn [ystep yexpected]. unfold R_Initialize. rewrite (V_legal _ _ _ HM), (V_B _ _ _ HM). unfold fitting in AC. rewrite (V_Bw _ _ _ HM) in *.
        destruct (existsb (Nat.eqb (length key)) (w_sizes w)); [|exists InvalidKey; split; [reflexivity|intros rs H; split; [reflexivity|exact H]]]. cbn [negb andb] in *. rewrite AC.
        exists InvalidNonce. split; [reflexivity|intros rs H; split; [reflexivity|exact H]]. }
      destruct E as (e & E1 & E2). apply (STEP o n (XFail e [])); [exact E1|exact CA|auto|exact E2].
  - destruct Hx as (Bi & HL). cbn [yturned] in *. destruct (y_mac n) as [(A & m)|] eqn:EM.
    + destruct (len =? 0)%nat eqn:HZ.
      * apply (STEP o n (XFail InvalidSize [])); [|exact CA|auto|].
        -- pose proof CA as (C1 & C2 & C3 & C4 & C5 & C6 & C7 & C8 & C9 & C10). rewrite EM in C10. destruct C10 as (CT & CL & k & CK & KA). cbn [ystep]. unfold R_SetAssociatedData. rewrite C8, CK, HZ. reflexivity.
        -- intros rs H. cbn [yexpected]. rewrite EM, HZ. split; [reflexivity|exact H].
      * destruct (yAad_ok o n A m inp off len CA EM Bi HL HZ) as (o' & E & CA'). eapply (STEP o' _ XDone); [cbn [ystep]; rewrite E; reflexivity|exact CA'|auto|].
        intros rs H. cbn [yexpected]. rewrite EM, HZ. split; [reflexivity|exact H].
    + apply (STEP o n (XFail IllegalOperation [])); [|exact CA|auto|].
      * pose proof CA as (C1 & C2 & C3 & C4 & C5 & C6 & C7 & C8 & C9 & C10). rewrite EM in C10. destruct C10 as (CT & _ & CK). cbn [ystep]. unfold R_SetAssociatedData. rewrite C8, CK. reflexivity.
      * intros rs H. cbn [yexpected]. rewrite EM. split; [reflexivity|exact H].
  - destruct Hx as (Bi & Bo & HI & HO & S1 & S2 & PO & PT). cbn [yturned] in *.
    assert (PP : yproc_pre n inp io out oo len ord) by (red; repeat split; auto; [clear - HI; lia|intros EP; specialize (PT EP); clear - PT Hhi; lia]).
    pose proof CA as (C1 & C2 & C3 & C4 & C5 & C6 & C7 & C8 & C9 & C10). destruct (V_size _ _ _ HM _ C1) as (K1 & K2 & K3 & K4 & K5 & K6 & K7 & K8 & K9 & K10 & K11).
    assert (LD : length (slice inp io len) = len) by (apply length_slice; clear - HI; lia).
    assert (LC : length (ycrypt w n (slice inp io len)) = len) by (rewrite (ycrypt_length o n _ CA); auto).
    assert (MV : y_pos n + Z.of_nat (nblocks (w_B w) len) <= hi + Z.of_nat (nblocks (w_B w) len)) by (clear - Hhi; lia). assert (MV0 : y_pos n <= hi + Z.of_nat (nblocks (w_B w) len)) by (clear - Hhi; lia).
    destruct (y_mac n) as [(A & m)|] eqn:EM.
    + destruct C10 as (CT & CL & k & CK & KA). destruct (y_enc n) eqn:EE.
      * destruct (Nat.ltb_spec (length out) (oo + len + tag n)) as [LT|GE].
        -- apply (STEP o n (XFail InvalidSize out)); [|exact CA|auto|].
           ++ cbn [ystep]. unfold R_Transform. rewrite C7, C6, CT, CK, K4. unfold short in S1, S2.
              replace (Z.of_nat (length out) <? u64 (Z.of_nat len + Z.of_nat oo + Z.of_nat (tag n))) with true by (symmetry; apply Z.ltb_lt; unfold u64; rewrite Z.mod_small; clear - S1 S2 HI HO LT K7 K9; lia). reflexivity.
           ++ intros rs H. cbn [yexpected]. rewrite EM, EE. replace (length out <? oo + len + tag n)%nat with true by (symmetry; apply Nat.ltb_lt; lia). split; [reflexivity|exact H].
        -- destruct (yTransform_seal o n A m inp io out oo len ord CA EM EE Bi Bo PP GE) as (o' & E & CA' & LL). cbv zeta in *.
           eapply (STEP o' _ (XOut (splice out oo (ycrypt w n (slice inp io len) ++ ytag_of w n A m (ycrypt w n (slice inp io len)))))); [cbn [ystep]; rewrite E; reflexivity|exact CA'|cbn; auto|].
           intros rs H. cbn [yexpected]. rewrite EM, EE. replace (length out <? oo + len + tag n)%nat with false by (symmetry; apply Nat.ltb_ge; lia). split; [|exact H].
           eexists. split; [reflexivity|]. apply splice_written. rewrite LL. lia.
      * rewrite CT in HI. cbn [andb negb] in HI. destruct (yTransform_open o n A m inp io out oo len ord CA EM EE Bi Bo PP HI) as (o' & [(TQ & E & CA')|(TQ & E & CA')]).
        -- eapply (STEP o' _ (XOut (splice out oo (ycrypt w n (slice inp io len))))); [cbn [ystep]; rewrite E; reflexivity|exact CA'|cbn; auto|].
           intros rs H. cbn [yexpected]. rewrite EM, EE. left. split; [exact TQ|]. split; [|exact H]. eexists. split; [reflexivity|]. apply splice_written. lia.
        -- eapply (STEP o' _ (XFail AuthenticationFailure out)); [cbn [ystep]; rewrite E; reflexivity|exact CA'|cbn; auto|].
           intros rs H. cbn [yexpected]. rewrite EM, EE. right. split; [exact TQ|]. split; [reflexivity|exact H].
    + destruct (yTransform_plain o n inp io out oo len ord CA EM PP) as (o' & E & CA').
      eapply (STEP o' _ (XOut (splice out oo (ycrypt w n (slice inp io len))))); [cbn [ystep]; rewrite E; reflexivity|exact CA'|cbn; auto|].
      intros rs H. cbn [yexpected]. rewrite EM. split; [|exact H]. eexists. split; [reflexivity|]. apply splice_written. lia.
  - pose proof CA as (C1 & C2 & C3 & C4 & C5 & C6 & C7 & C8 & C9 & C10). destruct (ynum _ C1) as (R1 & R2 & R3 & R4 & R5). cbn [yturned] in *. destruct (y_mac n) as [(A & m)|] eqn:EM.
    + destruct C10 as (CT & CL & _). apply (STEP o n (XOut (y_tag n))); [|exact CA|auto|].
      * cbn [ystep]. unfold R_Tag. rewrite C9, C6, CT, CL. replace (tag n =? 0)%nat with false by (symmetry; apply Nat.eqb_neq; lia). reflexivity.
      * intros rs H. cbn [yexpected]. rewrite EM. split; [reflexivity|exact H].
    + destruct C10 as (CT & CL & _). apply (STEP o n (XFail NotInitialized [])); [|exact CA|auto|].
      * cbn [ystep]. unfold R_Tag. rewrite C9, CL. reflexivity.
      * intros rs H. cbn [yexpected]. rewrite EM. split; [reflexivity|exact H].
Qed.
Lemma yhistory_ok cs : forall o n hi, yabs o n -> y_pos n <= hi -> ycalls_ok w p auth (y_enc n) (y_size n) hi cs -> exists rs, yhistory fam p o cs = Ok rs /\ yexpected w auth n cs rs.
Proof.
  induction cs as [|x cs IH]; intros o n hi CA Hh HC; [exists []; split; [reflexivity|exact I]|]. cbn [ycalls_ok] in HC. destruct HC as [Hx HC]. cbn [yhistory].
  destruct (ystep_ok o n x cs hi CA Hh Hx) as (o' & n' & r & E & CA' & EE & H). rewrite E. cbn [bind fst snd].
  assert (HC' : let '(e, k, h) := yturned (y_enc n) (y_size n) hi x in ycalls_ok w p auth e k h cs) by (destruct x as [e0 key iv info| | |]; cbn [yturned]; try exact HC; destruct (fitting w key iv); exact HC).
  destruct (yturned (y_enc n) (y_size n) hi x) as [[e k] h]. destruct EE as (<- & <- & EE). destruct (IH o' n' h CA' EE HC') as (rs & -> & H4). cbn [bind]. exists (r :: rs). split; [reflexivity|]. now apply H.
Qed.
End obj.
