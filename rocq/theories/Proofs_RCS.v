(** Generate and Process of RCS and RWS, for any block function. *)
From Coq Require Import Permutation.
From Verif Require Import BaseLemmas Spec_Common Proofs_Common Model_IntegerTools Proofs_IntegerTools Proofs_IntegerTools2 Model_Modes Proofs_Windows Proofs_Modes5 Model_ChaCha Spec_ChaCha Proofs_ChaCha2
  Spec_RCS Model_CSX Model_RCS Session_RCS.
Open Scope Z_scope.

Lemma splice_splice_next_at {A} (l : list A) o a k b : length a = k -> (o + k + length b <= length l)%nat -> splice (splice l o a) (o + k) b = splice l o (a ++ b).
Proof. intros <- H. now apply splice_splice_next. Qed.
Lemma xor_tail' l io out oo ks a n done : length done = a -> length ks = (a + n)%nat -> (oo + a + n <= length out)%nat -> (io + a + n <= length l)%nat ->
  for_up a n (fun i out => x <- get l (i + io) ;; y <- get out (i + oo) ;; put out (i + oo) (Z.lxor y x)) (splice (splice out oo ks) oo done) =
  Ok (splice out oo (done ++ xorl (slice l (io + a) n) (skipn a ks))).
Proof.
  intros Hd Hk Ho Hi. set (out1 := splice out oo ks). assert (L1 : length out1 = length out) by (apply length_splice; lia).
  rewrite (byte_loop out1 oo (fun i => Z.lxor (nth i ks 0) (nth (io + i) l 0)) _ n a done Hd); [|lia|].
  2:{ intros i d Hi' Hl. assert (L2 : length (splice out1 oo d) = length out) by (rewrite length_splice; lia).
      rewrite (get_ok _ _ 0) by lia. cbn [bind]. rewrite (get_ok _ _ 0) by lia. cbn [bind]. rewrite (Nat.add_comm i io), (Nat.add_comm i oo). do 2 f_equal.
      rewrite nth_splice by lia. destruct (Nat.ltb_spec (oo + i) oo); [lia|]. destruct (Nat.ltb_spec (oo + i) (oo + length d)); [lia|].
      unfold out1. rewrite nth_splice by lia. destruct (Nat.ltb_spec (oo + i) oo); [lia|]. destruct (Nat.ltb_spec (oo + i) (oo + length ks)); [|lia]. f_equal. lia. }
  unfold out1. rewrite splice_over by (rewrite ?app_length, ?map_length, ?seq_length; lia). do 3 f_equal.
  rewrite xorl_map_seq by (rewrite length_slice, ?skipn_length; lia). rewrite length_slice by lia.
  apply (list_ext 0); [now rewrite !map_length, !seq_length|]. rewrite map_length, seq_length. intros i Hi'.
  set (f := fun i => Z.lxor (nth i ks 0) (nth (io + i) l 0)). set (g := fun i => Z.lxor (nth i (slice l (io + a) n) 0) (nth i (skipn a ks) 0)).
  rewrite (nth_indep _ 0 (f 0%nat)) by (rewrite map_length, seq_length; lia). rewrite map_nth.
  rewrite (nth_indep _ 0 (g 0%nat)) by (rewrite map_length, seq_length; lia). rewrite map_nth, !seq_nth by lia. unfold f, g. cbn [Nat.add].
  rewrite nth_slice by lia. rewrite Z.lxor_comm. f_equal; [f_equal; lia|].
  rewrite <- (firstn_skipn a ks) at 1. rewrite app_nth2 by (rewrite firstn_length; lia). rewrite firstn_length. f_equal. lia.
Qed.
Section W.
Context (B : nat) (E : list Z -> list Z) (blk : list Z -> list Z -> nat -> res (list Z)) (rest : list Z).
Hypothesis HB : (16 <= B)%nat.
Hypothesis HR : length rest = (B - 16)%nat.
Hypothesis BR : bytes rest.
Local Notation cv := (nonce_at rest).
Definition pad (v : Z) : list Z := E (cv v).
Hypothesis HE : forall v, length (pad v) = B.
Hypothesis HK : forall v out oo, (oo + B <= length out)%nat -> blk (cv v) out oo = Ok (splice out oo (pad v)).
Lemma HB0 : (0 < B)%nat. Proof. lia. Qed.
Lemma cv_len v : length (cv v) = B.
Proof. unfold nonce_at. rewrite app_length, length_le_bytes. lia. Qed.
Lemma cv_bytes v : bytes (cv v).
Proof. unfold nonce_at. apply bytes_app. split; [apply bytes_le_bytes|exact BR]. Qed.
Lemma cv_mod v u : v mod 2 ^ 128 = u mod 2 ^ 128 -> cv v = cv u.
Proof.
  intros H. unfold nonce_at. f_equal. rewrite <- (le_bytes_mod 16 v), <- (le_bytes_mod 16 u). f_equal. change (256 ^ Z.of_nat 16) with (2 ^ 128). exact H.
Qed.
Lemma cv_inc v : LeIncrement_len (cv v) 16 = Ok (cv (v + 1)).
Proof.
  rewrite LeIncrement_len_correct by (try apply cv_bytes; rewrite cv_len; lia). f_equal. unfold nonce_at.
  assert (L : length (le_bytes 16 v) = 16%nat) by apply length_le_bytes.
  unfold slice. cbn [skipn]. rewrite firstn_app, L, Nat.sub_diag, firstn_O, app_nil_r. rewrite firstn_all2 by lia. rewrite le_val_le_bytes.
  unfold splice. rewrite firstn_O, length_le_bytes. cbn [app Nat.add]. rewrite skipn_app, L, Nat.sub_diag. rewrite skipn_all2 by lia. cbn [app skipn]. f_equal.
  rewrite <- (le_bytes_mod 16 (_ + 1)), <- (le_bytes_mod 16 (v + 1)). f_equal. now rewrite Zplus_mod_idemp_l.
Qed.
Lemma crypt_concat' m l io v n : (io + n * (m * B) <= length l)%nat ->
  concat (map (fun i => stream_crypt B pad (v + Z.of_nat (m * i)) (slice l (io + i * (m * B)) (m * B))) (seq 0 n)) = stream_crypt B pad v (slice l io (n * (m * B))).
Proof.
  induction n as [|n IH]; intros H; [reflexivity|]. rewrite seq_S, map_app, concat_app, IH by lia. cbn [map concat Nat.add]. rewrite app_nil_r.
  replace (S n * (m * B))%nat with (n * (m * B) + m * B)%nat by lia. rewrite slice_app. rewrite (crypt_app B pad HB0 HE v (n * m)) by (rewrite length_slice; lia). do 3 f_equal. lia.
Qed.
Lemma gen_blocks out oo n : forall a done v, length done = (a * B)%nat -> (oo + (a + n) * B <= length out)%nat ->
  for_up a n (fun k st => let '(out, ctr) := st in out <- blk ctr out (oo + B * k) ;; ctr <- LeIncrement_len ctr 16 ;; Ok (out, ctr)) (splice out oo done, cv v) =
  Ok (splice out oo (done ++ ksb pad n v), cv (v + Z.of_nat n)).
Proof.
  induction n as [|n IH]; intros a done v Hd Ho; cbn [for_up].
  - cbn [ksb seq map concat Z.of_nat]. rewrite app_nil_r, Z.add_0_r. reflexivity.
  - rewrite HK by (rewrite length_splice; nia). cbn [bind]. rewrite cv_inc. cbn [bind].
    pose proof (splice_splice_next out oo done (pad v)) as SS. rewrite Hd in SS. rewrite (Nat.mul_comm B a). rewrite SS by (rewrite HE; nia).
    rewrite IH by (rewrite ?app_length, ?HE; nia). rewrite <- app_assoc. change (S n) with (1 + n)%nat. rewrite (ksb_app B pad HB0 HE), (ksb_1 B pad HB0 HE). do 3 f_equal. lia.
Qed.
Lemma W_Generate_ok out oo len v : (oo + len <= length out)%nat ->
  W_Generate B blk out oo len (cv v) = Ok (splice out oo (keystream B pad v len), cv (v + Z.of_nat (nblocks B len))).
Proof.
  intros Ho. unfold W_Generate.
  assert (Hdm : (len = (len / B) * B + len mod B)%nat) by (pose proof (Nat.div_mod len B); lia).
  assert (Hmu : (len mod B < B)%nat) by (apply Nat.mod_upper_bound; lia).
  assert (Hbf := nblocks_split B pad HB0 HE len). set (q := (len / B)%nat) in *. set (rm := (len mod B)%nat) in *. clearbody q rm.
  pose proof (gen_blocks out oo q 0 [] v eq_refl) as G. rewrite splice_nil in G. rewrite G by nia. cbn [bind app].
  assert (LQ := ksb_len B pad HE q v). rewrite Hbf. replace (keystream B pad v len) with (keystream B pad v (q * B + rm)) by (f_equal; lia). rewrite (keystream_app B pad HB0 HE), (keystream_ksb B pad HB0 HE).
  destruct (Nat.eqb_spec rm 0) as [Z0|Z0].
  - rewrite Z0. cbn [keystream seq map]. unfold keystream. cbn [seq map]. rewrite app_nil_r. now rewrite Nat.add_0_r.
  - rewrite HK by (rewrite length_zeros; lia). cbn [bind]. rewrite cv_inc. cbn [bind].
    assert (LE := HE (v + Z.of_nat q)). rewrite splice_all by (rewrite LE, length_zeros; reflexivity).
    rewrite wcopy_ok by (rewrite ?length_splice; lia). cbn [bind].
    pose proof (splice_splice_next out oo (ksb pad q v) (slice (pad (v + Z.of_nat q)) 0 rm)) as SS. rewrite LQ in SS.
    replace (len - rm)%nat with (q * B)%nat by lia. rewrite SS by (rewrite length_slice; lia).
    rewrite (keystream_block B pad HB0 HE) by lia. do 3 f_equal. lia.
Qed.
Lemma W_Sequential_ok l io out oo len v : (io + len <= length l)%nat -> (oo + len <= length out)%nat ->
  W_Sequential B blk (Some l) io out oo len (cv v) = Ok (splice out oo (stream_crypt B pad v (slice l io len)), cv (v + Z.of_nat (nblocks B len))).
Proof.
  intros Hi Ho. unfold W_Sequential. cbn [src].
  rewrite W_Generate_ok by lia. cbn [bind]. pose proof (keystream_len B pad v len) as LK. set (ks := keystream B pad v len) in *.
  assert (Hmu : (len mod B <= len)%nat) by (apply Nat.mod_le; lia). set (aln := (len - len mod B)%nat). assert (Ha : (aln <= len)%nat) by (unfold aln; lia). clearbody aln. clear Hmu.
  assert (X : (if (aln =? 0)%nat then Ok (splice out oo ks) else wxor l io (splice out oo ks) oo aln) = Ok (splice (splice out oo ks) oo (xorl (slice l io aln) (firstn aln ks)))).
  { destruct (Nat.eqb_spec aln 0) as [->|]; [unfold slice; rewrite firstn_O; cbn [xorl]; now rewrite splice_nil|].
    rewrite wxor_ok by (rewrite ?length_splice; lia). do 2 f_equal. rewrite xorl_comm. f_equal.
    rewrite <- (slice_splice_here out oo ks len) at 2 by lia. unfold slice. rewrite firstn_firstn. f_equal. lia. }
  rewrite X. cbn [bind]. rewrite (xor_tail' l io out oo ks aln (len - aln)).
  - cbn [bind]. do 3 f_equal. unfold stream_crypt. rewrite length_slice by lia. fold ks. rewrite <- (xorl_firstn_skipn (slice l io len) ks aln) by (rewrite length_slice; lia). f_equal; f_equal.
    + unfold slice. rewrite firstn_firstn. f_equal. lia.
    + unfold slice. rewrite skipn_firstn_comm, skipn_skipn. f_equal. f_equal. lia.
  - rewrite length_xorl, length_slice, firstn_length by lia. lia.
  - lia.
  - lia.
  - lia.
Qed.
(** one parallel chunk, for any starting values of the workers *)
Lemma wcopyB a b : length a = B -> length b = B -> wcopy a 0 b 0 B = Ok a.
Proof. intros H1 H2. rewrite wcopy_ok by lia. rewrite slice_all by lia. rewrite splice_all by lia. reflexivity. Qed.
Lemma W_Parallel_raw p ord l io out oo v (a : nat -> Z) : (0 < sp_deg p)%nat -> (sp_blk p = sp_deg p * ((sp_blk p / sp_deg p / B) * B))%nat ->
  (io + sp_blk p <= length l)%nat -> (oo + sp_blk p <= length out)%nat -> Z.of_nat (length out) < 2 ^ 64 -> Permutation ord (seq 0 (sp_deg p)) ->
  (forall i, (i < sp_deg p)%nat -> LeIncrease8 4 (cv v) (zeros B) (u32 (Z.of_nat (sp_blk p / sp_deg p / B * i))) = Ok (cv (a i))) ->
  let cnk := (sp_blk p / sp_deg p)%nat in
  W_Parallel B blk p ord (Some l) io out oo (sp_blk p) (cv v) =
  Ok (splice out oo (concat (map (fun i => stream_crypt B pad (a i) (slice l (io + i * cnk) cnk)) (seq 0 (sp_deg p)))), cv (a (sp_deg p - 1)%nat + Z.of_nat (cnk / B))).
Proof.
  intros Hd HM Hi Ho HL HO HA cnk. unfold W_Parallel. cbn [src]. fold cnk in HA, HM |- *.
  rewrite Z.mod_small by lia. replace (Z.of_nat (length out) - Z.of_nat oo <? Z.of_nat (sp_blk p)) with false by (symmetry; apply Z.ltb_ge; lia).
  replace (sp_deg p =? 0)%nat with false by (symmetry; apply Nat.eqb_neq; lia). cbn [negb safe bind].
  set (dg := sp_deg p) in *. set (m := (cnk / B)%nat) in *.
  assert (HC : (cnk = m * B)%nat).
  { unfold cnk. rewrite HM at 1. rewrite Nat.mul_comm. apply Nat.div_mul. lia. }
  clearbody m. clearbody cnk. rewrite <- HC in HM.
  assert (B0 : forall i, (i < dg)%nat -> (i * cnk + cnk <= sp_blk p)%nat) by (intros i H; clear - H HM; nia).
  assert (NB : nblocks B cnk = m) by (rewrite HC; apply (nblocks_exact B pad HB0 HE)).
  rewrite (workers_ok cnk dg oo out (fun i => stream_crypt B pad (a i) (slice l (io + i * cnk) cnk))
    (fun i t => if (i =? dg - 1)%nat then cv (a (dg - 1)%nat + Z.of_nat m) else t) (fun t => length t = B)); [| | |  | |apply length_zeros|exact HO].
  3:{ lia. }
  2:{ intros i H. rewrite (crypt_len B pad HB0 HE). specialize (B0 i H). apply length_slice. lia. }
  2:{ intros i t H Ht. destruct (i =? dg - 1)%nat; [apply cv_len|exact Ht]. }
  2:{ intros i out' t H L Ht _. rewrite (HA i H). cbn [bind]. specialize (B0 i H).
      rewrite W_Generate_ok by lia. cbn [bind]. pose proof (keystream_len B pad (a i) cnk) as LK.
      rewrite wxor_ok by (rewrite ?length_splice; lia). cbn [bind]. rewrite slice_splice_here by lia.
      assert (LS : length (slice l (io + i * cnk) cnk) = cnk) by (apply length_slice; lia).
      rewrite splice_over by (rewrite ?length_xorl; lia). unfold stream_crypt. rewrite LS, xorl_comm, NB.
      destruct (Nat.eqb_spec i (dg - 1)) as [->|]; [|reflexivity]. rewrite wcopyB by (auto; apply cv_len). reflexivity. }
  cbn [bind]. rewrite fold_last by (apply (Permutation_in _ (Permutation_sym HO)); apply in_seq; lia).
  rewrite wcopyB by apply cv_len. cbn [bind].
  replace (cnk * dg <? sp_blk p)%nat with false by (symmetry; apply Nat.ltb_ge; lia). reflexivity.
Qed.
(** the counter of a worker *)
Lemma no_ff_lost n x d : 0 <= d < 2 ^ 32 -> no_ff d -> ~ lost_carry n x d.
Proof.
  intros Hd NF (j & _ & H1 & H2). destruct (Nat.lt_ge_cases j 4) as [L|L]; [exact (NF j L H1)|].
  assert (256 ^ 4 <= 256 ^ Z.of_nat j) by (apply Z.pow_le_mono_r; lia). change (256 ^ 4) with (2 ^ 32) in H. rewrite Z.div_small in H1 by lia. discriminate.
Qed.
Lemma le_val_cv v : 0 <= v < 2 ^ 128 -> le_val (cv v) = v + 2 ^ 128 * le_val rest.
Proof.
  intros H. unfold nonce_at. rewrite le_val_app, length_le_bytes, le_val_le_bytes. change (256 ^ Z.of_nat 16) with (2 ^ 128). rewrite Z.mod_small by lia. reflexivity.
Qed.
Lemma worker_ctr v d : 0 <= v -> 0 <= d < 2 ^ 32 -> v + d < 2 ^ 128 -> no_ff d -> LeIncrease8 4 (cv v) (zeros B) (u32 d) = Ok (cv (v + d)).
Proof.
  intros Hv Hd Hs NF. unfold u32. rewrite Z.mod_small by lia.
  destruct (LeIncrease8_spec 4 (cv v) (zeros B) d) as (r & -> & Br & Lr & HI).
  - apply cv_bytes.
  - intros X. apply (f_equal (@length Z)) in X. rewrite cv_len in X. cbn in X. lia.
  - now rewrite cv_len, length_zeros.
  - change (256 ^ Z.of_nat 4) with (2 ^ 32) in HI. rewrite (Z.mod_small d) in HI by lia. destruct HI as [_ HI]. specialize (HI (no_ff_lost _ _ _ Hd NF)).
    f_equal. rewrite cv_len in *. rewrite <- (le_bytes_le_val r), <- (le_bytes_le_val (cv (v + d))) by (auto using cv_bytes). rewrite Lr, cv_len. f_equal. rewrite HI.
    rewrite !le_val_cv by lia. rewrite Z.mod_small; [lia|]. pose proof (le_val_range rest BR) as RR. rewrite HR in RR.
    replace (256 ^ Z.of_nat B) with (2 ^ 128 * 256 ^ Z.of_nat (B - 16)); [clear - RR Hv Hd Hs; nia|]. change (2 ^ 128) with (256 ^ 16). rewrite <- Z.pow_add_r by lia. f_equal. lia.
Qed.
Lemma W_Parallel_ok p ord l io out oo v : (0 < sp_deg p)%nat -> (sp_blk p = sp_deg p * ((sp_blk p / sp_deg p / B) * B))%nat -> Z.of_nat (sp_blk p) < 2 ^ 32 -> (0 < sp_blk p)%nat ->
  (forall i, (i < sp_deg p)%nat -> no_ff (Z.of_nat (sp_blk p / sp_deg p / B * i))) ->
  (io + sp_blk p <= length l)%nat -> (oo + sp_blk p <= length out)%nat -> Z.of_nat (length out) < 2 ^ 64 -> Permutation ord (seq 0 (sp_deg p)) ->
  0 <= v -> v + Z.of_nat (nblocks B (sp_blk p)) <= 2 ^ 128 ->
  W_Parallel B blk p ord (Some l) io out oo (sp_blk p) (cv v) = Ok (splice out oo (stream_crypt B pad v (slice l io (sp_blk p))), cv (v + Z.of_nat (nblocks B (sp_blk p)))).
Proof.
  intros Hd HM Hq H0 NF Hi Ho HL HO Hv Hs. set (m := (sp_blk p / sp_deg p / B)%nat) in *.
  assert (HC : (sp_blk p / sp_deg p = m * B)%nat) by (rewrite HM at 1; rewrite Nat.mul_comm; apply Nat.div_mul; lia).
  assert (NB : nblocks B (sp_blk p) = (sp_deg p * m)%nat) by (rewrite HM, Nat.mul_assoc; apply (nblocks_exact B pad HB0 HE)). rewrite NB in *.
  assert (M0 : m <> 0%nat) by (intros M0; rewrite M0 in HM; lia).
  pose proof (W_Parallel_raw p ord l io out oo v (fun i => v + Z.of_nat (m * i)) Hd HM Hi Ho HL HO) as W. cbv zeta in W. rewrite W.
  - rewrite HC. f_equal. f_equal.
    + rewrite (crypt_concat' m l io v (sp_deg p)) by lia. do 2 f_equal. f_equal. lia.
    + f_equal. rewrite Nat.div_mul by lia. clear - Hd. nia.
  - intros i H. fold m. apply worker_ctr; [exact Hv| | |now apply NF].
    + assert (m * i <= sp_deg p * (m * B))%nat by (clear - H HB; assert (m * i <= m * sp_deg p)%nat by nia; nia). rewrite <- HM in H1. clear - H1 Hq. lia.
    + assert (m * i < sp_deg p * m)%nat by (clear - H M0; nia). lia.
Qed.
(** Process *)
Lemma chunk_shape p : wide_profile B p -> sp_par p = true -> (sp_blk p = sp_deg p * ((sp_blk p / sp_deg p / B) * B))%nat.
Proof.
  intros WP E1. destruct (WP E1) as (D0 & M0 & MM & ML & MA & MB & NF). apply Nat.mod_divides in MM; [|nia]. destruct MM as (c & MM). apply Nat.mod_divides in MB; [|lia]. destruct MB as (d & MB).
  assert (X : sp_blk p = (sp_deg p * (c * d * B))%nat) by (rewrite MB, MM; clear; nia). assert (Y : (sp_blk p / sp_deg p = c * d * B)%nat) by (rewrite X, (Nat.mul_comm (sp_deg p)); apply Nat.div_mul; lia). rewrite Y, Nat.div_mul by lia. exact X.
Qed.
Lemma chunks_loop (F : nat -> list Z -> list Z -> res (list Z * list Z)) P q n l io out oo v : P = (q * B)%nat -> (io + n * P <= length l)%nat -> (oo + n * P <= length out)%nat ->
  (forall k out' u, (k < n)%nat -> length out' = length out -> u = v + Z.of_nat (k * q) -> F k out' (cv u) = Ok (splice out' (oo + k * P) (stream_crypt B pad u (slice l (io + k * P) P)), cv (u + Z.of_nat q))) ->
  forall j, (j <= n)%nat -> for_up 0 j (fun k st => let '(out, ctr) := st in F k out ctr) (out, cv v) = Ok (splice out oo (stream_crypt B pad v (slice l io (j * P))), cv (v + Z.of_nat (j * q))).
Proof.
  intros HP Hi Ho HF. induction j as [|j IH]; intros Hj.
  - cbn [for_up Nat.mul]. unfold slice. rewrite firstn_O. unfold stream_crypt. cbn [xorl length]. rewrite splice_nil. cbn [Z.of_nat]. now rewrite Z.add_0_r.
  - assert (J1 : (j * P + P <= n * P)%nat) by (clear - Hj; nia).
    replace (S j) with (j + 1)%nat by lia. rewrite for_up_split, IH by lia. cbn [bind Nat.add]. cbn [for_up].
    assert (LC : length (stream_crypt B pad v (slice l io (j * P))) = (j * P)%nat) by (rewrite (crypt_len B pad HB0 HE), length_slice; lia).
    rewrite (HF j _ (v + Z.of_nat (j * q))); [|lia|rewrite length_splice; lia|reflexivity].
    cbn [bind]. rewrite splice_splice_next_at by (rewrite ?(crypt_len B pad HB0 HE), ?length_slice; lia).
    f_equal. f_equal; [|f_equal; lia]. f_equal. replace ((j + 1) * P)%nat with (j * P + P)%nat by lia. rewrite slice_app.
    rewrite (crypt_app B pad HB0 HE v (j * q)) by (rewrite length_slice; [rewrite HP; lia|lia]). reflexivity.
Qed.
Lemma W_Process_ok p ord l io out oo len v : wide_profile B p -> orders_ok p len ord -> (io + len <= length l)%nat -> (oo + len <= length out)%nat -> Z.of_nat (length out) < 2 ^ 64 ->
  0 <= v -> (sp_par p = true -> v + Z.of_nat (nblocks B len) <= 2 ^ 128) ->
  W_Process B blk p ord (Some l) io out oo len (cv v) = Ok (splice out oo (stream_crypt B pad v (slice l io len)), cv (v + Z.of_nat (nblocks B len))).
Proof.
  intros WP OO Hi Ho HL Hv Hs. unfold W_Process. destruct (sp_par p) eqn:EP; cbn [andb]; [|now apply W_Sequential_ok].
  destruct (Nat.leb_spec (sp_blk p) len) as [LE|GT]; [|now apply W_Sequential_ok].
  pose proof (chunk_shape p WP EP) as HM. destruct (WP EP) as (D0 & M0 & _ & ML & MA & _ & NF). specialize (OO EP). specialize (Hs eq_refl).
  set (P := sp_blk p) in *. assert (P0 : (0 < P)%nat) by (clear - M0 ML; lia). replace (P =? 0)%nat with false by (symmetry; apply Nat.eqb_neq; clear - P0; lia). cbn [negb safe bind]. cbv zeta.
  set (q := (sp_deg p * (P / sp_deg p / B))%nat). assert (HP : P = (q * B)%nat) by (rewrite HM; unfold q; apply Nat.mul_assoc).
  assert (Hd : (len = P * (len / P) + len mod P)%nat) by (apply Nat.div_mod; clear - P0; lia). set (n := (len / P)%nat) in *. set (rm := (len mod P)%nat) in *. clearbody n rm.
  assert (NBP : nblocks B P = q) by (rewrite HP; apply (nblocks_exact B pad HB0 HE)).
  assert (PB : Z.of_nat P < 2 ^ 32) by (unfold max_alloc in MA; clear - MA; lia).
  assert (EL : len = ((n * q) * B + rm)%nat) by (rewrite Hd at 1; rewrite HP; clear; lia).
  assert (NBL : nblocks B len = (n * q + nblocks B rm)%nat) by (rewrite EL; apply (nblocks_mul B pad HB0 HE)).
  assert (NP : (n * P + rm = len)%nat) by (clear - Hd; lia).
  rewrite (chunks_loop (fun k out ctr => W_Parallel B blk p (slice ord (k * sp_deg p) (sp_deg p)) (Some l) (io + k * P) out (oo + k * P) P ctr) P q n l io out oo v HP); [|clear - NP Hi; lia|clear - NP Ho; lia| |apply le_n].
  2:{ intros k out' u Hk HL' ->. assert (KP : (k * P + P <= n * P)%nat) by (clear - Hk; nia). rewrite <- NBP. unfold P at 3 6 8.
      apply W_Parallel_ok; fold P.
      - exact D0.
      - exact HM.
      - exact PB.
      - exact P0.
      - exact NF.
      - clear - KP NP Hi. lia.
      - rewrite HL'. clear - KP NP Ho. lia.
      - rewrite HL'. exact HL.
      - apply OO. exact Hk.
      - clear - Hv. lia.
      - rewrite NBP. rewrite NBL in Hs. clear - Hs Hk. nia. }
  cbn [bind]. replace (len - P * n)%nat with rm by (clear - NP; lia).
  assert (LC : length (stream_crypt B pad v (slice l io (n * P))) = (n * P)%nat) by (rewrite (crypt_len B pad HB0 HE), length_slice; [reflexivity|clear - NP Hi; lia]).
  destruct (Nat.eqb_spec rm 0) as [Z0|Z0].
  - replace (n * P)%nat with len by (clear - NP Z0; lia). rewrite NBL, Z0. rewrite (nblocks_split B pad HB0 HE 0), Nat.div_0_l, Nat.mod_0_l by (clear - HB; lia). cbn [Nat.eqb Nat.add]. rewrite Nat.add_0_r. reflexivity.
  - rewrite (Nat.mul_comm P n). rewrite W_Sequential_ok by (rewrite ?length_splice; clear - NP Hi Ho LC; lia).
    rewrite splice_splice_next_at by (rewrite ?(crypt_len B pad HB0 HE), ?length_slice; clear - NP Hi Ho LC; lia). rewrite NBL. f_equal. f_equal; [|f_equal; clear; lia].
    f_equal. rewrite <- NP. rewrite slice_app. rewrite (crypt_app B pad HB0 HE v (n * q)) by (rewrite length_slice; [rewrite HP; clear; lia|clear - NP Hi; lia]). reflexivity.
Qed.
End W.
