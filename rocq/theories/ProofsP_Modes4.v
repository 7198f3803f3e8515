(** C20: counter modes and CFB on one array used as both input and output *)
From Coq Require Import Permutation.
From Verif Require Import BaseLemmas Spec_Common Spec_Modes Proofs_Common Model_IntegerTools Proofs_IntegerTools Proofs_IntegerTools2 Model_Modes Proofs_Windows Proofs_Modes Proofs_Modes2 Proofs_Modes3 Proofs_Modes4 Proofs_Modes5 ProofsP_Modes ProofsP_Modes2.
Open Scope Z_scope.

Lemma zeros_len n : length (zeros n) = n.
Proof. apply repeat_length. Qed.
Lemma zeros_app a b : zeros a ++ zeros b = zeros (a + b).
Proof. unfold zeros. symmetry. apply repeat_app. Qed.
Lemma concat_zeros n k a : concat (map (fun _ : nat => zeros n) (seq a k)) = zeros (k * n).
Proof. revert a; induction k as [|k IH]; intros a; [reflexivity|]. cbn [seq map concat]. rewrite IH. apply zeros_app. Qed.
Lemma self_xor (out : list Z) o n : (o + n <= length out)%nat -> wxor out o out o n = Ok (splice out o (zeros n)).
Proof.
  intros H. rewrite wxor_ok by auto. do 2 f_equal.
  pose proof (xorl_self (slice out o n)) as X. rewrite length_slice in X by lia. exact X.
Qed.

Lemma pos_fun enc incr (incr_tot : forall v d, exists w, incr (enc v) (zeros 16) d = Ok (enc w) :> res (list Z)) v m dg : exists pos : nat -> Z, forall i, (i < dg)%nat -> incr (enc v) (zeros 16) (Z.of_nat (m * i)) = Ok (enc (pos i)).
  Proof.
    induction dg as [|dg [pos IH]]; [exists (fun _ => 0); lia|].
    destruct (incr_tot v (Z.of_nat (m * dg))) as [w Hw].
    exists (fun i => if (i =? dg)%nat then w else pos i). intros i Hi. destruct (Nat.eqb_spec i dg) as [->|]; [exact Hw|apply IH; lia].
  Qed.

Section InPlace.
  Context (E : list Z -> list Z) (inc : list Z -> res (list Z)) (enc : Z -> list Z).
  Hypothesis HE : block_fun E.
  Hypothesis enc_len : forall v, length (enc v) = 16%nat.
  Hypothesis inc_enc : forall v, inc (enc v) = Ok (enc (v + 1)).
  Variable incr : list Z -> list Z -> Z -> res (list Z).
  Hypothesis incr_tot : forall v d, exists w, incr (enc v) (zeros 16) d = Ok (enc w).

  Lemma CM_workers_none s p m ord out oo v :
    (0 < deg p)%nat -> (0 < m)%nat -> pblk p = (deg p * (16 * m))%nat -> schedule (deg p) ord -> (oo + pblk p <= length out)%nat ->
    exists w, CM_workers E inc incr s p ord None oo out oo (enc v) = Ok (splice out oo (zeros (pblk p)), enc w).
  Proof.
    intros Hd Hm Hp HO Ho. destruct (pos_fun enc incr incr_tot v m (deg p)) as [pos HP]. exists (pos (deg p - 1)%nat + Z.of_nat m).
    unfold CM_workers. rewrite (good_deg p m Hp Hd).
    replace (16 * m / 16)%nat with m by (rewrite Nat.mul_comm, Nat.div_mul; lia).
    assert (BF : blocks_for (16 * m) = m).
    { replace (16 * m)%nat with (m * 16 + 0)%nat by lia. rewrite blocks_for_mul. change (blocks_for 0) with 0%nat. lia. }
    set (seg := (16 * m)%nat) in *. rewrite Hp in *.
    assert (B2 : forall i, (i < deg p)%nat -> (oo + i * seg + seg <= length out)%nat) by (intros; nia).
    rewrite (workers_ok seg (deg p) oo out (fun _ => zeros seg)
      (fun i t => if (i =? deg p - 1)%nat then enc (pos (deg p - 1)%nat + Z.of_nat m) else t) (fun t => length t = 16%nat)); auto.
    - cbn [bind]. rewrite fold_last.
      2:{ apply (Permutation_in _ (Permutation_sym HO)). apply in_seq. lia. }
      rewrite wcopy16 by apply enc_len. rewrite concat_zeros. reflexivity.
    - intros. apply zeros_len.
    - intros i t H Ht. destruct (i =? deg p - 1)%nat; auto.
    - intros i out' t H L Ht _. rewrite (HP i H). cbn [bind].
      rewrite (CM_Generate_ok E inc enc HE enc_len inc_enc) by (rewrite L; auto). cbn [bind src].
      assert (LK := kst_len E enc HE enc_len seg (pos i)). specialize (B2 i H).
      rewrite self_xor by (rewrite length_splice; lia). cbn [bind].
      rewrite splice_over by (rewrite ?zeros_len; lia). rewrite BF.
      destruct (Nat.eqb_spec i (deg p - 1)) as [->|]; [|reflexivity].
      rewrite wcopy16 by auto. reflexivity.
  Qed.
  Lemma CM_Transform_none parp s p ord out oo len v : (oo + len <= length out)%nat ->
    (par p = true -> (pblk p <= len)%nat -> good_profile (deg p) (pblk p) /\ forall i, schedule (deg p) (ord i)) ->
    (forall ord m out oo v, (0 < deg p)%nat -> (0 < m)%nat -> pblk p = (deg p * (16 * m))%nat -> schedule (deg p) ord -> (oo + pblk p <= length out)%nat ->
      exists w, parp ord None oo out oo (pblk p) (enc v) = Ok (splice out oo (zeros (pblk p)), enc w)) ->
    exists st, CM_Transform (CM_ProcessSequential E inc s) parp p ord None oo out oo len (enc v) = Ok (splice out oo (zeros len), st).
  Proof.
    intros Ho HP HW. unfold CM_Transform.
    destruct (par p && (pblk p <=? len)%nat) eqn:C.
    2:{ eexists. apply (CM_seq_gen E inc enc HE enc_len inc_enc); auto. }
    apply andb_true_iff in C. destruct C as [C1 C2]. apply Nat.leb_le in C2. destruct (HP C1 C2) as ((m & Hm & Hd & Hp) & HO).
    assert (0 < pblk p)%nat by nia.
    unfold safe. destruct (Nat.eqb_spec (pblk p) 0) as [Q|Q]; [lia|]. cbn [negb bind].
    set (cnt := (len / pblk p)%nat) in *.
    assert (Hc : (cnt * pblk p <= len)%nat) by (rewrite Nat.mul_comm; unfold cnt; apply Nat.mul_div_le; lia).
    clearbody cnt.
    set (step := fun i st => let '(out, ctr) := st in parp (ord i) None (oo + i * pblk p)%nat out (oo + i * pblk p)%nat (pblk p) ctr).
    assert (L : forall n a v, (a + n <= cnt)%nat -> exists w,
      for_up a n step (splice out oo (zeros (a * pblk p)), enc v) = Ok (splice out oo (zeros ((a + n) * pblk p)), enc w)).
    { induction n as [|n IH]; intros a v' Ha; cbn [for_up].
      - exists v'. now rewrite Nat.add_0_r.
      - assert (HB : (a * pblk p + pblk p <= len)%nat).
        { replace (a * pblk p + pblk p)%nat with ((a + 1) * pblk p)%nat by lia.
          apply Nat.le_trans with (cnt * pblk p)%nat; [|exact Hc]. apply Nat.mul_le_mono_r. lia. }
        assert (LZ := zeros_len (a * pblk p)).
        destruct (HW (ord a) m (splice out oo (zeros (a * pblk p))) (oo + a * pblk p)%nat v') as [w Hw]; auto; [rewrite length_splice; lia|].
        unfold step at 1. rewrite Hw. cbn [bind].
        pose proof (splice_splice_next out oo (zeros (a * pblk p)) (zeros (pblk p))) as SS. rewrite zeros_len in SS.
        rewrite SS by (rewrite zeros_len; lia). rewrite zeros_app.
        replace (a * pblk p + pblk p)%nat with (S a * pblk p)%nat by lia.
        destruct (IH (S a) w ltac:(lia)) as [w2 H2]. exists w2. rewrite H2. do 4 f_equal. lia. }
    destruct (L cnt 0%nat v ltac:(lia)) as [w Hw]. rewrite Nat.mul_0_l in Hw. cbn [zeros repeat Nat.add] in Hw.
    change (zeros 0) with (@nil Z) in Hw. rewrite splice_nil in Hw.
    change (for_up 0 cnt _ _) with (for_up 0 cnt step (out, enc v)). rewrite Hw. cbn [bind].
    rewrite (Nat.mul_comm (pblk p) cnt). set (K := (cnt * pblk p)%nat) in *. clearbody K.
    destruct (Nat.eqb_spec (len - K) 0) as [Z0|Z0].
    - eexists. replace K with len by lia. reflexivity.
    - assert (LZ := zeros_len K). assert (LZ2 := zeros_len (len - K)). eexists.
      rewrite (CM_seq_gen E inc enc HE enc_len inc_enc); auto; cbn [src]; try (rewrite length_splice; lia).
      pose proof (splice_splice_next out oo (zeros K) (zeros (len - K))) as SS. rewrite LZ in SS. rewrite SS by lia.
      rewrite zeros_app. replace (K + (len - K))%nat with len by lia. reflexivity.
  Qed.
End InPlace.

Lemma be_incr_tot v d : exists w, BeIncrease8 4 (be_bytes 16 v) (zeros 16) d = Ok (be_bytes 16 w).
Proof.
  destruct (BeIncrease8_spec 4 (be_bytes 16 v) (zeros 16) d) as (r & E & B & L & _).
  - apply bytes_be_bytes.
  - intros H. apply (f_equal (@length Z)) in H. rewrite length_be_bytes in H. discriminate.
  - now rewrite length_be_bytes.
  - exists (be_val r). rewrite E. f_equal. rewrite length_be_bytes in L. rewrite <- L. symmetry. now apply be_bytes_be_val.
Qed.
Lemma le_incr_tot v d : exists w, LeIncrease8 8 (le_bytes 16 v) (zeros 16) d = Ok (le_bytes 16 w).
Proof.
  destruct (LeIncrease8_spec 8 (le_bytes 16 v) (zeros 16) d) as (r & E & B & L & _).
  - apply bytes_le_bytes.
  - intros H. apply (f_equal (@length Z)) in H. rewrite length_le_bytes in H. discriminate.
  - now rewrite length_le_bytes.
  - exists (le_val r). rewrite E. f_equal. rewrite length_le_bytes in L. rewrite <- L. symmetry. now apply le_bytes_le_val.
Qed.
Lemma c20_ctr E s p ord out oo len ctr : block_fun E -> bytes ctr -> length ctr = 16%nat -> (oo + len <= length out)%nat ->
  (par p = true -> (pblk p <= len)%nat -> good_profile (deg p) (pblk p) /\ forall i, schedule (deg p) (ord i)) ->
  exists out' st, CTR_Transform E s p ord None oo out oo len ctr = Ok (out', st) /\ written out out' oo (zeros len).
Proof.
  intros HE Hb Hl Ho HP. rewrite (as_be ctr) by auto.
  destruct (CM_Transform_none E BeIncrement8 (be_bytes 16) HE (length_be_bytes 16) be_enc_inc (BeIncrease8 4) be_incr_tot (CTR_ProcessParallel E s p) s p ord out oo len (value_be ctr)) as [st H]; auto.
  - intros od m o q v Hd Hm Hp HO Hq. unfold CTR_ProcessParallel, safe.
    destruct (Nat.eqb_spec (deg p) 0); [lia|]. cbn [negb bind]. rewrite (proc_tail_none p m) by auto.
    destruct (CM_workers_none E BeIncrement8 (be_bytes 16) HE (length_be_bytes 16) be_enc_inc (BeIncrease8 4) be_incr_tot s p m od o q v) as [w Hw]; auto.
    exists w. rewrite Hw. reflexivity.
  - eexists; eexists. split; [exact H|]. apply splice_written. rewrite zeros_len. lia.
Qed.
Lemma c20_icm E s p ord out oo len ctr : block_fun E -> bytes ctr -> length ctr = 16%nat -> (oo + len <= length out)%nat ->
  (par p = true -> (pblk p <= len)%nat -> good_profile (deg p) (pblk p) /\ forall i, schedule (deg p) (ord i)) ->
  exists out' st, ICM_Transform E s p ord None oo out oo len ctr = Ok (out', st) /\ written out out' oo (zeros len).
Proof.
  intros HE Hb Hl Ho HP. rewrite (as_le ctr) by auto.
  destruct (CM_Transform_none E LeIncrement (le_bytes 16) HE (length_le_bytes 16) le_enc_inc (LeIncrease8 8) le_incr_tot (ICM_ProcessParallel E s p) s p ord out oo len (value_le ctr)) as [st H]; auto.
  - intros od m o q v Hd Hm Hp HO Hq. unfold ICM_ProcessParallel, safe.
    destruct (Nat.eqb_spec (deg p) 0); [lia|]. cbn [negb bind]. rewrite (proc_tail_none p m) by auto.
    destruct (CM_workers_none E LeIncrement (le_bytes 16) HE (length_le_bytes 16) le_enc_inc (LeIncrease8 8) le_incr_tot s p m od o q v) as [w Hw]; auto.
    exists w. rewrite Hw. reflexivity.
  - eexists; eexists. split; [exact H|]. apply splice_written. rewrite zeros_len. lia.
Qed.

(** CFB in place *)
Lemma cfb_loop_none r (step : nat -> list Z * list Z -> res (list Z * list Z)) out oo :
  (forall k out' iv, (oo + k * r + r <= length out')%nat -> iv16 iv ->
     exists iv', step k (out', iv) = Ok (splice out' (oo + k * r) (zeros r), iv') /\ iv16 iv') ->
  forall n a iv, iv16 iv -> (oo + (a + n) * r <= length out)%nat ->
  exists iv', for_up a n step (splice out oo (zeros (a * r)), iv) = Ok (splice out oo (zeros ((a + n) * r)), iv').
Proof.
  intros HS. induction n as [|n IH]; intros a iv Hiv Ho; cbn [for_up].
  - exists iv. now rewrite Nat.add_0_r.
  - assert (HB : (a * r + r <= (a + S n) * r)%nat) by nia. assert (LZ := zeros_len (a * r)).
    destruct (HS a (splice out oo (zeros (a * r))) iv) as (iv' & H1 & H2); auto; [rewrite length_splice; lia|].
    rewrite H1. cbn [bind].
    pose proof (splice_splice_next out oo (zeros (a * r)) (zeros r)) as SS. rewrite zeros_len in SS.
    rewrite SS by (rewrite zeros_len; lia). rewrite zeros_app. replace (a * r + r)%nat with (S a * r)%nat by lia.
    destruct (IH (S a) iv' H2) as [w Hw]; [replace (S a + n)%nat with (a + S n)%nat by lia; exact Ho|].
    exists w. rewrite Hw. replace (S a + n)%nat with (a + S n)%nat by lia. reflexivity.
Qed.
Lemma c20_cfb_encrypt E r out oo n iv : block_fun E -> (1 <= r <= 16)%nat -> length iv = 16%nat -> (oo + n * r <= length out)%nat ->
  exists out' st, CFB_encrypt E r None oo out oo (n * r) iv = Ok (out', st) /\ written out out' oo (zeros (n * r)).
Proof.
  intros HE Hr Hiv Ho. unfold CFB_encrypt, safe. destruct (Nat.eqb_spec r 0); [lia|]. cbn [negb bind]. rewrite Nat.div_mul by lia.
  destruct (cfb_loop_none r (fun i st => let '(out, iv) := st in CFB_Encrypt128 E r None (i * r + oo) out (i * r + oo) iv) out oo) with (n := n) (a := 0%nat) (iv := iv) as [iv' H]; auto.
  - intros k out' iv' Hk Hi'. rewrite (Nat.add_comm (k * r)). unfold CFB_Encrypt128.
    assert (Hi16 : length iv' = 16%nat) by exact Hi'. assert (LE := HE iv' Hi16).
    rewrite blk_ok by (rewrite ?slice_all, ?zeros_len; auto; lia). cbn [bind]. rewrite slice_all by auto. rewrite splice_all by (rewrite zeros_len; exact LE).
    assert (LS : length (slice (E iv') 0 r) = r) by (rewrite length_slice; lia).
    rewrite wcopy_ok by lia. cbn [bind src].
    rewrite self_xor by (rewrite length_splice; lia). cbn [bind].
    rewrite splice_over by (rewrite ?zeros_len; lia).
    assert (L2 : length (splice out' (oo + k * r) (zeros r)) = length out') by (apply length_splice; rewrite zeros_len; lia).
    rewrite CFB_shift_ok by (auto; lia). cbn [bind]. eexists. split; [reflexivity|].
    red in Hi'. red. rewrite app_length, skipn_length, length_slice; lia.
  - change (zeros (0 * r)) with (@nil Z) in H. rewrite splice_nil in H. rewrite H. eexists; eexists. split; [reflexivity|].
    apply splice_written. rewrite zeros_len. cbn [Nat.add]. lia.
Qed.
Lemma c20_cfb_decrypt E r p ord out oo n iv : block_fun E -> (1 <= r <= 16)%nat -> length iv = 16%nat -> (oo + n * r <= length out)%nat ->
  (par p = true -> (n * r < pblk p)%nat) ->
  exists out' st, CFB_decrypt E r p ord None oo out oo (n * r) iv = Ok (out', st) /\ written out out' oo (zeros (n * r)).
Proof.
  intros HE Hr Hiv Ho HP. unfold CFB_decrypt, safe. destruct (Nat.eqb_spec r 0); [lia|]. cbn [negb bind]. rewrite Nat.div_mul by lia.
  assert (C : (par p && (pblk p <=? n * r) && (r =? 16))%nat = false).
  { destruct (par p); [|reflexivity]. specialize (HP eq_refl). destruct (Nat.leb_spec (pblk p) (n * r)); [lia|reflexivity]. }
  rewrite C.
  destruct (cfb_loop_none r (fun i st => let '(out, iv) := st in CFB_Decrypt128 E r None (i * r + oo) out (i * r + oo) iv) out oo) with (n := n) (a := 0%nat) (iv := iv) as [iv' H]; auto.
  - intros k out' iv' Hk Hi'. rewrite (Nat.add_comm (k * r)). unfold CFB_Decrypt128.
    assert (Hi16 : length iv' = 16%nat) by exact Hi'. assert (LE := HE iv' Hi16).
    rewrite blk_ok by (rewrite ?slice_all, ?zeros_len; auto; lia). cbn [bind]. rewrite slice_all by auto. rewrite splice_all by (rewrite zeros_len; exact LE).
    assert (LS : length (slice (E iv') 0 r) = r) by (rewrite length_slice; lia).
    rewrite wcopy_ok by lia. cbn [bind src].
    assert (L2 : length (splice out' (oo + k * r) (slice (E iv') 0 r)) = length out') by (apply length_splice; lia).
    rewrite CFB_shift_ok by (auto; lia). cbn [bind].
    rewrite self_xor by (rewrite length_splice; lia). cbn [bind].
    rewrite splice_over by (rewrite ?zeros_len; lia).
    eexists. split; [reflexivity|].
    red in Hi'. red. rewrite app_length, skipn_length, length_slice; lia.
  - change (zeros (0 * r)) with (@nil Z) in H. rewrite splice_nil in H. rewrite H. eexists; eexists. split; [reflexivity|].
    apply splice_written. rewrite zeros_len. cbn [Nat.add]. lia.
Qed.
