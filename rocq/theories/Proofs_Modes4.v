(** CTR and ICM *)
From Coq Require Import Permutation.
From Verif Require Import BaseLemmas Spec_Common Spec_Modes Proofs_Common Model_IntegerTools Proofs_IntegerTools Proofs_IntegerTools2 Model_Modes Proofs_Windows Proofs_Modes.
Open Scope Z_scope.

(** keystream of [n] blocks from counter value [v] *)
Definition ksb (E : list Z -> list Z) (enc : Z -> list Z) (n : nat) (v : Z) : list Z :=
  concat (map (fun i => E (enc (v + Z.of_nat i))) (seq 0 n)).

Lemma blocks_for_split len : blocks_for len = (len / 16 + (if len mod 16 =? 0 then 0 else 1))%nat.
Proof.
  unfold blocks_for. rewrite (Nat.div_mod len 16) at 1 by lia. pose proof (Nat.mod_upper_bound len 16).
  destruct (Nat.eqb_spec (len mod 16) 0) as [->|].
  - rewrite Nat.add_0_r. rewrite (Nat.mul_comm 16), Nat.div_add_l by lia. reflexivity.
  - replace (16 * (len / 16) + len mod 16 + 15)%nat with ((len / 16) * 16 + (len mod 16 + 15))%nat by lia.
    rewrite Nat.div_add_l by lia. f_equal.
    symmetry. apply (Nat.div_unique _ _ _ (len mod 16 - 1)); lia.
Qed.
Lemma blocks_for_ge len : (len <= blocks_for len * 16)%nat.
Proof.
  rewrite blocks_for_split. pose proof (Nat.div_mod len 16). pose proof (Nat.mod_upper_bound len 16).
  destruct (Nat.eqb_spec (len mod 16) 0); lia.
Qed.

Lemma blocks_for_mul n b : blocks_for (n * 16 + b) = (n + blocks_for b)%nat.
Proof. unfold blocks_for. rewrite <- Nat.add_assoc, Nat.div_add_l by lia. reflexivity. Qed.


Section KS.
  Context (E : list Z -> list Z) (enc : Z -> list Z).
  Hypothesis HE : block_fun E.
  Hypothesis enc_len : forall v, length (enc v) = 16%nat.
  Lemma ksb_len n v : length (ksb E enc n v) = (n * 16)%nat.
  Proof using HE enc_len.
    unfold ksb. rewrite (concat_length_eq 16), map_length, seq_length; [reflexivity|].
    intros b Hb. apply in_map_iff in Hb. destruct Hb as (i & <- & _). apply HE, enc_len.
  Qed.
  Lemma ksb_app n m v : ksb E enc (n + m) v = ksb E enc n v ++ ksb E enc m (v + Z.of_nat n).
  Proof using HE enc_len.
    unfold ksb. rewrite seq_app, map_app, concat_app. f_equal. cbn [Nat.add].
    replace (seq n m) with (map (fun i => (n + i)%nat) (seq 0 m)).
    - rewrite map_map. f_equal. apply map_ext. intros i. do 2 f_equal. lia.
    - clear. revert n; induction m as [|m IH]; intros n; [reflexivity|]. cbn [seq map]. f_equal; [lia|].
      rewrite <- (IH (S n)). rewrite <- seq_shift, map_map. apply map_ext. intros; lia.
  Qed.
  Lemma ksb_1 v : ksb E enc 1 v = E (enc v).
  Proof using HE enc_len. unfold ksb. cbn [seq map concat]. rewrite app_nil_r. do 2 f_equal. lia. Qed.

  Definition kst (len : nat) (v : Z) : list Z := firstn len (ksb E enc (blocks_for len) v).
  Lemma kst_len len v : length (kst len v) = len.
  Proof using HE enc_len. unfold kst. rewrite firstn_length, ksb_len. pose proof (blocks_for_ge len). lia. Qed.

  Lemma ksb_nth n : forall v i, (i < n * 16)%nat -> nth i (ksb E enc n v) 0 = nth (i mod 16) (E (enc (v + Z.of_nat (i / 16)))) 0.
  Proof using HE enc_len.
    induction n as [|n IH]; intros v i Hi; [lia|].
    replace (S n) with (1 + n)%nat by lia. rewrite ksb_app. assert (L := ksb_len 1 v).
    destruct (Nat.lt_ge_cases i 16).
    - rewrite app_nth1 by lia. rewrite ksb_1. rewrite Nat.mod_small, Nat.div_small by lia. do 3 f_equal. lia.
    - rewrite app_nth2 by lia. rewrite L. rewrite IH by lia. change (1 * 16)%nat with 16%nat.
      replace i with (1 * 16 + (i - 16))%nat at 3 4 by lia.
      rewrite Nat.div_add_l by lia. rewrite (Nat.add_comm (1 * 16)), Nat.mod_add by lia. do 3 f_equal. lia.
  Qed.
  Lemma kst_nth len v i : (i < len)%nat -> nth i (kst len v) 0 = nth (i mod 16) (E (enc (v + Z.of_nat (i / 16)))) 0.
  Proof using HE enc_len. intros H. unfold kst. rewrite nth_firstn_lt by lia. apply ksb_nth. pose proof (blocks_for_ge len). lia. Qed.
  Lemma ctr_crypt_eq v msg : ctr_crypt E enc v msg = xorl msg (kst (length msg) v).
  Proof using HE enc_len.
    rewrite xorl_map_seq by (now rewrite kst_len). unfold ctr_crypt. apply map_ext_in. intros i Hi. apply in_seq in Hi.
    rewrite kst_nth by lia. reflexivity.
  Qed.
  Lemma ctr_crypt_len v msg : length (ctr_crypt E enc v msg) = length msg.
  Proof using HE enc_len. unfold ctr_crypt. now rewrite map_length, seq_length. Qed.

  Lemma kst_app n b v : kst (n * 16 + b) v = kst (n * 16) v ++ kst b (v + Z.of_nat n).
  Proof using HE enc_len.
    apply (list_ext 0); [rewrite app_length, !kst_len; reflexivity|]. rewrite kst_len. intros i Hi.
    rewrite kst_nth by lia. destruct (Nat.lt_ge_cases i (n * 16)).
    - rewrite app_nth1 by (rewrite kst_len; lia). rewrite kst_nth by lia. reflexivity.
    - rewrite app_nth2 by (rewrite kst_len; lia). rewrite kst_len, kst_nth by lia.
      replace i with (n * 16 + (i - n * 16))%nat at 1 2 by lia.
      rewrite Nat.div_add_l by lia. rewrite (Nat.add_comm (n * 16)), Nat.mod_add by lia. do 3 f_equal. lia.
  Qed.
  Lemma ctr_crypt_app n v a b : length a = (n * 16)%nat ->
    ctr_crypt E enc v (a ++ b) = ctr_crypt E enc v a ++ ctr_crypt E enc (v + Z.of_nat n) b.
  Proof using HE enc_len.
    intros H. rewrite !ctr_crypt_eq, app_length, H, kst_app. apply xorl_app. now rewrite kst_len.
  Qed.
End KS.

Section CM.
  Context (E : list Z -> list Z) (inc : list Z -> res (list Z)) (enc : Z -> list Z).
  Hypothesis HE : block_fun E.
  Hypothesis enc_len : forall v, length (enc v) = 16%nat.
  Hypothesis inc_enc : forall v, inc (enc v) = Ok (enc (v + 1)).

  Lemma CM_block_ok out o v : (o + 16 <= length out)%nat ->
    CM_block E inc out o (enc v) = Ok (splice out o (ksb E enc 1 v), enc (v + 1)).
  Proof.
    intros H. unfold CM_block. assert (L := enc_len v).
    rewrite blk_ok by (rewrite ?slice_all; auto; lia). cbn [bind]. rewrite slice_all by lia. rewrite inc_enc. cbn [bind].
    now rewrite (ksb_1 E enc HE enc_len).
  Qed.
  Lemma CM_wide_ok s out o v : (o + 16 * s <= length out)%nat ->
    CM_wide E inc s out o (enc v) = Ok (splice out o (ksb E enc s v), enc (v + Z.of_nat s)).
  Proof.
    intros H. unfold CM_wide.
    set (cs := fun j => concat (map (fun i => enc (v + Z.of_nat i)) (seq 0 j))).
    assert (LC : forall j, length (cs j) = (j * 16)%nat).
    { intros j. unfold cs. rewrite (concat_length_eq 16), map_length, seq_length; [reflexivity|].
      intros b Hb. apply in_map_iff in Hb. destruct Hb as (i & <- & _). apply enc_len. }
    assert (LZ : length (zeros (16 * s)) = (16 * s)%nat) by apply repeat_length.
    destruct (for_up_inv (fun j st => st = (splice (zeros (16 * s)) 0 (cs j), enc (v + Z.of_nat j)))
      (fun j st => let '(tmpc, ctr) := st in
        tmpc <- wcopy ctr 0 tmpc (16 * j) 16 ;; ctr <- inc ctr ;; Ok (tmpc, ctr)) 0 s (zeros (16 * s), enc v)) as (st & E1 & E2).
    - cbv beta. unfold cs. cbn [seq map concat]. rewrite splice_nil. do 2 f_equal. lia.
    - intros j st Hj ->. eexists. split; [|reflexivity]. specialize (LC j).
      assert (Le := enc_len (v + Z.of_nat j)).
      rewrite wcopy_ok by (rewrite ?length_splice; lia). cbn [bind]. rewrite slice_all by lia. rewrite inc_enc. cbn [bind].
      do 2 f_equal; [|f_equal; lia].
      pose proof (splice_splice_next (zeros (16 * s)) 0 (cs j) (enc (v + Z.of_nat j))) as SS. rewrite LC in SS.
      replace (16 * j)%nat with (0 + j * 16)%nat by lia. rewrite SS by lia. f_equal.
      unfold cs. rewrite seq_S, map_app, concat_app. cbn [map concat Nat.add]. now rewrite app_nil_r.
    - rewrite E1. cbn [bind]. rewrite E2. cbn [Nat.add]. rewrite splice_all by (rewrite LC; lia).
      rewrite wideT_ok by (rewrite ?LC; auto; lia). cbn [bind]. do 4 f_equal. unfold ksb. f_equal.
      specialize (LC s). rewrite slice_all by lia.
      assert (B : blocks 16 s (cs s) = map (fun i => enc (v + Z.of_nat i)) (seq 0 s)).
      { pose proof (blocks_of_concat 16 (map (fun i => enc (v + Z.of_nat i)) (seq 0 s))) as B. rewrite map_length, seq_length in B.
        apply B. intros b Hb. apply in_map_iff in Hb. destruct Hb as (i & <- & _). apply enc_len. }
      rewrite B, map_map. reflexivity.
  Qed.

  Lemma CM_loop_blocks out oo n : forall a done v, length done = (a * 16)%nat -> (oo + (a + n) * 16 <= length out)%nat ->
    for_up a n (fun k st => let '(out, ctr) := st in CM_block E inc out (oo + 16 * k) ctr) (splice out oo done, enc v) =
    Ok (splice out oo (done ++ ksb E enc n v), enc (v + Z.of_nat n)).
  Proof.
    induction n as [|n IH]; intros a done v Hd Ho; cbn [for_up].
    - cbn. rewrite app_nil_r. do 2 f_equal. f_equal. lia.
    - assert (L1 := ksb_len E enc HE enc_len 1 v).
      rewrite CM_block_ok by (rewrite length_splice; lia). cbn [bind].
      pose proof (splice_splice_next out oo done (ksb E enc 1 v)) as SS. rewrite Hd in SS.
      replace (oo + 16 * a)%nat with (oo + a * 16)%nat by lia. rewrite SS by lia.
      rewrite IH by (rewrite ?app_length; lia). rewrite <- app_assoc.
      replace (v + 1) with (v + Z.of_nat 1) by lia. rewrite <- (ksb_app E enc HE enc_len). cbn [Nat.add]. do 3 f_equal. lia.
  Qed.
  Lemma CM_loop_wide s out oo n : forall a done v, length done = (a * (16 * s))%nat -> (oo + (a + n) * (16 * s) <= length out)%nat ->
    for_up a n (fun k st => let '(out, ctr) := st in CM_wide E inc s out (oo + k * (16 * s)) ctr) (splice out oo done, enc v) =
    Ok (splice out oo (done ++ ksb E enc (n * s) v), enc (v + Z.of_nat (n * s))).
  Proof.
    induction n as [|n IH]; intros a done v Hd Ho; cbn [for_up].
    - cbn. rewrite app_nil_r. do 2 f_equal. f_equal. lia.
    - assert (L1 := ksb_len E enc HE enc_len s v). set (R := (16 * s)%nat) in *.
      assert (oo + a * R + R <= length out)%nat by nia.
      rewrite CM_wide_ok by (rewrite length_splice; unfold R in *; lia). cbn [bind].
      pose proof (splice_splice_next out oo done (ksb E enc s v)) as SS. rewrite Hd in SS.
      rewrite SS by lia.
      rewrite IH by (rewrite ?app_length; unfold R in *; lia). rewrite <- app_assoc, <- (ksb_app E enc HE enc_len).
      replace (S n * s)%nat with (s + n * s)%nat by lia. do 3 f_equal. lia.
  Qed.

  (** [len] bytes of keystream *)
  Lemma CM_Generate_ok s out oo len v : (oo + len <= length out)%nat ->
    CM_Generate E inc s out oo len (enc v) = Ok (splice out oo (kst E enc len v), enc (v + Z.of_nat (blocks_for len))).
  Proof.
    intros Ho. unfold CM_Generate.
    set (w := (if (s =? 0)%nat then 0 else if (16 * s <=? len)%nat then len / (16 * s) else 0)%nat).
    assert (Hdm : (len = 16 * (len / 16) + len mod 16)%nat) by (apply Nat.div_mod; lia).
    assert (Hmu : (len mod 16 < 16)%nat) by (apply Nat.mod_upper_bound; lia).
    assert (Hbf := blocks_for_split len).
    set (q := (len / 16)%nat) in *. set (rm := (len mod 16)%nat) in *.
    assert (Hw : (w * s <= q)%nat).
    { unfold w. destruct (Nat.eqb_spec s 0); [lia|]. destruct (16 * s <=? len)%nat; [|lia].
      rewrite <- Nat.div_div by lia. fold q. rewrite Nat.mul_comm. now apply Nat.mul_div_le. }
    clearbody w q rm.
    pose proof (CM_loop_wide s out oo w 0 [] v) as W. rewrite splice_nil in W. rewrite W by (cbn [length]; lia).
    cbn [bind app].
    rewrite CM_loop_blocks by (rewrite ?(ksb_len E enc HE enc_len); lia). cbn [bind].
    rewrite <- (ksb_app E enc HE enc_len). replace (w * s + (q - w * s))%nat with q by lia.
    replace (v + Z.of_nat (w * s) + Z.of_nat (q - w * s)) with (v + Z.of_nat q) by lia.
    assert (LQ := ksb_len E enc HE enc_len q v).
    unfold kst. rewrite Hbf.
    destruct (Nat.eqb_spec rm 0) as [Z0|Z0].
    - rewrite !Nat.add_0_r. rewrite firstn_all2 by lia. reflexivity.
    - assert (Le := enc_len (v + Z.of_nat q)).
      rewrite blk_ok by (rewrite ?slice_all; auto; cbn; lia). cbn [bind]. rewrite slice_all by lia. rewrite inc_enc. cbn [bind].
      assert (LE := HE _ Le). rewrite splice_all by (rewrite LE; reflexivity).
      rewrite wcopy_ok by (rewrite ?length_splice; lia). cbn [bind].
      pose proof (splice_splice_next out oo (ksb E enc q v) (slice (E (enc (v + Z.of_nat q))) 0 rm)) as SS. rewrite LQ in SS.
      replace (len - rm)%nat with (q * 16)%nat by lia. rewrite SS by (rewrite length_slice; lia).
      replace (v + Z.of_nat q + 1) with (v + Z.of_nat (q + 1)) by lia. do 3 f_equal.
      rewrite (ksb_app E enc HE enc_len), (ksb_1 E enc HE enc_len). rewrite firstn_app, LQ. rewrite (firstn_all2 (n := len)) by lia. f_equal.
      unfold slice. cbn [skipn]. f_equal. lia.
  Qed.

  (** the byte-level definition *)
  (** sequential processing, separate or same arrays *)
  Lemma CM_seq_gen s inp io out oo len v : (inp = None -> io = oo) ->
    (oo + len <= length out)%nat -> (io + len <= length (src inp out))%nat ->
    CM_ProcessSequential E inc s inp io out oo len (enc v) =
    Ok (splice out oo (match inp with Some l => ctr_crypt E enc v (slice l io len) | None => zeros len end), enc (v + Z.of_nat (blocks_for len))).
  Proof.
    intros HA Ho Hi. unfold CM_ProcessSequential.
    assert (Hdm : (len = 16 * (len / 16) + len mod 16)%nat) by (apply Nat.div_mod; lia).
    assert (Hmu : (len mod 16 < 16)%nat) by (apply Nat.mod_upper_bound; lia).
    set (aln := (len - len mod 16)%nat).
    assert (Ha : (aln <= len)%nat) by (unfold aln; lia). clearbody aln. clear Hdm Hmu.
    rewrite CM_Generate_ok by lia. cbn [bind].
    set (out1 := splice out oo (kst E enc len v)). assert (LK := kst_len E enc HE enc_len len v).
    assert (L1 : length out1 = length out) by (apply length_splice; lia).
    assert (S1 : length (src inp out1) = length (src inp out)) by (now apply src_len).
    (* value written at position i *)
    set (x := fun i => Z.lxor (nth i (kst E enc len v) 0) (nth (io + i) (src inp out1) 0)).
    assert (W : exists done, length done = aln /\ done = map x (seq 0 aln) /\
      (if (aln =? 0)%nat then Ok out1 else wxor (src inp out1) io out1 oo aln) = Ok (splice out1 oo done)).
    { exists (map x (seq 0 aln)). split; [now rewrite map_length, seq_length|]. split; [reflexivity|].
      destruct (Nat.eqb_spec aln 0) as [->|]; [cbn; now rewrite splice_nil|].
      rewrite wxor_ok by lia. do 2 f_equal.
      rewrite xorl_map_seq by (rewrite !length_slice; lia). rewrite length_slice by lia.
      apply map_ext_in. intros i H. apply in_seq in H. rewrite !nth_slice by lia. unfold x. f_equal.
      unfold out1. rewrite nth_splice by lia. destruct (Nat.ltb_spec (oo + i) oo); [lia|].
      destruct (Nat.ltb_spec (oo + i) (oo + length (kst E enc len v))); [|lia]. f_equal. lia. }
    destruct W as (done & Ld & Hdone & W). rewrite W. cbn [bind].
    rewrite (byte_loop out1 oo x _ (len - aln) aln done Ld); [| lia |].
    2:{ intros i d Hi' Hd.
        assert (L2 : length (splice out1 oo d) = length out) by (rewrite length_splice; lia).
        assert (S2 : length (src inp (splice out1 oo d)) = length (src inp out1)) by (apply src_len; lia).
        rewrite (get_ok _ _ 0) by lia. cbn [bind]. rewrite (get_ok _ _ 0) by lia. cbn [bind].
        rewrite (Nat.add_comm i io), (Nat.add_comm i oo). rewrite src_nth_ahead by (auto; lia). f_equal. unfold x. f_equal.
        rewrite nth_splice by lia. destruct (Nat.ltb_spec (oo + i) oo); [lia|].
        destruct (Nat.ltb_spec (oo + i) (oo + length d)); [lia|].
        unfold out1. rewrite nth_splice by lia. destruct (Nat.ltb_spec (oo + i) oo); [lia|].
        destruct (Nat.ltb_spec (oo + i) (oo + length (kst E enc len v))); [|lia]. f_equal. lia. }
    cbn [bind]. rewrite Hdone, <- map_app, <- seq_app. replace (aln + (len - aln))%nat with len by lia.
    unfold out1 at 1. rewrite splice_over by (rewrite ?map_length, ?seq_length; lia). do 3 f_equal.
    destruct inp as [l|]; cbn [src] in *.
    - rewrite (ctr_crypt_eq E enc HE enc_len). rewrite length_slice by lia. rewrite xorl_map_seq by (rewrite length_slice; lia). rewrite length_slice by lia.
      apply map_ext_in. intros i H. apply in_seq in H. rewrite nth_slice by lia. unfold x. cbn [src]. apply Z.lxor_comm.
    - pose proof (HA eq_refl) as HO. clear HA. subst oo. apply (list_ext 0); [unfold zeros; now rewrite map_length, seq_length, repeat_length|].
      rewrite map_length, seq_length. intros i H.
      rewrite (nth_indep _ 0 (x 0%nat)) by (rewrite map_length, seq_length; lia).
      rewrite map_nth, seq_nth by lia. unfold zeros. rewrite nth_repeat. unfold x. cbn [src Nat.add].
      unfold out1. rewrite nth_splice by lia. destruct (Nat.ltb_spec (io + i) io); [lia|].
      destruct (Nat.ltb_spec (io + i) (io + length (kst E enc len v))); [|lia]. replace (io + i - io)%nat with i by lia. apply Z.lxor_nilpotent.
  Qed.

End CM.
