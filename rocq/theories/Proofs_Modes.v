From Coq Require Import Permutation.
From Verif Require Import BaseLemmas Spec_Common Spec_Modes Proofs_Common Proofs_IntegerTools Model_Modes Proofs_Windows.
Open Scope Z_scope.

Lemma for_up_unit a n f s :
  for_up a n (fun k (st : list Z * unit) => r <- f k (fst st) ;; Ok (r, tt)) (s, tt) = (r <- for_up a n f s ;; Ok (r, tt)).
Proof.
  revert a s; induction n as [|n IH]; intros a s; cbn [for_up]; [reflexivity|].
  cbn [fst]. destruct (f a s) as [r| |]; cbn [bind]; auto.
Qed.
Lemma for_list_unit ord f s :
  for_list ord (fun k (st : list Z * unit) => r <- f k (fst st) ;; Ok (r, tt)) (s, tt) = (r <- for_list ord f s ;; Ok (r, tt)).
Proof.
  revert s; induction ord as [|i ord IH]; intros s; cbn [for_list]; [reflexivity|].
  cbn [fst]. destruct (f i s) as [r| |]; cbn [bind]; auto.
Qed.
Lemma strip_unit (m : res (list Z)) x : (r <- m ;; Ok (r, tt)) = Ok (x, tt) -> m = Ok x.
Proof. destruct m; cbn; intros H; inversion H; reflexivity. Qed.

Lemma concat_map_len f (bs : list (list Z)) : block_fun f -> (forall b, In b bs -> length b = 16%nat) ->
  length (concat (map f bs)) = (length bs * 16)%nat.
Proof.
  intros Hf H. rewrite (concat_length_eq 16), map_length; [reflexivity|].
  intros b Hb. apply in_map_iff in Hb. destruct Hb as (c & <- & Hc). auto.
Qed.

(** ** ECB *)
Definition gecb (f : list Z -> list Z) (s : nat) (b : list Z) (_ : unit) : list Z * unit := (concat (map f (blocks 16 s b)), tt).
Lemma gecb_wf f s : block_fun f -> forall b (st : unit), length b = (16 * s)%nat -> True ->
  length (fst (gecb f s b st)) = (16 * s)%nat /\ True.
Proof.
  intros Hf b st Hb _. split; [|exact I]. cbn [fst gecb].
  rewrite concat_map_len, blocks_length; auto; [lia|]. intros c Hc. apply (blocks_len 16 s b c); [lia|exact Hc].
Qed.
Lemma gecb_fold f s : forall w l, (w * (16 * s) <= length l)%nat ->
  concat (fst (gfold (gecb f s) (blocks (16 * s) w l) tt)) = concat (map f (blocks 16 (w * s) l)).
Proof.
  induction w as [|w IH]; intros l Hl; [reflexivity|]. cbn [blocks gfold].
  unfold gecb at 1. specialize (IH (skipn (16 * s) l)). rewrite skipn_length in IH.
  destruct (gfold (gecb f s) (blocks (16 * s) w (skipn (16 * s) l)) tt) as [cs []] eqn:E.
  cbn [fst concat] in *. rewrite IH by lia. cbn [Nat.mul]. rewrite blocks_app, map_app, concat_app.
  rewrite blocks_slice by lia. do 4 f_equal. f_equal. lia.
Qed.
Lemma blocks_1 (b : list Z) : length b = 16%nat -> blocks 16 1 b = [b].
Proof. intros H. cbn [blocks]. now rewrite firstn_all2 by lia. Qed.

Lemma slice_firstn {A} (l : list A) o n k : (k <= n)%nat -> firstn k (slice l o n) = slice l o k.
Proof. intros. unfold slice. rewrite firstn_firstn, Nat.min_l by lia. reflexivity. Qed.
Lemma slice_skipn {A} (l : list A) o n k : skipn k (slice l o n) = slice l (o + k) (n - k).
Proof. unfold slice. rewrite skipn_firstn_comm, skipn_skipn. f_equal. f_equal. lia. Qed.

Lemma ECB_seq_loop f inp io out oo a n done : block_fun f -> alias_ok inp io oo ->
  length done = (a * 16)%nat -> (oo + (a + n) * 16 <= length out)%nat -> (io + (a + n) * 16 <= length (src inp out))%nat ->
  for_up a n (fun k out => blk f (src inp out) (io + k * 16) out (oo + k * 16)) (splice out oo done) =
  Ok (splice out oo (done ++ concat (map f (blocks 16 n (slice (src inp out) (io + a * 16) (n * 16)))))).
Proof.
  intros Hf HA Hd Ho Hi. apply strip_unit. rewrite <- for_up_unit.
  rewrite (seq_mode 16 inp io out oo (gecb f 1) (fun _ => True) (gecb_wf f 1 Hf) HA); auto.
  - cbv zeta. pose proof (gecb_fold f 1 n (slice (src inp out) (io + a * 16) (n * 16))) as G.
    change (16 * 1)%nat with 16%nat in G. rewrite Nat.mul_1_r in G.
    rewrite G by (rewrite length_slice; lia).
    destruct (snd _). reflexivity.
  - intros k out' st Hk L _. cbn [fst snd].
    assert (L1 : length (src inp out') = length (src inp out)) by now apply src_len.
    assert (L2 : length (slice (src inp out') (io + k * 16) 16) = 16%nat) by (apply length_slice; lia).
    rewrite blk_ok by (auto; lia). cbn [bind]. unfold gecb. rewrite blocks_1 by exact L2. cbn [map concat fst snd].
    now rewrite app_nil_r.
Qed.

Lemma ECB_Generate_ok f s inp io out oo cnt : block_fun f -> alias_ok inp io oo ->
  (oo + cnt * 16 <= length out)%nat -> (io + cnt * 16 <= length (src inp out))%nat ->
  ECB_Generate f s inp io out oo cnt = Ok (splice out oo (concat (map f (blocks 16 cnt (slice (src inp out) io (cnt * 16)))))).
Proof.
  intros Hf HA Ho Hi. unfold ECB_Generate.
  set (w := (if (s =? 0)%nat then 0 else if (s <=? cnt)%nat then cnt / s else 0)%nat).
  assert (Hw : (w * s <= cnt)%nat).
  { unfold w. destruct (Nat.eqb_spec s 0); [lia|]. destruct (s <=? cnt)%nat; [|lia]. rewrite Nat.mul_comm. now apply Nat.mul_div_le. }
  assert (W : for_up 0 w (fun k out0 => wideT f s (src inp out0) (io + k * (16 * s)) out0 (oo + k * (16 * s))) out =
    Ok (splice out oo (concat (map f (blocks 16 (w * s) (slice (src inp out) io (w * s * 16))))))).
  { apply strip_unit. rewrite <- for_up_unit.
    rewrite (seq_mode0 (16 * s) inp io out oo (gecb f s) (fun _ => True) (gecb_wf f s Hf) HA); auto; try nia.
    - cbv zeta. rewrite gecb_fold by (rewrite length_slice; nia).
      replace (w * (16 * s))%nat with (w * s * 16)%nat by lia. destruct (snd _). reflexivity.
    - intros k out' st Hk L _. cbn [fst snd].
      assert (L1 : length (src inp out') = length (src inp out)) by now apply src_len.
      rewrite wideT_ok by (auto; nia). reflexivity. }
  rewrite W. cbn [bind].
  rewrite (for_up_ext _ _ _ (fun k out => blk f (src inp out) (io + k * 16) out (oo + k * 16))).
  2:{ intros. do 2 f_equal; lia. }
  rewrite ECB_seq_loop; auto; try nia.
  - do 2 f_equal. replace (concat (map f (blocks 16 cnt (slice (src inp out) io (cnt * 16)))))
      with (concat (map f (blocks 16 (w * s + (cnt - w * s)) (slice (src inp out) io (cnt * 16))))).
    2:{ do 3 f_equal. lia. }
    rewrite blocks_app, map_app, concat_app. f_equal.
    + do 2 f_equal. rewrite <- (blocks_slice 16 (w * s) (w * s * 16) (slice (src inp out) io (cnt * 16))) by lia.
      rewrite slice_firstn by lia. reflexivity.
    + do 3 f_equal. rewrite slice_skipn. f_equal. lia.
  - rewrite concat_map_len, blocks_length; auto. intros b Hb. eapply blocks_len; [|exact Hb]. rewrite length_slice; nia.
Qed.

Definition ecb_data (f : list Z -> list Z) (l : list Z) : list Z := concat (map f (chunks 16 l)).
Lemma ecb_data_blocks f n l : length l = (n * 16)%nat -> ecb_data f l = concat (map f (blocks 16 n l)).
Proof. intros. unfold ecb_data. rewrite (blocks_chunks 16 n) by lia. reflexivity. Qed.
Lemma ecb_data_len f n l : block_fun f -> length l = (n * 16)%nat -> length (ecb_data f l) = (n * 16)%nat.
Proof.
  intros Hf H. rewrite (ecb_data_blocks f n) by auto. rewrite concat_map_len, blocks_length; auto.
  intros b Hb. eapply blocks_len; [|exact Hb]. lia.
Qed.
Lemma ecb_data_app f n a b : length a = (n * 16)%nat -> ecb_data f (a ++ b) = ecb_data f a ++ ecb_data f b.
Proof.
  revert a b; induction n as [|n IH]; intros a b H.
  - destruct a; [reflexivity|cbn in H; lia].
  - assert (Ha : a = firstn 16 a ++ skipn 16 a) by (symmetry; apply firstn_skipn).
    rewrite Ha, <- app_assoc. unfold ecb_data.
    rewrite !(chunks_app 16 (firstn 16 a)) by (rewrite ?firstn_length; lia). cbn [map concat].
    rewrite <- app_assoc. f_equal. apply IH. rewrite skipn_length. lia.
Qed.

Lemma good_deg p m : pblk p = (deg p * (16 * m))%nat -> (0 < deg p)%nat -> (pblk p / deg p = 16 * m)%nat.
Proof. intros -> H. rewrite Nat.mul_comm. apply Nat.div_mul. lia. Qed.

(** concatenating the per-worker slices *)
Lemma concat_slices (l : list Z) o n k : (o + k * n <= length l)%nat ->
  concat (map (fun i => slice l (o + i * n) n) (seq 0 k)) = slice l o (k * n).
Proof.
  induction k as [|k IH]; intros H; [reflexivity|].
  rewrite seq_S, map_app, concat_app, IH by lia. cbn [map concat]. rewrite app_nil_r.
  replace (S k * n)%nat with (k * n + n)%nat by lia. rewrite slice_app. reflexivity.
Qed.

Lemma ECB_ProcessParallel_ok f s p m ord inp io out oo : block_fun f -> alias_ok inp io oo ->
  (0 < deg p)%nat -> pblk p = (deg p * (16 * m))%nat -> schedule (deg p) ord ->
  (oo + pblk p <= length out)%nat -> (io + pblk p <= length (src inp out))%nat ->
  ECB_ProcessParallel f s p ord inp io out oo = Ok (splice out oo (ecb_data f (slice (src inp out) io (pblk p)))).
Proof.
  intros Hf HA Hd Hp HO Ho Hi. unfold ECB_ProcessParallel, safe.
  destruct (Nat.eqb_spec (deg p) 0); [lia|]. cbn [negb bind].
  rewrite (good_deg p m Hp Hd). replace (16 * m / 16)%nat with m by (rewrite Nat.mul_comm, Nat.div_mul; lia).
  apply strip_unit. rewrite <- for_list_unit.
  rewrite (workers_ok (16 * m) (deg p) oo out (fun i => ecb_data f (slice (src inp out) (io + i * (16 * m)) (16 * m))) (fun _ t => t) (fun _ => True)).
  - f_equal. f_equal.
    + f_equal. rewrite Hp. 
      assert (K : forall k, (k <= deg p)%nat ->
        concat (map (fun i => ecb_data f (slice (src inp out) (io + i * (16 * m)) (16 * m))) (seq 0 k)) =
        ecb_data f (slice (src inp out) io (k * (16 * m)))).
      { induction k as [|k IH]; intros Hk; [reflexivity|].
        rewrite seq_S, map_app, concat_app, IH by lia. cbn [map concat]. rewrite app_nil_r.
        replace (S k * (16 * m))%nat with (k * (16 * m) + 16 * m)%nat by lia. rewrite slice_app.
        rewrite (ecb_data_app f (k * m)) by (rewrite length_slice; nia). reflexivity. }
      apply K. lia.
    + clear. induction ord; cbn; auto.
  - intros i Hi'. rewrite (ecb_data_len f m) by (auto; rewrite length_slice; nia). lia.
  - lia.
  - auto.
  - intros i out' t Hi' L _ Sl. cbn [fst].
    assert (L1 : length (src inp out') = length (src inp out)) by now apply src_len.
    rewrite ECB_Generate_ok; auto; try nia.
    + cbn [bind]. destruct t. do 3 f_equal. rewrite (ecb_data_blocks f m) by (rewrite length_slice; nia).
      do 3 f_equal. replace (m * 16)%nat with (16 * m)%nat by lia.
      destruct inp as [l|]; cbn [src]; [reflexivity|]. rewrite (HA eq_refl). exact Sl.
    + intros E. rewrite (HA E). reflexivity.
  - exact I.
  - exact HO.
Qed.

Lemma ECB_ProcessSequential_ok f inp io out oo n : block_fun f -> alias_ok inp io oo ->
  (oo + n * 16 <= length out)%nat -> (io + n * 16 <= length (src inp out))%nat ->
  ECB_ProcessSequential f inp io out oo (n * 16) = Ok (splice out oo (ecb_data f (slice (src inp out) io (n * 16)))).
Proof.
  intros Hf HA Ho Hi. unfold ECB_ProcessSequential. rewrite Nat.div_mul by lia.
  pose proof (ECB_seq_loop f inp io out oo 0 n []) as E. rewrite splice_nil in E. cbn [app length] in E.
  replace (io + 0 * 16)%nat with io in E by lia. rewrite E; auto. rewrite (ecb_data_blocks f n); [reflexivity|].
  rewrite length_slice; lia.
Qed.

Definition geT (f : list Z -> list Z) (b : list Z) (_ : unit) : list Z * unit := (ecb_data f b, tt).
Lemma geT_fold f m : forall w l, length l = (w * (m * 16))%nat ->
  concat (fst (gfold (geT f) (blocks (m * 16) w l) tt)) = ecb_data f l.
Proof.
  induction w as [|w IH]; intros l Hl; [destruct l; [reflexivity|cbn in Hl; lia]|]. cbn [blocks gfold].
  unfold geT at 1. specialize (IH (skipn (m * 16) l)). rewrite skipn_length in IH.
  destruct (gfold (geT f) (blocks (m * 16) w (skipn (m * 16) l)) tt) as [cs []] eqn:E.
  cbn [fst concat] in *. rewrite IH by lia.
  rewrite <- (ecb_data_app f m) by (rewrite firstn_length; lia). now rewrite firstn_skipn.
Qed.

Lemma ECB_Transform_ok f s p ord inp io out oo n : block_fun f -> alias_ok inp io oo ->
  (par p = true -> good_profile (deg p) (pblk p) /\ forall i, schedule (deg p) (ord i)) ->
  (oo + n * 16 <= length out)%nat -> (io + n * 16 <= length (src inp out))%nat ->
  ECB_Transform f s p ord inp io out oo (n * 16) = Ok (splice out oo (ecb_data f (slice (src inp out) io (n * 16)))).
Proof.
  intros Hf HA HP Ho Hi. unfold ECB_Transform.
  destruct (par p && (pblk p <=? n * 16)%nat) eqn:C; [|now apply ECB_ProcessSequential_ok].
  apply andb_true_iff in C. destruct C as [C1 C2]. apply Nat.leb_le in C2. destruct (HP C1) as [(m & Hm & Hd & Hp) HO].
  set (pb := (deg p * m)%nat). assert (P16 : pblk p = (pb * 16)%nat) by (unfold pb; lia).
  assert (0 < pb)%nat by (unfold pb; nia).
  unfold safe. destruct (Nat.eqb_spec (pblk p) 0); [nia|]. cbn [negb bind].
  set (cnt := (n * 16 / pblk p)%nat).
  assert (Hc : (pblk p * cnt <= n * 16)%nat) by (unfold cnt; apply Nat.mul_div_le; lia).
  assert (W : for_up 0 cnt (fun i out0 => ECB_ProcessParallel f s p (ord i) inp (io + i * pblk p) out0 (oo + i * pblk p)) out =
    Ok (splice out oo (ecb_data f (slice (src inp out) io (cnt * pblk p))))).
  { apply strip_unit. rewrite <- for_up_unit.
    rewrite (seq_mode0 (pblk p) inp io out oo (geT f) (fun _ => True)); auto; try nia.
    - cbv zeta. rewrite P16. rewrite geT_fold by (rewrite length_slice; nia). destruct (snd _). reflexivity.
    - intros b st Hb _. cbn [geT fst snd]. split; [|exact I]. rewrite (ecb_data_len f pb); auto; lia.
    - intros k out' st Hk L _. cbn [fst snd].
      assert (L1 : length (src inp out') = length (src inp out)) by now apply src_len.
      rewrite (ECB_ProcessParallel_ok f s p m); auto; try nia. intros E. rewrite (HA E). reflexivity. }
  rewrite W. cbn [bind].
  assert (LD : length (ecb_data f (slice (src inp out) io (cnt * pblk p))) = (cnt * pblk p)%nat).
  { rewrite (ecb_data_len f (cnt * pb)); auto; [nia|]. rewrite length_slice; nia. }
  assert (HK : (cnt * pblk p = cnt * pb * 16)%nat) by nia.
  rewrite (Nat.mul_comm (pblk p) cnt) in *. clearbody cnt. rewrite HK in *. set (K := (cnt * pb)%nat) in *. clearbody K.
  clear W HK P16 HP Hp C2 n0.
  destruct (Nat.eqb_spec (n * 16 - K * 16) 0) as [Z0|Z0].
  - do 4 f_equal. lia.
  - assert (R : (n * 16 - K * 16 = (n - K) * 16)%nat) by lia. rewrite R.
    rewrite ECB_ProcessSequential_ok; auto; try lia.
    + rewrite src_ahead by (auto; lia).
      pose proof (splice_splice_next out oo (ecb_data f (slice (src inp out) io (K * 16)))) as SS.
      rewrite LD in SS. rewrite SS.
      2:{ rewrite (ecb_data_len f (n - K)); auto; [lia|]. rewrite length_slice; lia. }
      do 2 f_equal. rewrite <- (ecb_data_app f K) by (rewrite length_slice; lia).
      rewrite <- slice_app. do 2 f_equal. lia.
    + intros E. rewrite (HA E). reflexivity.
    + rewrite length_splice; lia.
    + rewrite (src_len inp out) by (rewrite length_splice; lia). lia.
Qed.
