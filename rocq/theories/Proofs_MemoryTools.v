From Verif Require Import BaseLemmas Spec_Common Proofs_Common Model_MemoryTools Proofs_IntegerTools.
Open Scope Z_scope.

Lemma zipw_length f a b : length (zipw f a b) = Nat.min (length a) (length b).
Proof. revert b; induction a as [|x a IH]; intros [|y b]; cbn; auto. Qed.
Lemma zipw_nth f a b i d : (i < length a)%nat -> (i < length b)%nat ->
  nth i (zipw f a b) d = f (nth i a d) (nth i b d).
Proof.
  revert b i; induction a as [|x a IH]; intros [|y b] [|i] Ha Hb; cbn in *; try lia; auto.
  apply IH; lia.
Qed.
Lemma zipw_app f a b c d : length a = length c -> zipw f (a ++ b) (c ++ d) = zipw f a c ++ zipw f b d.
Proof.
  revert c; induction a as [|x a IH]; intros [|y c] H; cbn in H; try lia; cbn; auto. f_equal. apply IH. lia.
Qed.
Lemma zipw_xorl a b : zipw Z.lxor a b = xorl a b.
Proof. revert b; induction a as [|x a IH]; intros [|y b]; cbn; auto. now rewrite IH. Qed.

Lemma alnlen_le w len : (alnlen w len <= len)%nat.
Proof. unfold alnlen. destruct w; [lia|]. destruct (Nat.leb_spec (S w) len); lia. Qed.
Lemma alnlen_mul w len : w <> 0%nat -> (alnlen w len / w * w = alnlen w len)%nat.
Proof.
  intros Hw. unfold alnlen. destruct w; [lia|]. destruct (Nat.leb_spec (S w) len).
  - assert (len - len mod S w = (len / S w) * S w)%nat as ->.
    { pose proof (Nat.div_mod len (S w)). lia. }
    now rewrite Nat.div_mul by lia.
  - now rewrite Nat.div_0_l.
Qed.
Lemma alnlen_0 len : alnlen 0 len = 0%nat. Proof. reflexivity. Qed.

(** result of applying f to the window *)
Definition app_win (f : Z -> Z -> Z) (inp : list Z) (io : nat) (out : list Z) (oo n : nat) : list Z :=
  splice out oo (zipw f (slice inp io n) (slice out oo n)).

Lemma length_app_win f inp io out oo n : (io + n <= length inp)%nat -> (oo + n <= length out)%nat ->
  length (app_win f inp io out oo n) = length out.
Proof. intros. unfold app_win. rewrite length_splice; auto. rewrite zipw_length. len. Qed.

Lemma app_win_step f inp io out oo n m : (io + n + m <= length inp)%nat -> (oo + n + m <= length out)%nat ->
  app_win f inp (io + n) (app_win f inp io out oo n) (oo + n) m = app_win f inp io out oo (n + m).
Proof.
  intros Hi Ho. unfold app_win at 1.
  assert (E : slice (app_win f inp io out oo n) (oo + n) m = slice out (oo + n) m).
  { unfold app_win. apply slice_splice_disj; rewrite zipw_length, !length_slice by lia; lia. }
  rewrite E. unfold app_win. rewrite !slice_app, zipw_app by len.
  rewrite <- splice_splice_next by (rewrite !zipw_length; len).
  f_equal. rewrite zipw_length. rewrite !length_slice by lia. lia.
Qed.

Lemma vec_block_ok f w inp io out oo : (io + w <= length inp)%nat -> (oo + w <= length out)%nat ->
  vec_block (fun a b => f b a) w inp io out oo = Ok (app_win (fun a b => f b a) inp io out oo w).
Proof.
  intros. unfold vec_block. rewrite !rd_ok by lia. cbn [bind]. rewrite wr_ok; [reflexivity|].
  rewrite zipw_length. len.
Qed.

Lemma vec_loop_ok f w inp io out oo len : (io + len <= length inp)%nat -> (oo + len <= length out)%nat ->
  vec_loop f w inp io out oo len = Ok (app_win f inp io out oo (alnlen w len)).
Proof.
  intros Hi Ho. unfold vec_loop. pose proof (alnlen_le w len) as L.
  destruct (Nat.eq_dec w 0) as [->|Hw].
  { cbn. unfold app_win, slice. cbn. now rewrite splice_nil. }
  pose proof (alnlen_mul w len Hw) as M. set (K := (alnlen w len / w)%nat) in *.
  destruct (for_up_inv (fun i s => s = app_win f inp io out oo (i * w))
     (fun i out => vec_block f w inp (io + i * w) out (oo + i * w)) 0 K out) as (r & E & R).
  - cbn. unfold app_win, slice. cbn. now rewrite splice_nil.
  - intros j s Hj ->.
    assert (j * w + w <= K * w)%nat by nia.
    pose proof (vec_block_ok (fun b a => f a b) w inp (io + j * w) (app_win f inp io out oo (j * w)) (oo + j * w)) as V.
    cbv beta in V. change (fun a b => f a b) with f in V.
    rewrite V by (rewrite ?length_app_win; lia).
    eexists; split; [reflexivity|].
    rewrite app_win_step by lia. f_equal. lia.
  - rewrite E, R. cbn [Nat.add]. now rewrite M.
Qed.

Lemma tail_ok (f : Z -> Z -> Z) inp io out oo n : (io + n <= length inp)%nat -> (oo + n <= length out)%nat ->
  for_up 0 n (fun i out =>
    a <- get inp (io + i) ;; b <- get out (oo + i) ;; put out (oo + i) (f a b)) out
  = Ok (app_win f inp io out oo n).
Proof.
  intros Hi Ho.
  destruct (for_up_inv (fun i s => s = app_win f inp io out oo i)
     (fun i out => a <- get inp (io + i) ;; b <- get out (oo + i) ;; put out (oo + i) (f a b)) 0 n out) as (r & E & R).
  - unfold app_win, slice. cbn. now rewrite splice_nil.
  - intros j s Hj ->. rewrite (get_ok inp _ 0) by lia. cbn [bind].
    rewrite (get_ok _ _ 0) by (rewrite length_app_win; lia). cbn [bind].
    rewrite put_ok by (rewrite length_app_win; lia). eexists; split; [reflexivity|].
    replace (S j) with (j + 1)%nat by lia.
    rewrite <- app_win_step by lia.
    unfold app_win at 3. rewrite !(slice_cons 0) by (rewrite ?length_app_win; lia).
    unfold slice at 1 2; cbn [firstn zipw].
    rewrite upd_as_splice by (rewrite length_app_win; lia). reflexivity.
  - now rewrite E, R.
Qed.

Lemma zipw_lxor_comm a b : zipw Z.lxor a b = zipw (fun x y => Z.lxor y x) a b.
Proof. revert b; induction a as [|x a IH]; intros [|y b]; cbn; auto. rewrite IH, Z.lxor_comm. reflexivity. Qed.

Lemma MemXOR_app w inp io out oo len : (io + len <= length inp)%nat -> (oo + len <= length out)%nat ->
  MemXOR w inp io out oo len = Ok (app_win Z.lxor inp io out oo len).
Proof.
  intros Hi Ho. unfold MemXOR. rewrite vec_loop_ok by lia. cbn [bind].
  pose proof (alnlen_le w len). destruct (Nat.eqb_spec (alnlen w len) len) as [E|N]; [now rewrite E|].
  unfold XorPartial. rewrite (tail_ok (fun a b => Z.lxor b a)) by (rewrite ?length_app_win; lia).
  unfold app_win at 1. rewrite <- zipw_lxor_comm. fold (app_win Z.lxor inp (io + alnlen w len) (app_win Z.lxor inp io out oo (alnlen w len)) (oo + alnlen w len) (len - alnlen w len)).
  rewrite app_win_step by lia. do 2 f_equal. lia.
Qed.

Lemma MemXOR_ok w inp io out oo len : (io + len <= length inp)%nat -> (oo + len <= length out)%nat ->
  MemXOR w inp io out oo len = Ok (splice out oo (xorl (slice inp io len) (slice out oo len))).
Proof. intros. rewrite MemXOR_app by auto. unfold app_win. now rewrite zipw_xorl. Qed.

Lemma zipw_fst a b : length a = length b -> zipw (fun x _ => x) a b = a.
Proof. revert b; induction a as [|x a IH]; intros [|y b] H; cbn in *; try lia; auto. rewrite IH by lia. reflexivity. Qed.

Lemma MemCopy_ok w inp io out oo len : (io + len <= length inp)%nat -> (oo + len <= length out)%nat ->
  MemCopy w inp io out oo len = Ok (splice out oo (slice inp io len)).
Proof.
  intros Hi Ho. unfold MemCopy. destruct len as [|l].
  { unfold slice; cbn. now rewrite splice_nil. }
  set (len := S l) in *. rewrite vec_loop_ok by lia. cbn [bind].
  pose proof (alnlen_le w len).
  assert (A : forall n, (n <= len)%nat -> app_win (fun a _ => a) inp io out oo n = splice out oo (slice inp io n)).
  { intros n Hn. unfold app_win. rewrite zipw_fst; [reflexivity|len]. }
  rewrite A by lia.
  destruct (Nat.eqb_spec (alnlen w len) len) as [E|N]; [now rewrite E|].
  rewrite rd_ok by lia. cbn [bind]. rewrite wr_ok by len. f_equal.
  assert (S1 : slice inp io len = slice inp io (alnlen w len) ++ slice inp (io + alnlen w len) (len - alnlen w len)).
  { rewrite <- slice_app. f_equal. lia. }
  rewrite S1, <- splice_splice_next by len.
  rewrite (length_slice inp io) by lia. reflexivity.
Qed.

Lemma MemSet_ok w out o len v : (o + len <= length out)%nat ->
  MemSet w out o len v = Ok (splice out o (repeat v len)).
Proof.
  intros Ho. unfold MemSet. destruct len as [|l]; [cbn; now rewrite splice_nil|].
  set (len := S l) in *. pose proof (alnlen_le w len) as L.
  assert (E : for_up 0 (alnlen w len / w) (fun i out => wr out (o + i * w) (repeat v w)) out
              = Ok (splice out o (repeat v (alnlen w len)))).
  { destruct (Nat.eq_dec w 0) as [->|Hw]; [cbn; now rewrite splice_nil|].
    pose proof (alnlen_mul w len Hw) as M. set (K := (alnlen w len / w)%nat) in *.
    destruct (for_up_inv (fun i s => s = splice out o (repeat v (i * w)))
      (fun i out => wr out (o + i * w) (repeat v w)) 0 K out) as (r & E & R).
    - cbn. now rewrite splice_nil.
    - intros j s Hj ->. assert (j * w + w <= K * w)%nat by nia.
      rewrite wr_ok by len. eexists; split; [reflexivity|].
      replace (S j * w)%nat with (j * w + w)%nat by lia.
      rewrite repeat_app, <- splice_splice_next by len. rewrite repeat_length. reflexivity.
    - rewrite E, R. cbn [Nat.add]. now rewrite M. }
  rewrite E. cbn [bind].
  destruct (Nat.eqb_spec (alnlen w len) len) as [Q|N]; [now rewrite Q|].
  rewrite wr_ok by len. f_equal.
  replace (repeat v len) with (repeat v (alnlen w len) ++ repeat v (len - alnlen w len))
    by (rewrite <- repeat_app; f_equal; lia).
  rewrite <- splice_splice_next by len. rewrite repeat_length. reflexivity.
Qed.

(** AND / OR: correct when the vector loop covers the range, or the tail is one byte *)
Lemma MemAND_aligned (w : nat) inp io out oo len : (io + len <= length inp)%nat -> (oo + len <= length out)%nat ->
  (len <= alnlen w len + 1)%nat ->
  MemAND w inp io out oo len = Ok (app_win Z.land inp io out oo len).
Proof.
  intros Hi Ho Ha. unfold MemAND. destruct len as [|l]; [unfold app_win, slice; cbn; now rewrite splice_nil|].
  set (len := S l) in *. rewrite vec_loop_ok by lia. cbn [bind].
  pose proof (alnlen_le w len). unfold const_tail.
  assert (C : (len - alnlen w len = 0 \/ len - alnlen w len = 1)%nat) by lia.
  destruct C as [C|C]; rewrite C.
  - cbn [for_up]. do 2 f_equal. lia.
  - pose proof (tail_ok (fun a b => Z.land b a) inp (io + alnlen w len)
       (app_win Z.land inp io out oo (alnlen w len)) (oo + alnlen w len) 1) as T.
    cbn [for_up] in T |- *. rewrite !Nat.add_0_r in T.
    rewrite T by (rewrite ?length_app_win; lia).
    assert (Q : forall a b, zipw (fun x y => Z.land y x) a b = zipw Z.land a b).
    { induction a as [|x a IH]; intros [|y b]; cbn; auto. rewrite IH, Z.land_comm. reflexivity. }
    unfold app_win at 1. rewrite Q.
    fold (app_win Z.land inp (io + alnlen w len) (app_win Z.land inp io out oo (alnlen w len)) (oo + alnlen w len) 1).
    rewrite app_win_step by lia. do 2 f_equal. lia.
Qed.
Lemma MemOR_aligned (w : nat) inp io out oo len : (io + len <= length inp)%nat -> (oo + len <= length out)%nat ->
  (len <= alnlen w len + 1)%nat ->
  MemOR w inp io out oo len = Ok (app_win Z.lor inp io out oo len).
Proof.
  intros Hi Ho Ha. unfold MemOR. destruct len as [|l]; [unfold app_win, slice; cbn; now rewrite splice_nil|].
  set (len := S l) in *. rewrite vec_loop_ok by lia. cbn [bind].
  pose proof (alnlen_le w len). unfold const_tail.
  assert (C : (len - alnlen w len = 0 \/ len - alnlen w len = 1)%nat) by lia.
  destruct C as [C|C]; rewrite C.
  - cbn [for_up]. do 2 f_equal. lia.
  - pose proof (tail_ok (fun a b => Z.lor b a) inp (io + alnlen w len)
       (app_win Z.lor inp io out oo (alnlen w len)) (oo + alnlen w len) 1) as T.
    cbn [for_up] in T |- *. rewrite !Nat.add_0_r in T.
    rewrite T by (rewrite ?length_app_win; lia).
    assert (Q : forall a b, zipw (fun x y => Z.lor y x) a b = zipw Z.lor a b).
    { induction a as [|x a IH]; intros [|y b]; cbn; auto. rewrite IH, Z.lor_comm. reflexivity. }
    unfold app_win at 1. rewrite Q.
    fold (app_win Z.lor inp (io + alnlen w len) (app_win Z.lor inp io out oo (alnlen w len)) (oo + alnlen w len) 1).
    rewrite app_win_step by lia. do 2 f_equal. lia.
Qed.

(** with a tail of two bytes or more, the bytes after the first tail byte are untouched *)
Lemma const_tail_ok f pctr inp io out oo len : (io + len <= length inp)%nat -> (oo + len <= length out)%nat ->
  (pctr < len)%nat ->
  exists v, const_tail f pctr inp io out oo len = Ok (upd out (oo + pctr) v).
Proof.
  intros Hi Ho Hp. unfold const_tail.
  destruct (for_up_inv (fun i s => length s = length out /\ exists v, s = upd out (oo + pctr) v)
    (fun _ out => a <- get inp (io + pctr) ;; b <- get out (oo + pctr) ;; put out (oo + pctr) (f b a))
    0 (len - pctr) out) as (r & E & _ & v & R).
  - split; [reflexivity|]. exists (nth (oo + pctr) out 0). apply (list_ext 0); [len|]. intros i Hi'.
    destruct (Nat.eq_dec (oo + pctr) i) as [<-|]; [rewrite nth_upd_same by lia; reflexivity|now rewrite nth_upd_other].
  - intros j s Hj (Ls & v & ->). rewrite (get_ok inp _ 0) by lia. cbn [bind].
    rewrite (get_ok _ _ 0) by lia. cbn [bind]. rewrite put_ok by lia. eexists; split; [reflexivity|].
    split; [len|]. eexists. apply (list_ext 0); [len|]. intros i Hi'.
    destruct (Nat.eq_dec (oo + pctr) i) as [<-|N].
    + rewrite !nth_upd_same by len. reflexivity.
    + rewrite !nth_upd_other by assumption. reflexivity.
  - exists v. now rewrite E, R.
Qed.

Lemma XorPad_ok w out n : XorPad w out n = Ok (map (fun x => Z.lxor x n) out).
Proof.
  unfold XorPad. set (aln := match w with O => 0%nat | _ => (length out / w * w)%nat end).
  assert (L : (aln <= length out)%nat).
  { unfold aln. destruct w; [lia|]. rewrite Nat.mul_comm. apply Nat.mul_div_le. lia. }
  set (P := fun k : nat => map (fun x => Z.lxor x n) (firstn k out) ++ skipn k out).
  assert (LP : forall k, length (P k) = length out).
  { intros k. unfold P. rewrite app_length, map_length, firstn_length, skipn_length. lia. }
  assert (ST : forall k m, (k + m <= length out)%nat ->
     splice (P k) k (map (fun x => Z.lxor x n) (slice (P k) k m)) = P (k + m)%nat).
  { intros k m H.
    assert (S1 : slice (P k) k m = slice out k m).
    { unfold slice. f_equal. unfold P. rewrite skipn_app, map_length, firstn_length, Nat.min_l by lia.
      rewrite skipn_all2 by (rewrite map_length, firstn_length; lia). now rewrite Nat.sub_diag. }
    rewrite S1. unfold splice. rewrite map_length, length_slice by lia.
    assert (F1 : firstn k (P k) = map (fun x => Z.lxor x n) (firstn k out)).
    { unfold P. rewrite firstn_app, map_length, firstn_length, Nat.min_l, Nat.sub_diag by lia.
      cbn [firstn]. rewrite app_nil_r. apply firstn_all2. rewrite map_length, firstn_length. lia. }
    assert (F2 : skipn (k + m) (P k) = skipn (k + m) out).
    { unfold P. rewrite skipn_app, map_length, firstn_length, Nat.min_l by lia.
      rewrite skipn_all2 by (rewrite map_length, firstn_length; lia). cbn [app].
      rewrite skipn_skipn. f_equal. lia. }
    rewrite F1, F2. unfold P. rewrite app_assoc, <- map_app. f_equal. f_equal.
    pose proof (slice_app out 0 k m) as SA. unfold slice in SA at 1 2. cbn [skipn Nat.add] in SA.
    symmetry. exact SA. }
  assert (P0 : P 0%nat = out) by reflexivity.
  assert (E1 : for_up 0 (aln / w) (fun i out => b <- rd out (i * w) w ;; wr out (i * w) (map (fun x => Z.lxor x n) b)) out
     = Ok (P aln)).
  { destruct (Nat.eq_dec w 0) as [->|Hw]; [cbn; reflexivity|].
    assert (M : (aln / w * w = aln)%nat).
    { unfold aln. destruct w; [lia|]. now rewrite Nat.div_mul by lia. }
    destruct (for_up_inv (fun i s => s = P (i * w)%nat)
       (fun i out => b <- rd out (i * w) w ;; wr out (i * w) (map (fun x => Z.lxor x n) b)) 0 (aln / w) out)
      as (r & E & R).
    - now rewrite Nat.mul_0_l.
    - intros j s Hj ->. assert (j * w + w <= aln)%nat by nia.
      rewrite rd_ok by (rewrite LP; lia). cbn [bind].
      rewrite wr_ok by (rewrite map_length, length_slice; rewrite LP; lia).
      eexists; split; [reflexivity|]. rewrite ST by lia. f_equal. lia.
    - rewrite E, R. f_equal. f_equal. cbn [Nat.add]. exact M. }
  rewrite E1. cbn [bind].
  destruct (for_up_inv (fun i s => s = P (aln + i)%nat)
     (fun i out => b <- get out (aln + i) ;; put out (aln + i) (Z.lxor b n)) 0 (length out - aln) (P aln)) as (r & E & R).
  - now rewrite Nat.add_0_r.
  - intros j s Hj ->. rewrite (get_ok _ _ 0) by (rewrite LP; lia). cbn [bind].
    rewrite put_ok by (rewrite LP; lia). eexists; split; [reflexivity|].
    replace (aln + S j)%nat with (aln + j + 1)%nat by lia. rewrite <- (ST (aln + j)%nat 1%nat) by lia.
    rewrite (slice_cons 0) by (rewrite LP; lia). unfold slice; cbn [firstn map].
    apply upd_as_splice. rewrite LP; lia.
  - rewrite E, R. f_equal. unfold P. replace (aln + (0 + (length out - aln)))%nat with (length out) by lia.
    rewrite firstn_all, skipn_all. apply app_nil_r.
Qed.

(** property glue *)
Lemma c06_xor w inp io out oo len : (io + len <= length inp)%nat -> (oo + len <= length out)%nat ->
  exists r, MemXOR w inp io out oo len = Ok r /\ length r = length out /\
    (forall i, (i < len)%nat -> nth (oo + i) r 0 = Z.lxor (nth (oo + i) out 0) (nth (io + i) inp 0)) /\
    (forall i, (i < oo \/ oo + len <= i)%nat -> nth i r 0 = nth i out 0).
Proof.
  intros. rewrite MemXOR_ok by auto. eexists; split; [reflexivity|].
  assert (L : length (xorl (slice inp io len) (slice out oo len)) = len) by len.
  destruct (splice_written out oo (xorl (slice inp io len) (slice out oo len)) ltac:(lia)) as (W1 & W2 & W3).
  rewrite L in *. split; [exact W1|]. split; [|exact W3].
  intros i Hi. rewrite W2 by lia. rewrite nth_xorl by len. rewrite !nth_slice by lia. apply Z.lxor_comm.
Qed.
Lemma c06_copy w inp io out oo len : (io + len <= length inp)%nat -> (oo + len <= length out)%nat ->
  exists r, MemCopy w inp io out oo len = Ok r /\ written out r oo (slice inp io len).
Proof. intros. rewrite MemCopy_ok by auto. eexists; split; [reflexivity|]. apply splice_written. len. Qed.
Lemma c06_set w out o len v : (o + len <= length out)%nat ->
  exists r, MemSet w out o len v = Ok r /\ written out r o (repeat v len).
Proof. intros. rewrite MemSet_ok by auto. eexists; split; [reflexivity|]. apply splice_written. len. Qed.

Lemma app_win_spec f inp io out oo len : (io + len <= length inp)%nat -> (oo + len <= length out)%nat ->
  length (app_win f inp io out oo len) = length out /\
  (forall i, (i < len)%nat -> nth (oo + i) (app_win f inp io out oo len) 0 = f (nth (io + i) inp 0) (nth (oo + i) out 0)) /\
  (forall i, (i < oo \/ oo + len <= i)%nat -> nth i (app_win f inp io out oo len) 0 = nth i out 0).
Proof.
  intros. unfold app_win.
  assert (L : length (zipw f (slice inp io len) (slice out oo len)) = len) by (rewrite zipw_length; len).
  destruct (splice_written out oo (zipw f (slice inp io len) (slice out oo len)) ltac:(lia)) as (W1 & W2 & W3).
  rewrite L in *. split; [exact W1|]. split; [|exact W3].
  intros i Hi. rewrite W2 by lia. rewrite zipw_nth by len. now rewrite !nth_slice by lia.
Qed.

Lemma aligned_alnlen w len : w <> 0%nat -> (len mod w <= 1)%nat -> (w <= len)%nat -> (len <= alnlen w len + 1)%nat.
Proof.
  intros. unfold alnlen. destruct w; [lia|]. destruct (Nat.leb_spec (S w) len); [|lia].
  pose proof (Nat.mod_le len (S w)). lia.
Qed.
Lemma c07_and_aligned w inp io out oo len : (io + len <= length inp)%nat -> (oo + len <= length out)%nat ->
  (w <> 0)%nat -> (w <= len)%nat -> (len mod w <= 1)%nat ->
  exists r, MemAND w inp io out oo len = Ok r /\ length r = length out /\
    (forall i, (i < len)%nat -> nth (oo + i) r 0 = Z.land (nth (io + i) inp 0) (nth (oo + i) out 0)) /\
    (forall i, (i < oo \/ oo + len <= i)%nat -> nth i r 0 = nth i out 0).
Proof.
  intros. rewrite MemAND_aligned by auto using aligned_alnlen. eexists; split; [reflexivity|]. now apply app_win_spec.
Qed.
Lemma c07_or_aligned w inp io out oo len : (io + len <= length inp)%nat -> (oo + len <= length out)%nat ->
  (w <> 0)%nat -> (w <= len)%nat -> (len mod w <= 1)%nat ->
  exists r, MemOR w inp io out oo len = Ok r /\ length r = length out /\
    (forall i, (i < len)%nat -> nth (oo + i) r 0 = Z.lor (nth (io + i) inp 0) (nth (oo + i) out 0)) /\
    (forall i, (i < oo \/ oo + len <= i)%nat -> nth i r 0 = nth i out 0).
Proof.
  intros. rewrite MemOR_aligned by auto using aligned_alnlen. eexists; split; [reflexivity|]. now apply app_win_spec.
Qed.

Lemma mem_op_tail f w inp io out oo len : (io + len <= length inp)%nat -> (oo + len <= length out)%nat ->
  (alnlen w len + 1 < len)%nat ->
  exists r, (o <- vec_loop f w inp io out oo len ;; const_tail f (alnlen w len) inp io o oo len) = Ok r /\
    nth (oo + len - 1) r 0 = nth (oo + len - 1) out 0.
Proof.
  intros Hi Ho Ha. rewrite vec_loop_ok by lia. cbn [bind].
  destruct (const_tail_ok f (alnlen w len) inp io (app_win f inp io out oo (alnlen w len)) oo len Hi
     ltac:(rewrite length_app_win; lia) ltac:(lia)) as (v & E).
  rewrite E. eexists; split; [reflexivity|]. rewrite nth_upd_other by lia.
  apply app_win_spec; lia.
Qed.
Lemma c07_and_tail w inp io out oo len : (io + len <= length inp)%nat -> (oo + len <= length out)%nat ->
  (alnlen w len + 1 < len)%nat ->
  exists r, MemAND w inp io out oo len = Ok r /\ nth (oo + len - 1) r 0 = nth (oo + len - 1) out 0.
Proof. intros. unfold MemAND. destruct len; [lia|]. now apply mem_op_tail. Qed.
Lemma c07_or_tail w inp io out oo len : (io + len <= length inp)%nat -> (oo + len <= length out)%nat ->
  (alnlen w len + 1 < len)%nat ->
  exists r, MemOR w inp io out oo len = Ok r /\ nth (oo + len - 1) r 0 = nth (oo + len - 1) out 0.
Proof. intros. unfold MemOR. destruct len; [lia|]. now apply mem_op_tail. Qed.
