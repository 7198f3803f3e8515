(** Parallel SHA2: the digest does not depend on the split; the root ignores half of the leaves. *)
From Verif Require Import BaseLemmas Spec_Common Spec_Feed Spec_SHA2 Model_IntegerTools Proofs_IntegerTools Proofs_Windows Proofs_Modes5
  Model_Modes Model_Absorb Proofs_Absorb Model_SHA2 Proofs_SHA2obj Model_SHA2Par.
Open Scope Z_scope.

Lemma app_inj_eq {A} : forall (a b c e : list A), length a = length b -> a ++ c = b ++ e -> a = b /\ c = e.
Proof.
  induction a as [|x a IH]; intros [|y b] c e L E; try discriminate L; [auto|].
  injection E as -> E. injection L as L. destruct (IH b c e L E) as (-> & ->). auto.
Qed.
Section par.
Context {S : Type} (rate dig : nat) (permute : S -> list Z -> nat -> res S) (g : S -> list Z -> S) (I : S -> Prop).
Context (hashfinal : list Z -> nat -> nat -> S -> res (S * list Z)) (store : S -> list Z -> nat -> res (list Z)).
Context (iv : S) (root_ge : bool) (hdr : nat -> list Z) (d : nat).
Hypothesis Hrate : (0 < rate)%nat.
Hypothesis Hd : (0 < d)%nat.
Hypothesis Hp : forall s b o, I s -> bytes b -> (o + rate <= length b)%nat -> permute s b o = Ok (g s (slice b o rate)) /\ I (g s (slice b o rate)).
Notation min := (minsize rate d).

Fixpoint gls (i : nat) (ls : list S) (b : list Z) : list S :=
  match ls with [] => [] | s :: t => g s (slice b (i * rate) rate) :: gls (Datatypes.S i) t b end.
Definition IL (ls : list S) : Prop := length ls = d /\ Forall I ls.
Lemma gls_len b : forall ls i, length (gls i ls b) = length ls.
Proof. clear Hp. induction ls; intros; cbn [gls length]; auto. Qed.
Lemma min_pos : (0 < min)%nat. Proof. clear Hp. unfold minsize. nia. Qed.

Lemma absorb_from inp io : bytes inp -> (io + min <= length inp)%nat -> forall ls i, (i + length ls <= d)%nat -> Forall I ls ->
  each_leaf i (fun i s => permute s inp (io + i * rate)) ls = Ok (gls i ls (slice inp io min)) /\ Forall I (gls i ls (slice inp io min)).
Proof.
  intros Hb Hl. induction ls as [|s t IH]; intros i Hi HI; [split; [reflexivity|constructor]|].
  inversion HI; subst. cbn [each_leaf gls length] in *.
  assert ((i + 1) * rate <= min)%nat by (unfold minsize; nia).
  assert (E : slice (slice inp io min) (i * rate) rate = slice inp (io + i * rate) rate) by (apply slice_slice; lia).
  destruct (Hp s inp (io + i * rate)%nat) as (P1 & P2); auto; [lia|]. rewrite P1. cbn [bind].
  destruct (IH (Datatypes.S i)) as (-> & Q); auto; [lia|]. cbn [bind]. rewrite E. split; [reflexivity|]. constructor; auto.
Qed.
Lemma absorb_ok inp io ls : IL ls -> bytes inp -> (io + min <= length inp)%nat ->
  par_absorb rate permute ls inp io = Ok (gls 0 ls (slice inp io min)) /\ IL (gls 0 ls (slice inp io min)).
Proof.
  intros (L & F) Hb Hl. unfold par_absorb. destruct (absorb_from inp io Hb Hl ls 0) as (-> & Q); auto; [lia|].
  split; [reflexivity|]. split; [now rewrite gls_len|auto].
Qed.
(** ProcessLeaf on k strides *)
Definition strides (inp : list Z) (io k : nat) : list (list Z) := map (fun j => slice inp (io + min * j) min) (seq 0 k).
Lemma strides_S inp io k : strides inp io (Datatypes.S k) = slice inp io min :: strides inp (io + min) k.
Proof.
  clear Hp. unfold strides. cbn [seq map]. rewrite Nat.mul_0_r, Nat.add_0_r. f_equal. rewrite <- seq_shift, map_map. apply map_ext. intros j. f_equal. lia.
Qed.
Lemma strides_concat inp k : forall io, concat (strides inp io k) = slice inp io (k * min).
Proof. clear Hp. induction k; intros io; [reflexivity|]. rewrite strides_S. cbn [concat Nat.mul]. rewrite slice_app, IHk. reflexivity. Qed.
Lemma strides_blk inp k : bytes inp -> forall io, (io + k * min <= length inp)%nat -> Forall (Proofs_Absorb.blk min) (strides inp io k).
Proof.
  clear Hp. intros Hb. induction k; intros io H; [constructor|]. rewrite strides_S. cbn [Nat.mul] in H. constructor.
  - split; [now apply bytes_slice|apply length_slice; lia].
  - apply IHk. lia.
Qed.
Lemma leaf_ok inp i : bytes inp -> (i < d)%nat -> forall k fuel io s, (0 < k <= fuel)%nat -> (io + k * min <= length inp)%nat -> I s ->
  ProcessLeaf rate permute d fuel inp (io + i * rate) s (k * min) = Ok (fold_left (fun s b => g s (slice b (i * rate) rate)) (strides inp io k) s)
  /\ I (fold_left (fun s b => g s (slice b (i * rate) rate)) (strides inp io k) s).
Proof.
  intros Hb Hi. induction k as [|k IH]; intros fuel io s Hk Hl HI; [lia|].
  destruct fuel as [|f]; [lia|]. cbn [ProcessLeaf].
  assert ((i + 1) * rate <= min)%nat by (unfold minsize; nia). cbn [Nat.mul] in *.
  destruct (Hp s inp (io + i * rate)%nat) as (P1 & P2); auto; [lia|]. rewrite P1. cbn [bind].
  replace (min <=? min + k * min)%nat with true by (symmetry; apply Nat.leb_le; lia). cbn [safe bind].
  rewrite strides_S. cbn [fold_left]. rewrite slice_slice by lia.
  replace (min + k * min - min)%nat with (k * min)%nat by lia. pose proof min_pos.
  destruct k as [|k]; [cbn; auto|].
  replace (Datatypes.S k * min =? 0)%nat with false by (symmetry; apply Nat.eqb_neq; nia).
  replace (io + i * rate + min)%nat with (io + min + i * rate)%nat by lia. apply IH; auto; lia.
Qed.
Lemma fold_gls bs : forall ls i, fold_left (fun ls b => gls i ls b) bs ls =
  map (fun p => fold_left (fun s b => g s (slice b (fst p * rate) rate)) bs (snd p)) (combine (seq i (length ls)) ls).
Proof.
  clear Hp. induction bs as [|b bs IH]; intros ls i.
  - cbn [fold_left]. revert i. induction ls as [|s t IHt]; intros i; [reflexivity|]. cbn [length seq combine map snd]. f_equal. apply IHt.
  - cbn [fold_left]. rewrite IH, gls_len. clear IH. revert i. induction ls as [|s t IHt]; intros i; [reflexivity|].
    cbn [length seq combine map fst snd gls]. f_equal. apply IHt.
Qed.
Lemma leaves_from inp io k : bytes inp -> (0 < k)%nat -> (io + k * min <= length inp)%nat -> forall ls i, (i + length ls <= d)%nat -> Forall I ls ->
  each_leaf i (fun i s => ProcessLeaf rate permute d (k * min) inp (io + i * rate) s (k * min)) ls
  = Ok (map (fun p => fold_left (fun s b => g s (slice b (fst p * rate) rate)) (strides inp io k) (snd p)) (combine (seq i (length ls)) ls))
  /\ Forall I (map (fun p => fold_left (fun s b => g s (slice b (fst p * rate) rate)) (strides inp io k) (snd p)) (combine (seq i (length ls)) ls)).
Proof.
  intros Hb Hk Hl. induction ls as [|s t IH]; intros i Hi HI; [split; [reflexivity|constructor]|].
  inversion HI; subst. cbn [each_leaf length seq combine map fst snd] in *. pose proof min_pos.
  destruct (leaf_ok inp i Hb ltac:(lia) k (k * min) io s) as (-> & P2); auto; [nia|]. cbn [bind].
  destruct (IH (Datatypes.S i)) as (-> & Q); auto; lia.
Qed.
Lemma leaves_ok inp io k ls : IL ls -> bytes inp -> (0 < k)%nat -> (io + k * min <= length inp)%nat ->
  process_leaves rate permute d ls inp io (k * min) = Ok (fold_left (gls 0) (strides inp io k) ls) /\ IL (fold_left (gls 0) (strides inp io k) ls).
Proof.
  intros (L & F) Hb Hk Hl. change (gls 0) with (fun ls b => gls 0 ls b). rewrite fold_gls. unfold process_leaves.
  destruct (leaves_from inp io k Hb Hk Hl ls 0) as (-> & Q); auto; [lia|]. split; [reflexivity|]. split; [|exact Q].
  rewrite map_length, combine_length, seq_length. lia.
Qed.

Definition pinv (ls0 : list S) (m : list Z) (o : pobj) : Prop := ainv min min (gls 0) IL false ls0 m o.
Lemma bulk pblk c ls inp io len : (0 < c)%nat -> pblk = (c * min)%nat -> IL ls -> bytes inp -> (io + len <= length inp)%nat ->
  exists k, (if (pblk <=? len)%nat then
            _ <- safe (negb (pblk =? 0))%nat ;;
            let prc := (len - len mod pblk)%nat in
            ls <- process_leaves rate permute d ls inp io prc ;; Ok (ls, (io + prc)%nat, (len - prc)%nat)
          else Ok (ls, io, len)) = Ok (fold_left (gls 0) (strides inp io k) ls, (io + k * min)%nat, (len - k * min)%nat) /\
  IL (fold_left (gls 0) (strides inp io k) ls) /\ (k * min <= len)%nat /\ (len - k * min < pblk)%nat.
Proof.
  intros Hc -> HI Hb Hl. pose proof min_pos. destruct (Nat.leb_spec (c * min) len) as [G|G].
  - replace (c * min =? 0)%nat with false by (symmetry; apply Nat.eqb_neq; nia). cbn [negb safe bind].
    pose proof (Nat.div_mod len (c * min) ltac:(nia)) as DM. pose proof (Nat.mod_upper_bound len (c * min) ltac:(nia)) as MB.
    assert (Q : (0 < len / (c * min))%nat) by (apply Nat.div_str_pos; nia).
    exists (c * (len / (c * min)))%nat.
    replace (len - len mod (c * min))%nat with (c * (len / (c * min)) * min)%nat by lia. cbv zeta.
    destruct (leaves_ok inp io (c * (len / (c * min))) ls) as (-> & J); auto; [nia|lia|]. cbn [bind].
    split; [reflexivity|split; [exact J|split; lia]].
  - exists 0%nat. cbn [Nat.mul strides seq map fold_left]. rewrite Nat.add_0_r, Nat.sub_0_r. split; [reflexivity|split; [exact HI|split; lia]].
Qed.
Lemma update_ok pblk c ls0 m o inp io len : (0 < c)%nat -> pblk = (c * min)%nat -> pinv ls0 m o -> bytes inp -> (io + len <= length inp)%nat ->
  exists o', par_update rate permute d pblk o inp io len = Ok o' /\ pinv ls0 (m ++ slice inp io len) o'.
Proof.
  destruct o as ((ls & buf) & pos). intros Hc Hpb (Is & Bb & Lb & P & bs & Hbs & Hm & Hs) Hi Hl. unfold par_update. pose proof min_pos as Hmin.
  destruct (Nat.eqb_spec len 0) as [->|N].
  { eexists. split; [reflexivity|]. rewrite slice_n0, app_nil_r. split; [exact Is|split; [exact Bb|split; [exact Lb|split; [exact P|]]]]. now exists bs. }
  (* after the fill step *)
  assert (T : forall ls buf bs io len, IL ls -> bytes buf -> length buf = min -> Forall (Proofs_Absorb.blk min) bs -> ls = fold_left (gls 0) bs ls0 -> (io + len <= length inp)%nat ->
    exists o', (r <- (if (pblk <=? len)%nat then
            _ <- safe (negb (pblk =? 0))%nat ;;
            let prc := (len - len mod pblk)%nat in
            ls <- process_leaves rate permute d ls inp io prc ;; Ok (ls, (io + prc)%nat, (len - prc)%nat)
          else Ok (ls, io, len)) ;;
    let '(ls, io, len) := r in
    r <- (if (min <=? len)%nat then
            _ <- safe (negb (min =? 0))%nat ;;
            let prm := (len - len mod min)%nat in
            ls <- process_leaves rate permute d ls inp io prm ;; Ok (ls, (io + prm)%nat, (len - prm)%nat)
          else Ok (ls, io, len)) ;;
    let '(ls, io, len) := r in
    if (len =? 0)%nat then Ok (ls, buf, 0%nat)
    else buf <- wcopy inp io buf 0 len ;; Ok (ls, buf, (0 + len)%nat)) = Ok o' /\ pinv ls0 (concat bs ++ slice inp io len) o').
  { clear ls buf pos bs io len Is Bb Lb P Hbs Hm Hs Hl N. intros ls buf bs io len Is Bb Lb Hbs Hs Hl.
    destruct (bulk pblk c ls inp io len Hc Hpb Is Hi Hl) as (k1 & -> & I1 & K1 & R1). cbn [bind].
    set (ls1 := fold_left _ (strides inp io k1) ls) in *.
    destruct (bulk min 1 ls1 inp (io + k1 * min) (len - k1 * min)) as (k2 & E' & I2 & K2 & R2); auto; try lia. cbv zeta in E'. cbv zeta. rewrite E'. cbn [bind]. clear E'.
    set (ls2 := fold_left _ (strides inp (io + k1 * min) k2) ls1) in *.
    set (rl := (len - k1 * min - k2 * min)%nat) in *. set (io' := (io + k1 * min + k2 * min)%nat) in *.
    assert (D : slice inp io len = concat (strides inp io k1 ++ strides inp (io + k1 * min) k2) ++ slice inp io' rl).
    { rewrite concat_app, !strides_concat. replace len with (k1 * min + (k2 * min + rl))%nat by lia. rewrite !slice_app. rewrite <- !app_assoc. reflexivity. }
    assert (F : Forall (Proofs_Absorb.blk min) (bs ++ strides inp io k1 ++ strides inp (io + k1 * min) k2)).
    { apply Forall_app. split; [exact Hbs|]. apply Forall_app. split; apply strides_blk; auto; lia. }
    assert (E2 : ls2 = fold_left (gls 0) (bs ++ strides inp io k1 ++ strides inp (io + k1 * min) k2) ls0).
    { rewrite !fold_left_app, <- Hs. reflexivity. }
    destruct (Nat.eqb_spec rl 0) as [Z0|Z0].
    - eexists. split; [reflexivity|]. split; [exact I2|split; [exact Bb|split; [exact Lb|split; [lia|]]]].
      exists (bs ++ strides inp io k1 ++ strides inp (io + k1 * min) k2). split; [exact F|split; [|exact E2]].
      rewrite D, Z0, !slice_n0, !app_nil_r, !concat_app. reflexivity.
    - rewrite wcopy_ok by lia. cbn [bind]. eexists. split; [reflexivity|].
      assert (Lt : length (slice inp io' rl) = rl) by (apply length_slice; lia).
      split; [exact I2|split; [apply bytes_splice; auto; now apply bytes_slice|split; [rewrite length_splice; lia|split; [lia|]]]].
      exists (bs ++ strides inp io k1 ++ strides inp (io + k1 * min) k2). split; [exact F|split; [|exact E2]].
      rewrite slice_wcopy_front by lia. rewrite slice_n0. cbn [app]. rewrite D, !concat_app, <- !app_assoc. reflexivity. }
  destruct (Nat.eqb_spec pos 0) as [P0|P0].
  - subst pos. cbn [negb andb bind]. rewrite slice_n0, app_nil_r in Hm. subst m. apply (T ls buf bs io len); auto.
  - cbn [negb andb]. rewrite Lb. destruct (Nat.leb_spec min (len + pos)) as [G|G].
    + replace (pos <=? min)%nat with true by (symmetry; apply Nat.leb_le; lia). cbn [safe bind].
      rewrite wcopy_ok by lia. cbn [bind].
      assert (Lw : length (slice inp io (min - pos)) = (min - pos)%nat) by (apply length_slice; lia).
      destruct (buf_block (S := S) min min g (conj Hmin (le_n _)) buf pos (slice inp io (min - pos))) as (B1 & B2 & B3); auto using bytes_slice; try lia.
      set (buf1 := splice buf pos _) in *.
      destruct (absorb_ok buf1 0 ls Is B1 ltac:(lia)) as (-> & I1). cbn [bind].
      destruct (T (gls 0 ls (slice buf1 0 min)) buf1 (bs ++ [slice buf1 0 min]) (io + (min - pos))%nat (len - (min - pos))%nat) as (o' & E & J); auto; try lia.
      * apply Forall_app. split; [exact Hbs|]. constructor; [|constructor]. split; [now apply bytes_slice|apply length_slice; lia].
      * rewrite fold_left_app, <- Hs. reflexivity.
      * exists o'. split; [exact E|]. replace (m ++ slice inp io len) with (concat (bs ++ [slice buf1 0 min]) ++ slice inp (io + (min - pos)) (len - (min - pos))); [exact J|].
        rewrite concat_app. cbn [concat]. rewrite app_nil_r, B3, Hm. replace len with ((min - pos) + (len - (min - pos)))%nat at 2 by lia. rewrite slice_app, <- !app_assoc. reflexivity.
    + cbn [bind]. replace (pblk <=? len)%nat with false by (symmetry; apply Nat.leb_gt; subst pblk; nia). cbn [bind].
      replace (min <=? len)%nat with false by (symmetry; apply Nat.leb_gt; lia). cbn [bind].
      replace (len =? 0)%nat with false by (symmetry; apply Nat.eqb_neq; lia). rewrite wcopy_ok by lia. cbn [bind]. eexists. split; [reflexivity|].
      assert (Lt : length (slice inp io len) = len) by (apply length_slice; lia).
      split; [exact Is|split; [apply bytes_splice; auto; now apply bytes_slice|split; [rewrite length_splice; lia|split; [lia|]]]].
      exists bs. split; [exact Hbs|split; [|exact Hs]]. rewrite slice_wcopy_front by lia. now rewrite Hm, app_assoc.
Qed.
Lemma par_feed pblk c ls0 m o ps : (0 < c)%nat -> pblk = (c * min)%nat -> Forall p_ok ps -> pinv ls0 m o ->
  exists o', feed (par_update rate permute d pblk) ps o = Ok o' /\ pinv ls0 (m ++ joined ps) o'.
Proof. intros Hc Hpb HF HI. apply (feed_inv _ (pinv ls0)); auto. intros. eapply update_ok; eauto. Qed.

(** the new object *)
Hypothesis Iiv : I iv.
Hypothesis Hh : forall i, bytes (hdr i) /\ length (hdr i) = rate.
Definition leaf0 (i : nat) : S := g iv (hdr i).
Lemma new_from n : forall i, each_leaf i (fun i s => permute s (hdr i) 0) (repeat iv n) = Ok (map leaf0 (seq i n)) /\ Forall I (map leaf0 (seq i n)).
Proof.
  induction n as [|n IH]; intros i; [split; [reflexivity|constructor]|]. cbn [repeat each_leaf seq map].
  destruct (Hh i) as (H1 & H2). destruct (Hp iv (hdr i) 0%nat) as (P1 & P2); auto; [lia|]. rewrite P1. cbn [bind].
  rewrite slice_all in * by auto. destruct (IH (Datatypes.S i)) as (-> & Q). cbn [bind]. split; [reflexivity|]. constructor; auto.
Qed.
Lemma new_ok : exists o, par_new rate permute iv hdr d = Ok o /\ pinv (map leaf0 (seq 0 d)) [] o.
Proof.
  unfold par_new. destruct (new_from d 0) as (-> & Q). cbn [bind]. eexists. split; [reflexivity|].
  apply ainv_start; auto.
  - pose proof min_pos. lia.
  - split; auto. now rewrite map_length, seq_length.
  - apply bytes_zeros.
  - apply length_zeros.
Qed.
(** what Finalize sees depends only on the message *)
Lemma blocks_unique (R : nat) : forall bs1 bs2 t1 t2, (0 < R)%nat -> Forall (Proofs_Absorb.blk R) bs1 -> Forall (Proofs_Absorb.blk R) bs2 -> (length t1 < R)%nat -> (length t2 < R)%nat ->
  concat bs1 ++ t1 = concat bs2 ++ t2 -> bs1 = bs2 /\ t1 = t2.
Proof.
  clear. induction bs1 as [|b1 bs1 IH]; intros [|b2 bs2] t1 t2 HR F1 F2 L1 L2 E; cbn [concat app] in E.
  - auto.
  - apply Forall_inv in F2. destruct F2 as (_ & Hb). rewrite <- app_assoc in E. rewrite E in L1. rewrite app_length in L1. lia.
  - apply Forall_inv in F1. destruct F1 as (_ & Hb). rewrite <- app_assoc in E. rewrite <- E in L2. rewrite app_length in L2. lia.
  - inversion F1 as [|? ? (_ & Hb1) F1']; inversion F2 as [|? ? (_ & Hb2) F2']; subst. rewrite <- !app_assoc in E.
    assert (X : b1 = b2 /\ concat bs1 ++ t1 = concat bs2 ++ t2).
    { apply app_inj_eq; [congruence|exact E]. }
    destruct X as (-> & X). destruct (IH bs2 t1 t2) as (-> & ->); auto.
Qed.
Definition cleared (o : pobj) : list S * list Z * nat := let '(ls, buf, pos) := o in (ls, slice buf 0 pos, pos).
Lemma pinv_unique ls0 m o1 o2 : pinv ls0 m o1 -> pinv ls0 m o2 -> cleared o1 = cleared o2.
Proof.
  clear Iiv Hh Hp. destruct o1 as ((ls1 & b1) & p1), o2 as ((ls2 & b2) & p2).
  intros (_ & _ & L1 & P1 & bs1 & F1 & D1 & S1) (_ & _ & L2 & P2 & bs2 & F2 & D2 & S2). cbn [cleared].
  assert (Q1 : length (slice b1 0 p1) = p1) by (apply length_slice; lia). assert (Q2 : length (slice b2 0 p2) = p2) by (apply length_slice; lia).
  destruct (blocks_unique min bs1 bs2 (slice b1 0 p1) (slice b2 0 p2)) as (-> & E); auto using min_pos; try lia; [congruence|].
  rewrite E in *. subst ls1 ls2. f_equal. lia.
Qed.
Lemma finalize_cleared ls0 m o1 o2 out oo : pinv ls0 m o1 -> pinv ls0 m o2 ->
  par_finalize rate dig permute hashfinal store iv root_ge hdr d o1 out oo = par_finalize rate dig permute hashfinal store iv root_ge hdr d o2 out oo.
Proof.
  intros H1 H2. pose proof (pinv_unique ls0 m o1 o2 H1 H2) as E. clear Iiv Hh Hp. destruct o1 as ((ls1 & b1) & p1), o2 as ((ls2 & b2) & p2).
  destruct H1 as (_ & _ & L1 & P1 & _). destruct H2 as (_ & _ & L2 & P2 & _). cbn [cleared] in E. injection E as -> E ->.
  unfold par_finalize. rewrite L1, L2. replace (p2 <? min)%nat with true by (symmetry; apply Nat.ltb_lt; lia).
  assert (C : forall b, length b = min -> wr b p2 (zeros (min - p2)) = Ok (slice b 0 p2 ++ zeros (min - p2))).
  { intros b Lb. rewrite wr_ok by (rewrite length_zeros; lia). f_equal. unfold splice, slice. rewrite skipn_O. f_equal. rewrite skipn_all2 by (rewrite length_zeros; lia). apply app_nil_r. }
  rewrite !C, E by auto. reflexivity.
Qed.

(** * the root *)
Context (w : S -> list Z).
Hypothesis Hdig : rate = (2 * dig)%nat.
Hypothesis Hst : forall s out oo, I s -> (oo + dig <= length out)%nat -> store s out oo = Ok (splice out oo (w s)).
Hypothesis Hwl : forall s, I s -> length (w s) = dig /\ bytes (w s).
Lemma stored ls : IL ls ->
  for_up 0 (length ls) (fun i buf => match nth_error ls i with Some s => store s buf (i * rate) | None => UB end) (zeros min) = Ok (concat (map (fun s => w s ++ zeros dig) ls)).
Proof.
  intros (L & F). 
  match goal with |- for_up _ _ ?f _ = _ => destruct (for_up_inv (fun i buf => buf = concat (map (fun s => w s ++ zeros dig) (firstn i ls)) ++ zeros ((d - i) * rate)) f 0 (length ls) (zeros min)) as (buf & E & G) end.
  - cbn [firstn map concat app]. now rewrite Nat.sub_0_r.
  - intros i buf Hi ->. destruct (nth_error ls i) as [s|] eqn:N; [|apply nth_error_None in N; lia].
    assert (Is : I s) by (rewrite Forall_forall in F; apply F; eapply nth_error_In; eauto).
    destruct (Hwl s Is) as (W1 & W2).
    assert (LC : length (concat (map (fun s => w s ++ zeros dig) (firstn i ls))) = (i * rate)%nat).
    { rewrite (concat_length_eq rate).
      - rewrite map_length, firstn_length. f_equal. lia.
      - intros b Hb. apply in_map_iff in Hb. destruct Hb as (s' & <- & Hin). rewrite app_length, length_zeros.
        destruct (Hwl s') as (-> & _); [|lia]. rewrite Forall_forall in F. apply F. clear -Hin. revert i Hin. induction ls as [|x t IH]; intros [|i] H; cbn in H; try tauto. destruct H; [now left|right; eauto]. }
    assert (M : min = (i * rate + rate + (d - Datatypes.S i) * rate)%nat) by (unfold minsize; nia).
    rewrite Hst; auto.
    + eexists. split; [reflexivity|]. replace ((d - i) * rate)%nat with (dig + (dig + (d - Datatypes.S i) * rate))%nat by nia.
      rewrite zeros_app, splice_mid by (rewrite ?length_zeros; lia).
      assert (FS : firstn (Datatypes.S i) ls = firstn i ls ++ [s]).
      { clear -N. revert i N. induction ls as [|x t IH]; intros [|i] H; try discriminate H.
        - injection H as ->. reflexivity.
        - cbn [firstn app]. f_equal. apply IH. exact H. }
      rewrite FS, map_app, concat_app. cbn [map concat]. rewrite app_nil_r, zeros_app, <- !app_assoc. reflexivity.
    + rewrite app_length, length_zeros, LC. nia.
  - rewrite E. f_equal. subst buf. rewrite Nat.add_0_l, L, Nat.sub_diag. cbn [Nat.mul zeros repeat]. rewrite app_nil_r. rewrite firstn_all2 by lia. reflexivity.
Qed.
(** the bytes the root reads: the first half of the leaves, each followed by [dig] zero bytes *)
Definition root_msg (ls : list S) : list Z := concat (map (fun s => w s ++ zeros dig) (firstn (d / 2) ls)).
Lemma wz_blk ls : Forall I ls -> Forall (Proofs_Absorb.blk rate) (map (fun s => w s ++ zeros dig) ls).
Proof.
  intros F. apply Forall_forall. intros b Hb. apply in_map_iff in Hb. destruct Hb as (s & <- & Hin). rewrite Forall_forall in F. destruct (Hwl s (F s Hin)) as (A & B).
  split; [apply bytes_app; split; [exact B|apply bytes_zeros]|]. rewrite app_length, length_zeros. lia.
Qed.
Lemma root_absorb bs rest : Forall (Proofs_Absorb.blk rate) bs -> bytes rest ->
  for_up 0 (length bs) (fun i s => permute s (concat bs ++ rest) (i * rate)) iv = Ok (fold_left g bs iv) /\ I (fold_left g bs iv).
Proof.
  intros F HB. assert (BB : bytes (concat bs ++ rest)).
  { apply bytes_app. split; [|exact HB]. clear -F. induction F as [|b t (Hb & _) _ IH]; [constructor|]. cbn [concat]. apply bytes_app. auto. }
  destruct (for_up_inv (fun i s => s = fold_left g (firstn i bs) iv /\ I s) (fun i s => permute s (concat bs ++ rest) (i * rate)) 0 (length bs) iv) as (s & E & G & J).
  - split; [reflexivity|exact Iiv].
  - intros i s Hi (-> & J). 
    assert (LS : bs = firstn i bs ++ nth i bs [] :: skipn (Datatypes.S i) bs).
    { rewrite <- (firstn_skipn i bs) at 1. f_equal. clear -Hi. revert i Hi. induction bs as [|b t IH]; intros i Hi; cbn [length] in Hi; [lia|]. destruct i; [reflexivity|]. cbn [skipn nth]. apply IH. lia. }
    assert (LC : length (concat (firstn i bs)) = (i * rate)%nat).
    { rewrite (concat_len rate); [rewrite firstn_length; f_equal; lia|]. rewrite LS in F. now apply Forall_app in F. }
    assert (Lb : length (nth i bs []) = rate). { rewrite Forall_forall in F. apply F. apply nth_In. lia. }
    assert (SL : slice (concat bs ++ rest) (i * rate) rate = nth i bs []).
    { rewrite LS at 1. rewrite concat_app. cbn [concat]. rewrite <- !app_assoc. unfold slice. rewrite skipn_app, skipn_all2 by lia.
      cbn [app]. rewrite LC, Nat.sub_diag. cbn [skipn]. rewrite <- Lb at 1. rewrite firstn_app, firstn_all, Nat.sub_diag. cbn [firstn]. apply app_nil_r. }
    destruct (Hp (fold_left g (firstn i bs) iv) (concat bs ++ rest) (i * rate)%nat) as (-> & P2); auto.
    + rewrite app_length, (concat_len rate) by auto. nia.
    + rewrite SL in *. eexists. split; [reflexivity|]. split; [|exact P2].
      assert (FS : firstn (Datatypes.S i) bs = firstn i bs ++ [nth i bs []]).
      { rewrite LS at 1. rewrite firstn_app, firstn_length, Nat.min_l by lia. rewrite firstn_all2 by (rewrite firstn_length; lia). replace (Datatypes.S i - i)%nat with 1%nat by lia. reflexivity. }
      rewrite FS, fold_left_app. reflexivity.
  - rewrite E. rewrite Nat.add_0_l, firstn_all in G. subst s. auto.
Qed.
(** Finalize is defined on every message and writes one digest *)
Section total.
Hypothesis HF : forall buf io n s, I s -> bytes buf -> (io + rate <= length buf)%nat -> (n <= rate)%nat ->
  exists s' buf', hashfinal buf io n s = Ok (s', buf') /\ I s' /\ bytes buf' /\ length buf' = length buf.
Lemma finish_total : forall fuel ls buf k pos, (fuel = d - k)%nat -> IL ls -> bytes buf -> length buf = min -> (pos <= (d - k) * rate)%nat -> (k <= d)%nat ->
  exists ls' buf', finish_leaves rate hashfinal fuel ls buf k pos = Ok (ls', buf') /\ IL ls' /\ bytes buf' /\ length buf' = min.
Proof.
  induction fuel as [|fuel IH]; intros ls buf k pos Hf Hl Hb Lb Hpos Hk.
  - replace pos with 0%nat by nia. cbn [finish_leaves Nat.eqb]. eauto 6.
  - cbn [finish_leaves]. destruct (Nat.eqb_spec pos 0) as [->|NZ]; [eauto 6|]. destruct Hl as (Ll & Fl).
    destruct (nth_error ls k) as [s|] eqn:N; [|apply nth_error_None in N; lia].
    assert (Is : I s) by (rewrite Forall_forall in Fl; apply Fl; eapply nth_error_In; eauto).
    set (rmd := if (rate <=? pos)%nat then rate else pos). assert (R1 : (rmd <= rate /\ rmd <= pos)%nat /\ (rmd = rate \/ rmd = pos)) by (unfold rmd; destruct (Nat.leb_spec rate pos); lia).
    clearbody rmd. destruct (HF buf (k * rate) rmd s) as (s' & buf' & -> & I' & B' & L'); auto; try lia.
    { rewrite Lb. unfold minsize. nia. }
    cbn [bind]. apply IH; auto; try lia. split.
    + rewrite app_length. cbn [length]. rewrite firstn_length, skipn_length. lia.
    + rewrite <- (firstn_skipn k ls) in Fl. apply Forall_app in Fl. destruct Fl as (F1 & F2). apply Forall_app. split; auto. constructor; auto.
      rewrite <- (firstn_skipn (Datatypes.S k) ls) in Ll. clear -F2. revert k F2. induction ls as [|x t IHt]; intros [|k] F2; cbn [skipn] in *; auto. now inversion F2.
Qed.
Lemma absorb_total buf : bytes buf -> forall n k s, I s -> ((k + n) * rate <= length buf)%nat -> exists s', for_up k n (fun i s => permute s buf (i * rate)) s = Ok s' /\ I s'.
Proof.
  intros Hb n k s Is Hl. destruct (for_up_inv (fun _ s => I s) (fun i s => permute s buf (i * rate)) k n s) as (s' & E & G); eauto.
  intros i x Hi Ix. destruct (Hp x buf (i * rate)%nat) as (E & G); auto; [nia|]. eauto.
Qed.
Lemma stored_total ls buf : IL ls -> bytes buf -> length buf = min -> exists buf', for_up 0 (length ls) (fun i buf => match nth_error ls i with Some s => store s buf (i * rate) | None => UB end) buf = Ok buf' /\ bytes buf' /\ length buf' = min.
Proof.
  intros (L & F) Hb Lb. match goal with |- context [for_up _ _ ?f _] => destruct (for_up_inv (fun i buf => bytes buf /\ length buf = min) f 0 (length ls) buf) as (b & E & G) end; eauto.
  intros i b Hi (B1 & B2). destruct (nth_error ls i) as [s|] eqn:N; [|apply nth_error_None in N; lia].
  assert (Is : I s) by (rewrite Forall_forall in F; apply F; eapply nth_error_In; eauto). destruct (Hwl s Is) as (W1 & W2).
  assert (HH : (i * rate + dig <= length b)%nat) by (rewrite B2; unfold minsize; nia).
  rewrite Hst by auto. eexists. split; [reflexivity|]. split; [now apply bytes_splice|]. rewrite length_splice; lia.
Qed.
Lemma root_total ls buf : IL ls -> bytes buf -> length buf = min -> exists s, root_hash rate dig permute hashfinal store iv root_ge ls buf = Ok s /\ I s.
Proof.
  intros Hl Hb Lb. destruct (stored_total ls buf Hl Hb Lb) as (b & E & Bb & Lb'). unfold root_hash. rewrite E. cbn [bind]. cbv zeta. clear E. destruct Hl as (Ll & _). rewrite Ll.
  assert (HM : min = (d * dig + d * dig)%nat) by (unfold minsize; nia).
  assert (HC : (if root_ge then rate <=? d * dig else rate <? d * dig)%nat = true -> (rate <= d * dig)%nat) by (destruct root_ge; intros X; [apply Nat.leb_le in X|apply Nat.ltb_lt in X]; lia).
  assert (HC' : (if root_ge then rate <=? d * dig else rate <? d * dig)%nat = false -> (d * dig <= rate)%nat) by (destruct root_ge; intros X; [apply Nat.leb_gt in X|apply Nat.ltb_ge in X]; lia).
  destruct (if root_ge then _ else _).
  - specialize (HC eq_refl). pose proof (Nat.mod_upper_bound (d * dig) rate ltac:(lia)) as MU. pose proof (Nat.div_mod (d * dig) rate ltac:(lia)) as DM.
    destruct (absorb_total b Bb ((d * dig - (d * dig) mod rate) / rate) 0 iv Iiv) as (s & Es & Is).
    { replace (d * dig - (d * dig) mod rate)%nat with ((d * dig / rate) * rate)%nat by lia. rewrite Nat.div_mul by lia. rewrite Lb', HM. lia. }
    rewrite Es. cbn [bind]. destruct (HF b (d * dig - (d * dig) mod rate) (d * dig - (d * dig - (d * dig) mod rate)) s) as (s' & b' & -> & I' & _); auto; try lia.
    cbn [bind fst]. eauto.
  - specialize (HC' eq_refl). cbn [bind]. destruct (HF b 0 (d * dig) iv) as (s' & b' & -> & I' & _); auto; [rewrite Lb'; unfold minsize; clear -Hd; nia|]. cbn [bind fst]. eauto.
Qed.
Lemma finalize_total ls0 m o : pinv ls0 m o -> exists s o', I s /\ par_new rate permute iv hdr d = Ok o' /\
  forall out oo, (oo + dig <= length out)%nat -> par_finalize rate dig permute hashfinal store iv root_ge hdr d o out oo = Ok (o', splice out oo (w s)).
Proof.
  intros J. destruct o as ((ls & buf) & pos). destruct J as (Is & Bb & Lb & P & _).
  destruct (finish_total (length ls) ls (splice buf pos (zeros (length buf - pos))) 0 pos) as (ls' & buf' & E & I' & B' & L'); auto.
  - destruct Is. lia.
  - apply bytes_splice; auto using bytes_zeros.
  - rewrite length_splice; rewrite ?length_zeros; lia.
  - unfold minsize in P. nia.
  - lia.
  - destruct (root_total ls' buf' I' B' L') as (s & Er & Ir). destruct new_ok as (o' & En & _). exists s, o'. split; [auto|split; [auto|]]. intros out oo Ho.
    unfold par_finalize. replace ((oo <=? length out)%nat && (length out - oo <? dig)%nat) with false by (symmetry; apply Bool.andb_false_intro2; apply Nat.ltb_ge; lia).
    cbn [negb guard bind]. replace (pos <? length buf)%nat with true by (symmetry; apply Nat.ltb_lt; lia).
    rewrite wr_ok by (rewrite length_zeros; lia). cbn [bind]. rewrite E. cbn [bind]. rewrite Er. cbn [bind]. rewrite Hst by auto. cbn [bind]. rewrite En. reflexivity.
Qed.
Lemma par_any m : bytes m -> exists n0 s, par_new rate permute iv hdr d = Ok n0 /\ I s /\ forall pblk c ps, (0 < c)%nat -> pblk = (c * min)%nat -> Forall p_ok ps -> joined ps = m ->
  exists o, feed (par_update rate permute d pblk) ps n0 = Ok o /\ pinv (map leaf0 (seq 0 d)) m o /\ forall out oo, (oo + dig <= length out)%nat ->
    par_finalize rate dig permute hashfinal store iv root_ge hdr d o out oo = Ok (n0, splice out oo (w s)).
Proof.
  intros Hm. destruct new_ok as (n0 & En & Jn). 
  destruct (par_feed min 1 (map leaf0 (seq 0 d)) [] n0 [Piece m 0 (length m)]) as (o1 & _ & J1); auto; [lia|constructor; [split; [cbn; lia|exact Hm]|constructor]|].
  unfold joined, p_data in J1. cbn [map concat p_in p_off p_len app] in J1. rewrite slice_all, app_nil_r in J1 by auto.
  destruct (finalize_total _ _ _ J1) as (s & o' & Is & En' & Hf). rewrite En in En'. injection En' as <-. exists n0, s. split; [auto|split; [auto|]].
  intros pblk c ps Hc Hpb Hps Hj. destruct (par_feed pblk c (map leaf0 (seq 0 d)) [] n0 ps) as (o & E & J); auto. cbn [app] in J. rewrite Hj in J. exists o. split; [auto|]. split; [auto|].
  intros out oo Ho. rewrite (finalize_cleared _ _ o o1 out oo J J1). auto.
Qed.
End total.
(** Finalize on a message that fills every leaf *)
Hypothesis Heven : (Nat.even d = true)%nat.
(** the digest of the root on the bytes it reads *)
Context (H : list Z -> list Z).
Hypothesis Hroot : forall bs rest, Forall (Proofs_Absorb.blk rate) bs -> bytes rest -> (length rest = d / 2 * rate)%nat -> length bs = (d / 2)%nat ->
  exists s buf', (r <- (if (if root_ge then rate <=? d * dig else rate <? d * dig)%nat then
          let blk := (d * dig - (d * dig) mod rate)%nat in
          s <- for_up 0 (blk / rate) (fun i s => permute s (concat bs ++ rest) (i * rate)) iv ;; Ok (s, blk, (d * dig - blk)%nat)
        else Ok (iv, 0%nat, (d * dig)%nat)) ;;
     let '(s, off, n) := r in hashfinal (concat bs ++ rest) off n s) = Ok (s, buf') /\ I s /\ w s = H (concat bs).
Lemma finalize_full ls0 m o out oo : pinv ls0 m o -> (length m mod min = 0)%nat -> (oo + dig <= length out)%nat ->
  exists o' bs, par_finalize rate dig permute hashfinal store iv root_ge hdr d o out oo = Ok (o', splice out oo (H (root_msg (fold_left (gls 0) bs ls0))))
    /\ m = concat bs /\ Forall (Proofs_Absorb.blk (min)) bs /\ par_new rate permute iv hdr d = Ok o'.
Proof.
  intros J0 HM Ho. pose proof J0 as J1. destruct o as ((ls & buf) & pos). destruct J1 as (Is & Bb & Lb & P & bs & Hbs & Hm & Hs).
  pose proof (min_pos) as Hmin.
  assert (P0 : pos = 0%nat).
  { rewrite Hm, app_length, (concat_len (min)), length_slice in HM by (auto; lia). rewrite Nat.add_comm, Nat.mod_add, Nat.mod_small in HM by lia. exact HM. }
  subst pos. rewrite slice_n0, app_nil_r in Hm.
  unfold par_finalize. replace ((oo <=? length out)%nat && (length out - oo <? dig)%nat) with false by (symmetry; apply Bool.andb_false_intro2; apply Nat.ltb_ge; lia).
  cbn [negb guard bind]. replace (0 <? length buf)%nat with true by (symmetry; apply Nat.ltb_lt; lia).
  rewrite wr_ok by (rewrite length_zeros; lia). cbn [bind]. rewrite splice_all by (rewrite length_zeros; lia).
  replace (finish_leaves rate hashfinal (length ls) ls (zeros (length buf - 0)) 0 0) with (@Ok (list S * list Z) (ls, zeros (length buf - 0))) by (destruct (length ls); reflexivity).
  cbn [bind]. rewrite Nat.sub_0_r, Lb. destruct Is as (Ll & Fl). unfold root_hash. rewrite (stored ls) by (split; auto). cbn [bind]. rewrite Ll.
  assert (HE : d = (2 * (d / 2))%nat). { apply Nat.even_spec in Heven. destruct Heven as (e & ->). rewrite (Nat.mul_comm 2 e), Nat.div_mul by lia. lia. }
  set (e := (d / 2)%nat) in *.
  assert (SP : concat (map (fun s => w s ++ zeros dig) ls) = concat (map (fun s => w s ++ zeros dig) (firstn e ls)) ++ concat (map (fun s => w s ++ zeros dig) (skipn e ls))).
  { rewrite <- (firstn_skipn e ls) at 1. now rewrite map_app, concat_app. }
  rewrite SP. assert (F2 : Forall I (firstn e ls) /\ Forall I (skipn e ls)) by (rewrite <- (firstn_skipn e ls) in Fl; now apply Forall_app in Fl).
  destruct F2 as (F2 & F3).
  destruct (Hroot (map (fun s => w s ++ zeros dig) (firstn e ls)) (concat (map (fun s => w s ++ zeros dig) (skipn e ls)))) as (s & buf' & E & Is & Es).
  - eapply wz_blk; eauto.
  - pose proof (wz_blk (skipn e ls) F3) as F4. revert F4. generalize (map (fun s => w s ++ zeros dig) (skipn e ls)). clear. intros l F. induction F as [|b t (Hb & _) _ IH]; [constructor|]. cbn [concat]. apply bytes_app. auto.
  - rewrite (concat_len rate) by (eapply wz_blk; eauto). rewrite map_length, skipn_length, Ll. f_equal. lia.
  - rewrite map_length, firstn_length. lia.
  - apply bind_ok in E. destruct E as (r & E1 & E2). cbv zeta in E1. cbv zeta. rewrite E1. cbn [bind]. destruct r as ((rs & ro) & rn). rewrite E2. cbn [bind fst].
    rewrite Hst by auto. cbn [bind]. destruct (new_ok) as (o' & E3 & _). rewrite E3. cbn [bind].
    exists o', bs. split; [|split; [exact Hm|split; [exact Hbs|reflexivity]]]. rewrite Es. unfold root_msg. rewrite <- Hs. reflexivity.
Qed.
Lemma leaf_list bs n : forall i, firstn n (map (fun p => fold_left (fun s b => g s (slice b (fst p * rate) rate)) bs (snd p)) (combine (seq i d) (map leaf0 (seq i d))))
  = map (fun k => fold_left (fun s b => g s (slice b (k * rate) rate)) bs (leaf0 k)) (seq i (Nat.min n d)).
Proof.
  clear. revert n. induction d as [|e IH]; intros n i; [rewrite Nat.min_0_r; cbn; apply firstn_nil|].
  destruct n as [|n]; [reflexivity|]. cbn [seq map combine firstn Nat.min fst snd]. f_equal. apply IH.
Qed.
Definition full_root (m : list Z) : list Z :=
  concat (map (fun i => w (fold_left (fun s b => g s (slice b (i * rate) rate)) (strides m 0 (length m / min)) (leaf0 i)) ++ zeros dig) (seq 0 (d / 2))).
Lemma finalize_full_value m o out oo : bytes m -> pinv (map leaf0 (seq 0 d)) m o -> (length m mod min = 0)%nat -> (oo + dig <= length out)%nat ->
  exists o', par_finalize rate dig permute hashfinal store iv root_ge hdr d o out oo = Ok (o', splice out oo (H (full_root m))).
Proof.
  intros Bm J HM Ho. destruct (finalize_full _ _ _ out oo J HM Ho) as (o' & bs & E & Em & Fb & _). exists o'. rewrite E. do 3 f_equal. f_equal.
  pose proof min_pos as Hmin.
  assert (LM : length m = (length m / min * min)%nat) by (pose proof (Nat.div_mod (length m) min); lia).
  assert (EB : bs = strides m 0 (length m / min)).
  { destruct (blocks_unique min bs (strides m 0 (length m / min)) [] []) as (X & _); auto; [apply strides_blk; auto; lia|].
    rewrite strides_concat, <- LM, slice_all by auto. now rewrite <- Em. }
  unfold root_msg, full_root. rewrite <- EB. f_equal. change (gls 0) with (fun ls b => gls 0 ls b). rewrite fold_gls, map_length, seq_length, leaf_list.
  rewrite map_map. replace (Nat.min (d / 2) d) with (d / 2)%nat; [reflexivity|]. symmetry. apply Nat.min_l. apply Nat.div_le_upper_bound; lia.
Qed.
End par.
