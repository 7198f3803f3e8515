(** Window operations, blocks, generic sequential processing and parallel workers *)
From Coq Require Import Permutation.
From Verif Require Import BaseLemmas Spec_Common Proofs_Common Proofs_IntegerTools Model_Modes.
Open Scope Z_scope.

Lemma wcopy_ok inp io out oo len : (io + len <= length inp)%nat -> (oo + len <= length out)%nat ->
  wcopy inp io out oo len = Ok (splice out oo (slice inp io len)).
Proof. intros. unfold wcopy. rewrite rd_ok by lia. cbn [bind]. apply wr_ok. rewrite length_slice; lia. Qed.
Lemma wxor_ok inp io out oo len : (io + len <= length inp)%nat -> (oo + len <= length out)%nat ->
  wxor inp io out oo len = Ok (splice out oo (xorl (slice out oo len) (slice inp io len))).
Proof.
  intros. unfold wxor. rewrite !rd_ok by lia. cbn [bind]. apply wr_ok.
  rewrite length_xorl, !length_slice; lia.
Qed.
Lemma blk_ok f inp io out oo : (io + 16 <= length inp)%nat -> (oo + 16 <= length out)%nat ->
  length (f (slice inp io 16)) = 16%nat ->
  blk f inp io out oo = Ok (splice out oo (f (slice inp io 16))).
Proof. intros. unfold blk. rewrite rd_ok by lia. cbn [bind]. apply wr_ok. lia. Qed.

(** whole copies *)
Lemma wcopy_all inp out : length inp = length out -> wcopy inp 0 out 0 (length out) = Ok inp.
Proof. intros. rewrite wcopy_ok by lia. rewrite slice_all by lia. now rewrite splice_all. Qed.
Lemma wcopy16 inp out : length inp = 16%nat -> length out = 16%nat -> wcopy inp 0 out 0 16 = Ok inp.
Proof. intros H1 H2. rewrite <- H2. apply wcopy_all. congruence. Qed.

Lemma slice_slice {A} (l : list A) o n o' n' : (o' + n' <= n)%nat -> slice (slice l o n) o' n' = slice l (o + o') n'.
Proof.
  intros H. unfold slice. rewrite skipn_firstn_comm, skipn_skipn, firstn_firstn. rewrite Nat.min_l by lia.
  do 2 f_equal. lia.
Qed.
Lemma slice_splice_here {A} (l : list A) o d n : n = length d -> (o + length d <= length l)%nat -> slice (splice l o d) o n = d.
Proof. intros ->. apply slice_splice_same. Qed.
Lemma slice_splice_after (l : list Z) o d o' n : (o + length d <= length l)%nat -> (o + length d <= o')%nat ->
  slice (splice l o d) o' n = slice l o' n.
Proof.
  intros H1 H2. unfold slice, splice. f_equal.
  rewrite app_assoc, skipn_app, skipn_all2 by (rewrite app_length, firstn_length; lia).
  cbn [app]. rewrite skipn_skipn, app_length, firstn_length. f_equal. lia.
Qed.
Lemma splice_over {A} (l : list A) o d e : length e = length d -> (o + length d <= length l)%nat ->
  splice (splice l o d) o e = splice l o e.
Proof.
  intros H1 H2. unfold splice at 1 3. rewrite H1. f_equal; [|f_equal].
  - unfold splice. rewrite firstn_app, firstn_firstn, Nat.min_id, firstn_length, Nat.min_l by lia.
    rewrite Nat.sub_diag. cbn [firstn]. apply app_nil_r.
  - unfold splice. rewrite app_assoc, skipn_app, skipn_all2 by (rewrite app_length, firstn_length; lia).
    cbn [app]. rewrite skipn_skipn, app_length, firstn_length. f_equal. lia.
Qed.
Lemma splice_comm (l : list Z) a d b e : (a + length d <= length l)%nat -> (b + length e <= length l)%nat ->
  (a + length d <= b \/ b + length e <= a)%nat ->
  splice (splice l a d) b e = splice (splice l b e) a d.
Proof.
  intros H1 H2 H3. apply (list_ext 0).
  - rewrite !length_splice; rewrite ?length_splice; lia.
  - intros i Hi. rewrite !nth_splice; rewrite ?length_splice; try lia.
    destruct (Nat.ltb_spec i b), (Nat.ltb_spec i a), (Nat.ltb_spec i (b + length e)), (Nat.ltb_spec i (a + length d));
      try lia; reflexivity.
Qed.

(** ** blocks *)
Fixpoint blocks {A} (r n : nat) (l : list A) : list (list A) :=
  match n with O => [] | S m => firstn r l :: blocks r m (skipn r l) end.
Lemma blocks_length {A} r n (l : list A) : length (blocks r n l) = n.
Proof. revert l; induction n; intros; cbn; auto. Qed.
Lemma blocks_chunks {A} r n (l : list A) : (0 < r)%nat -> length l = (n * r)%nat -> chunks r l = blocks r n l.
Proof.
  intros Hr. revert l; induction n as [|n IH]; intros l Hl.
  - destruct l; [reflexivity|cbn in Hl; lia].
  - rewrite chunks_cons by (auto; intros ->; cbn [length] in Hl; lia). cbn [blocks]. f_equal.
    apply IH. rewrite skipn_length. lia.
Qed.
Lemma blocks_app {A} r n m (l : list A) : blocks r (n + m) l = blocks r n l ++ blocks r m (skipn (n * r) l).
Proof.
  revert l; induction n as [|n IH]; intros l; [reflexivity|]. cbn [Nat.add blocks app]. f_equal.
  rewrite IH, skipn_skipn. do 3 f_equal. lia.
Qed.
Lemma blocks_slice {A} r n k (l : list A) : (n * r <= k)%nat -> blocks r n (firstn k l) = blocks r n l.
Proof.
  revert k l; induction n as [|n IH]; intros k l H; [reflexivity|]. cbn [blocks].
  rewrite firstn_firstn, Nat.min_l by nia. f_equal. rewrite skipn_firstn_comm. apply IH. nia.
Qed.
Lemma blocks_concat {A} r n (l : list A) : concat (blocks r n l) = firstn (n * r) l.
Proof.
  revert l; induction n as [|n IH]; intros l; [reflexivity|]. cbn [blocks concat]. rewrite IH.
  rewrite <- (firstn_skipn r (firstn (S n * r) l)), firstn_firstn, Nat.min_l by nia. f_equal.
  rewrite skipn_firstn_comm. f_equal. nia.
Qed.
Lemma blocks_len {A} r n (l : list A) b : (n * r <= length l)%nat -> In b (blocks r n l) -> length b = r.
Proof.
  revert l; induction n as [|n IH]; intros l H; [intros []|]. cbn [blocks]. intros [<-|Hb].
  - rewrite firstn_length. nia.
  - apply (IH (skipn r l)); [rewrite skipn_length; nia|exact Hb].
Qed.
Lemma blocks_bytes r n l b : bytes l -> In b (blocks r n l) -> bytes b.
Proof.
  revert l; induction n as [|n IH]; intros l H; [intros []|]. cbn [blocks]. intros [<-|Hb].
  - now apply bytes_firstn.
  - apply (IH (skipn r l)); [now apply bytes_skipn|exact Hb].
Qed.
Lemma concat_length_eq {A} r (bs : list (list A)) : (forall b, In b bs -> length b = r) -> length (concat bs) = (length bs * r)%nat.
Proof. induction bs as [|b t IH]; intros H; [reflexivity|]. cbn. rewrite app_length, (H b), IH; [|intros; apply H; now right|now left]. lia. Qed.
Lemma blocks_of_concat {A} r (bs : list (list A)) : (forall b, In b bs -> length b = r) -> blocks r (length bs) (concat bs) = bs.
Proof.
  induction bs as [|b t IH]; intros H; [reflexivity|]. cbn [length blocks concat].
  assert (Hb : length b = r) by (apply H; now left).
  rewrite firstn_app, firstn_all2 by lia. rewrite Hb, Nat.sub_diag. cbn [firstn]. rewrite app_nil_r.
  rewrite skipn_app, skipn_all2 by lia. rewrite Hb, Nat.sub_diag. cbn [app skipn]. rewrite IH; [reflexivity|].
  intros; apply H; now right.
Qed.

Lemma wideT_ok f s inp io out oo : (io + 16 * s <= length inp)%nat -> (oo + 16 * s <= length out)%nat ->
  (forall b, length b = 16%nat -> length (f b) = 16%nat) ->
  wideT f s inp io out oo = Ok (splice out oo (concat (map f (blocks 16 s (slice inp io (16 * s)))))).
Proof.
  intros H1 H2 Hf. unfold wideT. rewrite rd_ok by lia. cbn [bind].
  rewrite (blocks_chunks 16 s) by (rewrite ?length_slice; lia). rewrite flat_map_concat_map. apply wr_ok.
  rewrite (concat_length_eq 16), map_length, blocks_length; [lia|].
  intros b Hb. apply in_map_iff in Hb. destruct Hb as (c & <- & Hc). apply Hf.
  refine (blocks_len 16 s _ c _ Hc). rewrite length_slice; lia.
Qed.

(** ** generic sequential processing *)
Fixpoint gfold {S : Type} (g : list Z -> S -> list Z * S) (bs : list (list Z)) (st : S) : list (list Z) * S :=
  match bs with
  | [] => ([], st)
  | b :: t => let '(c, st1) := g b st in let '(cs, st2) := gfold g t st1 in (c :: cs, st2)
  end.
Lemma gfold_app {S} g bs1 bs2 (st : S) :
  gfold g (bs1 ++ bs2) st =
  (fst (gfold g bs1 st) ++ fst (gfold g bs2 (snd (gfold g bs1 st))), snd (gfold g bs2 (snd (gfold g bs1 st)))).
Proof.
  revert st; induction bs1 as [|b t IH]; intros st; cbn [app gfold].
  - cbn. now destruct (gfold g bs2 st).
  - destruct (g b st) as [c st1]. rewrite IH. destruct (gfold g t st1) as [cs st2]. cbn. reflexivity.
Qed.
Lemma gfold_len {S} g (WF : S -> Prop) r bs st :
  (forall b st, length b = r -> WF st -> length (fst (g b st)) = r /\ WF (snd (g b st))) ->
  (forall b, In b bs -> length b = r) -> WF st ->
  length (fst (gfold g bs st)) = length bs /\ (forall c, In c (fst (gfold g bs st)) -> length c = r) /\ WF (snd (gfold g bs st)).
Proof.
  intros Hg. revert st; induction bs as [|b t IH]; intros st Hb Hst; cbn [gfold].
  - cbn. auto with *.
  - destruct (Hg b st (Hb b (or_introl eq_refl)) Hst) as [G1 G2]. destruct (g b st) as [c st1]. cbn [fst snd] in G1, G2.
    destruct (IH st1 (fun x Hx => Hb x (or_intror Hx)) G2) as (I1 & I2 & I3).
    destruct (gfold g t st1) as [cs st2]. cbn [fst snd length] in *. split; [lia|]. split; [|exact I3].
    intros x [<-|Hx]; auto.
Qed.

Definition alias_ok (inp : option (list Z)) (io oo : nat) : Prop := inp = None -> io = oo.
Lemma src_len inp out out' : length out' = length out -> length (src inp out') = length (src inp out).
Proof. destruct inp; cbn; auto. Qed.
Lemma src_ahead inp io out oo d k n : alias_ok inp io oo -> (oo + length d <= length out)%nat -> (length d <= k)%nat ->
  slice (src inp (splice out oo d)) (io + k) n = slice (src inp out) (io + k) n.
Proof.
  intros A H1 H2. destruct inp as [l|]; cbn [src]; [reflexivity|]. rewrite (A eq_refl).
  apply slice_splice_after; lia.
Qed.

Section Seq.
  Context {S : Type} (r : nat) (inp : option (list Z)) (io : nat) (out : list Z) (oo : nat).
  Variable (g : list Z -> S -> list Z * S) (WF : S -> Prop).
  Hypothesis Hg : forall b st, length b = r -> WF st -> length (fst (g b st)) = r /\ WF (snd (g b st)).
  Hypothesis HA : alias_ok inp io oo.
  Variable step : nat -> list Z * S -> res (list Z * S).

  Lemma seq_mode n : forall a done st,
    (forall k out' st, (a <= k < a + n)%nat -> length out' = length out -> WF st ->
      step k (out', st) =
        Ok (splice out' (oo + k * r) (fst (g (slice (src inp out') (io + k * r) r) st)),
            snd (g (slice (src inp out') (io + k * r) r) st))) ->
    length done = (a * r)%nat -> WF st ->
    (oo + (a + n) * r <= length out)%nat -> (io + (a + n) * r <= length (src inp out))%nat ->
    for_up a n step (splice out oo done, st) =
      let res := gfold g (blocks r n (slice (src inp out) (io + a * r) (n * r))) st in
      Ok (splice out oo (done ++ concat (fst res)), snd res).
  Proof.
    induction n as [|n IH]; intros a done st Hstep Hd Hst Ho Hi; cbn [for_up].
    - cbn. now rewrite app_nil_r.
    - assert (Ld : length (splice out oo done) = length out) by (apply length_splice; nia).
      rewrite Hstep by (auto; lia). cbn [bind].
      rewrite src_ahead by (auto; nia).
      set (b := slice (src inp out) (io + a * r) r).
      assert (Lb : length b = r) by (unfold b; rewrite length_slice; nia).
      destruct (Hg b st Lb Hst) as [G1 G2].
      pose proof (splice_splice_next out oo done (fst (g b st))) as SS. rewrite Hd in SS. rewrite SS by nia. clear SS.
      rewrite IH.
      + cbn [blocks].
        replace (firstn r (slice (src inp out) (io + a * r) (Datatypes.S n * r))) with b.
        2:{ unfold b, slice. rewrite firstn_firstn, Nat.min_l by nia. reflexivity. }
        replace (skipn r (slice (src inp out) (io + a * r) (Datatypes.S n * r)))
          with (slice (src inp out) (io + (Datatypes.S a) * r) (n * r)).
        2:{ unfold slice. rewrite skipn_firstn_comm, skipn_skipn. f_equal; [|f_equal]; nia. }
        cbv zeta. cbn [gfold]. destruct (g b st) as [c st1]. cbn [fst snd].
        destruct (gfold g _ st1) as [cs st2]. cbn [fst snd concat]. now rewrite app_assoc.
      + intros k out' st' Hk. apply Hstep. lia.
      + rewrite app_length. nia.
      + exact G2.
      + nia.
      + nia.
  Qed.

  Lemma seq_mode0 n st :
    (forall k out' st, (k < n)%nat -> length out' = length out -> WF st ->
      step k (out', st) =
        Ok (splice out' (oo + k * r) (fst (g (slice (src inp out') (io + k * r) r) st)),
            snd (g (slice (src inp out') (io + k * r) r) st))) ->
    WF st ->
    (oo + n * r <= length out)%nat -> (io + n * r <= length (src inp out))%nat ->
    for_up 0 n step (out, st) =
      let res := gfold g (blocks r n (slice (src inp out) io (n * r))) st in
      Ok (splice out oo (concat (fst res)), snd res).
  Proof.
    intros Hstep Hst Ho Hi. pose proof (seq_mode n 0 [] st) as M. rewrite splice_nil in M.
    cbn [app] in M. replace (io + 0 * r)%nat with io in M by lia. apply M; auto.
    intros. apply Hstep; auto. lia.
  Qed.
End Seq.

(** ** workers on disjoint windows, in any order *)
Section Workers.
  Context {T : Type} (n dg oo : nat) (out : list Z) (d : nat -> list Z) (ut : nat -> T -> T) (WFT : T -> Prop).
  Variable f : nat -> list Z * T -> res (list Z * T).
  Hypothesis Hd : forall i, (i < dg)%nat -> length (d i) = n.
  Hypothesis Hout : (oo + dg * n <= length out)%nat.
  Hypothesis Hut : forall i t, (i < dg)%nat -> WFT t -> WFT (ut i t).
  Hypothesis Hf : forall i out' t, (i < dg)%nat -> length out' = length out -> WFT t ->
    slice out' (oo + i * n) n = slice out (oo + i * n) n ->
    f i (out', t) = Ok (splice out' (oo + i * n) (d i), ut i t).

  Definition wput (o : list Z) (i : nat) : list Z := splice o (oo + i * n) (d i).
  Lemma wput_len o i : length o = length out -> (i < dg)%nat -> length (wput o i) = length out.
  Proof. intros. unfold wput. rewrite length_splice; rewrite ?Hd by auto; nia. Qed.
  Lemma wput_fold_len ord : forall o, (forall i, In i ord -> (i < dg)%nat) -> length o = length out ->
    length (fold_left wput ord o) = length out.
  Proof. induction ord as [|i t IH]; intros o H L; cbn; [exact L|]. apply IH; [intros; apply H; now right|]. apply wput_len; auto. apply H. now left. Qed.
  Lemma wput_other o i j : length o = length out -> (i < dg)%nat -> (j < dg)%nat -> i <> j ->
    slice (wput o i) (oo + j * n) n = slice o (oo + j * n) n.
  Proof.
    intros L Hi Hj N. unfold wput. apply slice_splice_disj; rewrite ?Hd by auto; [nia|].
    destruct (Nat.lt_ge_cases i j); [right; nia|left; nia].
  Qed.

  Lemma for_list_wput ord : forall o t, NoDup ord -> (forall i, In i ord -> (i < dg)%nat) -> length o = length out -> WFT t ->
    (forall i, In i ord -> slice o (oo + i * n) n = slice out (oo + i * n) n) ->
    for_list ord f (o, t) = Ok (fold_left wput ord o, fold_left (fun t i => ut i t) ord t).
  Proof.
    induction ord as [|i ord IH]; intros o t ND B L Wt W; cbn [for_list fold_left]; [reflexivity|].
    inversion ND; subst. rewrite Hf; auto; [|apply B; now left|apply W; now left]. cbn [bind].
    change (splice o (oo + i * n) (d i)) with (wput o i). apply IH; auto.
    - intros; apply B; now right.
    - apply wput_len; auto. apply B; now left.
    - apply Hut; auto. apply B; now left.
    - intros j Hj. rewrite wput_other; auto.
      + apply W; now right.
      + apply B; now left.
      + apply B; now right.
      + intros ->. contradiction.
  Qed.

  Lemma fold_wput_perm a b : Permutation a b -> NoDup a -> (forall i, In i a -> (i < dg)%nat) ->
    forall o, length o = length out -> fold_left wput a o = fold_left wput b o.
  Proof.
    induction 1; intros ND B o L; cbn [fold_left].
    - reflexivity.
    - apply IHPermutation; [now inversion ND|intros; apply B; now right|].
      apply wput_len; auto. apply B; now left.
    - f_equal. unfold wput. inversion ND as [|? ? N1 ND1]; subst.
      assert (x <> y) by (intros ->; apply N1; now left).
      assert (x < dg)%nat by (apply B; right; now left). assert (y < dg)%nat by (apply B; now left).
      apply splice_comm; rewrite ?Hd by auto; try nia.
    - rewrite IHPermutation1 by auto. apply IHPermutation2; auto.
      + now apply (Permutation_NoDup H).
      + intros i Hi. apply B. now apply (Permutation_in _ (Permutation_sym H)).
  Qed.

  Lemma fold_wput_seq k : forall a o pre, length pre = (a * n)%nat -> (a + k <= dg)%nat -> o = splice out oo pre ->
    fold_left wput (seq a k) o = splice out oo (pre ++ concat (map d (seq a k))).
  Proof.
    induction k as [|k IH]; intros a o pre Hp Hk ->; cbn [seq fold_left map concat].
    - now rewrite app_nil_r.
    - unfold wput at 2. rewrite <- Hp. rewrite splice_splice_next by (rewrite Hd by lia; nia).
      rewrite (IH (S a) _ (pre ++ d a)); [now rewrite <- app_assoc| | |reflexivity].
      + rewrite app_length, Hd by lia. nia.
      + lia.
  Qed.

  Lemma workers_ok ord t : WFT t -> Permutation ord (seq 0 dg) ->
    for_list ord f (out, t) = Ok (splice out oo (concat (map d (seq 0 dg))), fold_left (fun t i => ut i t) ord t).
  Proof.
    intros Wt P.
    assert (ND : NoDup ord) by (apply (Permutation_NoDup (Permutation_sym P)), seq_NoDup).
    assert (B : forall i, In i ord -> (i < dg)%nat).
    { intros i Hi. apply (Permutation_in _ P) in Hi. apply in_seq in Hi. lia. }
    rewrite for_list_wput by auto. do 2 f_equal.
    rewrite (fold_wput_perm _ _ P ND B _ eq_refl).
    rewrite (fold_wput_seq dg 0 out []); auto. now rewrite splice_nil.
  Qed.
End Workers.

(** the last worker's value survives whatever the order *)
Lemma fold_last {T} ord (k : nat) (v t0 : T) : In k ord ->
  fold_left (fun t i => if (i =? k)%nat then v else t) ord t0 = v.
Proof.
  revert t0; induction ord as [|i ord IH]; intros t0 H; [destruct H|]. cbn [fold_left].
  destruct (Nat.eqb_spec i k).
  - clear. assert (G : forall t, t = v -> fold_left (fun t i => if (i =? k)%nat then v else t) ord t = v).
    { induction ord as [|j ord IH]; intros t ->; cbn; [reflexivity|]. destruct (j =? k)%nat; apply IH; reflexivity. }
    now apply G.
  - apply IH. destruct H; [contradiction|assumption].
Qed.

(** ** byte loops *)
Lemma upd_splice_snoc (out : list Z) oo d x : (oo + length d < length out)%nat ->
  upd (splice out oo d) (oo + length d) x = splice out oo (d ++ [x]).
Proof.
  intros H. rewrite upd_as_splice by (rewrite length_splice; lia).
  apply splice_splice_next. cbn [length]. lia.
Qed.
Lemma byte_loop (out : list Z) oo (v : nat -> Z) f n : forall a done,
  length done = a -> (oo + a + n <= length out)%nat ->
  (forall i d, (a <= i < a + n)%nat -> length d = i -> f i (splice out oo d) = put (splice out oo d) (oo + i) (v i)) ->
  for_up a n f (splice out oo done) = Ok (splice out oo (done ++ map v (seq a n))).
Proof.
  induction n as [|n IH]; intros a done Hd Ho Hf; cbn [for_up seq map].
  - now rewrite app_nil_r.
  - rewrite Hf by (auto; lia). rewrite put_ok by (rewrite length_splice; lia). cbn [bind].
    rewrite <- Hd at 2. rewrite upd_splice_snoc by lia.
    rewrite IH.
    + now rewrite <- app_assoc.
    + rewrite app_length. cbn [length]. lia.
    + lia.
    + intros. apply Hf; auto. lia.
Qed.
Lemma src_nth_ahead inp io out oo d k : alias_ok inp io oo -> (oo + length d <= length out)%nat -> (length d <= k)%nat ->
  nth (io + k) (src inp (splice out oo d)) 0 = nth (io + k) (src inp out) 0.
Proof.
  intros A H1 H2. destruct inp as [l|]; cbn [src]; [reflexivity|]. rewrite (A eq_refl).
  rewrite nth_splice by lia. destruct (Nat.ltb_spec (oo + k) oo); [lia|]. destruct (Nat.ltb_spec (oo + k) (oo + length d)); [lia|reflexivity].
Qed.
Lemma xorl_map_seq a b : length a = length b ->
  xorl a b = map (fun i => Z.lxor (nth i a 0) (nth i b 0)) (seq 0 (length a)).
Proof.
  revert b; induction a as [|x a IH]; intros [|y b] H; cbn [length] in H; try discriminate; [reflexivity|].
  cbn [length seq map xorl]. rewrite <- seq_shift, map_map. cbn [nth]. rewrite <- IH by lia. reflexivity.
Qed.
Lemma nth_firstn_lt (l : list Z) n i : (i < n)%nat -> nth i (firstn n l) 0 = nth i l 0.
Proof.
  revert l i; induction n as [|n IH]; intros l i H; [lia|]. destruct l as [|x l]; [now destruct i|].
  destruct i; [reflexivity|]. cbn [firstn nth]. apply IH. lia.
Qed.
Lemma nth_slice (l : list Z) o n i : (i < n)%nat -> (o + n <= length l)%nat -> nth i (slice l o n) 0 = nth (o + i) l 0.
Proof.
  intros H1 H2. unfold slice. rewrite nth_firstn_lt by lia.
  rewrite <- (firstn_skipn o l) at 2. rewrite app_nth2 by (rewrite firstn_length; lia). f_equal. rewrite firstn_length. lia.
Qed.

Lemma for_up_shift {S} K n (f g : nat -> S -> res S) : forall a X,
  (forall i x, f i x = g (i + K)%nat x) -> for_up a n f X = for_up (a + K) n g X.
Proof.
  induction n as [|n IH]; intros a X H; [reflexivity|]. cbn [for_up]. rewrite H.
  destruct (g (a + K)%nat X); [|reflexivity|reflexivity]. cbn [bind]. now apply (IH (Datatypes.S a)).
Qed.
