(** The buffering invariant: inner state = fold over the consumed blocks, buffer = the rest. *)
From Verif Require Import BaseLemmas Spec_Common Spec_Feed Model_Modes Proofs_Windows Model_Absorb.
Open Scope Z_scope.

Lemma slice_n0 {A} (l : list A) o : slice l o 0 = []. Proof. reflexivity. Qed.
Lemma slice_wcopy_front (buf : list Z) pos d n : (pos + length d <= length buf)%nat -> n = (pos + length d)%nat ->
  slice (splice buf pos d) 0 n = slice buf 0 pos ++ d.
Proof.
  intros H ->. unfold slice, splice. rewrite !skipn_O. rewrite app_assoc, firstn_app. rewrite firstn_all2 by (rewrite app_length, firstn_length; lia).
  rewrite app_length, firstn_length. replace (pos + length d - _)%nat with 0%nat by lia. cbn [firstn]. now rewrite app_nil_r.
Qed.

Section absorb.
Context {S : Type} (rate bl : nat) (f : S -> list Z -> nat -> res S) (g : S -> list Z -> S) (I : S -> Prop).
Hypothesis Hrate : (0 < rate <= bl)%nat.
Hypothesis Hf : forall s b o, I s -> bytes b -> (o + rate <= length b)%nat -> f s b o = Ok (g s (slice b o rate)) /\ I (g s (slice b o rate)).

Definition blk (b : list Z) : Prop := bytes b /\ length b = rate.
(** [d] has been absorbed since the inner state was [s0] *)
Definition ainv (full : bool) (s0 : S) (d : list Z) (st : S * list Z * nat) : Prop :=
  let '(s, buf, pos) := st in
  I s /\ bytes buf /\ length buf = bl /\ (if full then (pos <= rate)%nat /\ (d <> [] -> (0 < pos)%nat) else (pos < rate)%nat) /\
  exists bs, Forall blk bs /\ d = concat bs ++ slice buf 0 pos /\ s = fold_left g bs s0.

Lemma ainv_start full s0 buf : I s0 -> bytes buf -> length buf = bl -> ainv full s0 [] (s0, buf, 0%nat).
Proof.
  clear Hf f. intros A B C. split; [exact A|split; [exact B|split; [exact C|split]]].
  - destruct full; [split; [lia|congruence]|lia].
  - exists []. split; [constructor|split; reflexivity].
Qed.

Lemma blk_slice b o : bytes b -> (o + rate <= length b)%nat -> blk (slice b o rate).
Proof. intros A B. split; [now apply bytes_slice|now apply length_slice]. Qed.

Lemma eager_blocks_ok inp : bytes inp -> forall fuel s io len, (len <= fuel)%nat -> (io + len <= length inp)%nat -> I s ->
  exists bs rl, eager_blocks rate f fuel s inp io len = Ok (fold_left g bs s, (io + (len - rl))%nat, rl) /\ I (fold_left g bs s) /\
    Forall blk bs /\ (rl < rate)%nat /\ (rl <= len)%nat /\ slice inp io len = concat bs ++ slice inp (io + (len - rl)) rl.
Proof.
  intros Hi. induction fuel as [|k IH]; intros s io len H1 H2 H3.
  - assert (len = 0)%nat by lia. subst. exists [], 0%nat. cbn [eager_blocks fold_left concat app]. rewrite Nat.sub_0_r, Nat.add_0_r. split; [reflexivity|split; [exact H3|split; [constructor|split; [lia|split; [lia|reflexivity]]]]].
  - cbn [eager_blocks]. destruct (Nat.leb_spec rate len) as [L|L].
    + destruct (Hf s inp io H3 Hi ltac:(lia)) as (-> & H4). cbn [bind].
      destruct (IH (g s (slice inp io rate)) (io + rate)%nat (len - rate)%nat) as (bs & rl & E & J & B & R1 & R2 & D); try lia; auto.
      exists (slice inp io rate :: bs), rl. rewrite E. split; [|split; [exact J|split; [|split; [lia|split; [lia|]]]]].
      * cbn [fold_left]. do 3 f_equal. lia.
      * constructor; auto. apply blk_slice; auto; lia.
      * replace len with (rate + (len - rate))%nat at 1 by lia. rewrite slice_app, D. cbn [concat]. rewrite <- app_assoc. do 3 f_equal. lia.
    + exists [], len. cbn [fold_left concat app]. rewrite Nat.sub_diag, Nat.add_0_r. split; [reflexivity|split; [exact H3|split; [constructor|split; [lia|split; [lia|reflexivity]]]]].
Qed.
Lemma lazy_blocks_ok inp : bytes inp -> forall fuel s io len, (len <= fuel)%nat -> (0 < len)%nat -> (io + len <= length inp)%nat -> I s ->
  exists bs rl, lazy_blocks rate f fuel s inp io len = Ok (fold_left g bs s, (io + (len - rl))%nat, rl) /\ I (fold_left g bs s) /\
    Forall blk bs /\ (0 < rl <= rate)%nat /\ (rl <= len)%nat /\ slice inp io len = concat bs ++ slice inp (io + (len - rl)) rl.
Proof.
  intros Hi. induction fuel as [|k IH]; intros s io len H1 H0 H2 H3; [lia|].
  cbn [lazy_blocks]. destruct (Nat.ltb_spec rate len) as [L|L].
  - destruct (Hf s inp io H3 Hi ltac:(lia)) as (-> & H4). cbn [bind].
    destruct (IH (g s (slice inp io rate)) (io + rate)%nat (len - rate)%nat) as (bs & rl & E & J & B & R1 & R2 & D); try lia; auto.
    exists (slice inp io rate :: bs), rl. rewrite E. split; [|split; [exact J|split; [|split; [lia|split; [lia|]]]]].
    + cbn [fold_left]. do 3 f_equal. lia.
    + constructor; auto. apply blk_slice; auto; lia.
    + replace len with (rate + (len - rate))%nat at 1 by lia. rewrite slice_app, D. cbn [concat]. rewrite <- app_assoc. do 3 f_equal. lia.
  - exists [], len. cbn [fold_left concat app]. rewrite Nat.sub_diag, Nat.add_0_r. split; [reflexivity|split; [exact H3|split; [constructor|split; [lia|split; [lia|reflexivity]]]]].
Qed.

Lemma buf_block buf pos d : bytes buf -> bytes d -> length buf = bl -> (pos + length d = rate)%nat ->
  bytes (splice buf pos d) /\ length (splice buf pos d) = bl /\ slice (splice buf pos d) 0 rate = slice buf 0 pos ++ d.
Proof.
  clear Hf f.
  intros A B C D. split; [now apply bytes_splice|split; [rewrite length_splice; lia|]].
  apply slice_wcopy_front; lia.
Qed.

Lemma eager_ok s0 d st inp io len : ainv false s0 d st -> bytes inp -> (io + len <= length inp)%nat ->
  exists st', eager_update rate f st inp io len = Ok st' /\ ainv false s0 (d ++ slice inp io len) st'.
Proof.
  destruct st as ((s & buf) & pos). intros (Is & Bb & Lb & P & bs & Hbs & Hd & Hs) Hi Hl. unfold eager_update.
  destruct (Nat.eqb_spec len 0) as [->|N].
  { eexists. split; [reflexivity|]. rewrite slice_n0, app_nil_r. split; [exact Is|split; [exact Bb|split; [exact Lb|split; [exact P|]]]]. now exists bs. }
  destruct (negb (pos =? 0) && (rate <=? pos + len))%nat eqn:E.
  - apply andb_prop in E. destruct E as (E1 & E2). apply Nat.leb_le in E2.
    replace (pos <=? rate)%nat with true by (symmetry; apply Nat.leb_le; lia). cbn [safe bind].
    rewrite wcopy_ok by lia. cbn [bind].
    assert (Lw : length (slice inp io (rate - pos)) = (rate - pos)%nat) by (apply length_slice; lia).
    destruct (buf_block buf pos (slice inp io (rate - pos))) as (B1 & B2 & B3); auto using bytes_slice; try lia.
    set (buf1 := splice buf pos _) in *.
    destruct (Hf s buf1 0%nat Is B1 ltac:(lia)) as (-> & I1). cbn [bind].
    destruct (eager_blocks_ok inp Hi (len - (rate - pos)) (g s (slice buf1 0 rate)) (io + (rate - pos)) (len - (rate - pos))) as (bs2 & rl & E & I2 & Hbs2 & R1 & R2 & D); auto; try lia.
    rewrite E. cbn [bind].
    assert (DD : d ++ slice inp io len = concat (bs ++ slice buf1 0 rate :: bs2) ++ slice inp (io + (rate - pos) + (len - (rate - pos) - rl)) rl).
    { rewrite Hd. replace len with ((rate - pos) + (len - (rate - pos)))%nat at 1 by lia. rewrite slice_app, D, concat_app. cbn [concat]. rewrite B3, <- !app_assoc. reflexivity. }
    assert (SS : fold_left g bs2 (g s (slice buf1 0 rate)) = fold_left g (bs ++ slice buf1 0 rate :: bs2) s0).
    { rewrite fold_left_app, <- Hs. reflexivity. }
    assert (HB : Forall blk (bs ++ slice buf1 0 rate :: bs2)).
    { apply Forall_app. split; [exact Hbs|]. constructor; [|exact Hbs2]. apply blk_slice; auto; lia. }
    destruct (Nat.eqb_spec rl 0) as [->|N0].
    + eexists. split; [reflexivity|]. split; [exact I2|split; [exact B1|split; [exact B2|split; [lia|]]]].
      eexists. split; [exact HB|split; [|exact SS]]. rewrite DD. now rewrite !slice_n0.
    + rewrite wcopy_ok by lia. cbn [bind]. eexists. split; [reflexivity|]. rewrite Nat.add_0_l.
      set (t := slice inp _ rl) in *. assert (Lt : length t = rl) by (apply length_slice; lia).
      split; [exact I2|split; [apply bytes_splice; auto; now apply bytes_slice|split; [rewrite length_splice; lia|split; [lia|]]]].
      eexists. split; [exact HB|split; [|exact SS]]. rewrite DD. f_equal. rewrite slice_wcopy_front by lia. reflexivity.
  - cbn [bind].
    destruct (eager_blocks_ok inp Hi len s io len) as (bs2 & rl & E2 & I2 & Hbs2 & R1 & R2 & D); auto; try lia.
    rewrite E2. cbn [bind].
    destruct (Nat.eqb_spec pos 0) as [->|P0].
    + rewrite slice_n0, app_nil_r in Hd.
      assert (DD : d ++ slice inp io len = concat (bs ++ bs2) ++ slice inp (io + (len - rl)) rl) by (rewrite concat_app, <- app_assoc, <- D, Hd; reflexivity).
      assert (SS : fold_left g bs2 s = fold_left g (bs ++ bs2) s0) by (rewrite fold_left_app, <- Hs; reflexivity).
      assert (HB : Forall blk (bs ++ bs2)) by (apply Forall_app; now split).
      destruct (Nat.eqb_spec rl 0) as [->|N0].
      * eexists. split; [reflexivity|]. split; [exact I2|split; [exact Bb|split; [exact Lb|split; [lia|]]]].
        eexists. split; [exact HB|split; [|exact SS]]. rewrite DD. now rewrite !slice_n0.
      * rewrite wcopy_ok by lia. cbn [bind]. eexists. split; [reflexivity|]. rewrite Nat.add_0_l.
        set (t := slice inp _ rl) in *. assert (Lt : length t = rl) by (apply length_slice; lia).
        split; [exact I2|split; [apply bytes_splice; auto; now apply bytes_slice|split; [rewrite length_splice; lia|split; [lia|]]]].
        eexists. split; [exact HB|split; [|exact SS]]. rewrite DD. f_equal. rewrite slice_wcopy_front by lia. reflexivity.
    + cbn [negb andb] in E. apply Nat.leb_gt in E.
      assert (bs2 = []).
      { destruct bs2 as [|b t]; [reflexivity|]. exfalso. inversion Hbs2 as [|? ? (_ & Lb2)]; subst.
        apply (f_equal (@length Z)) in D. rewrite length_slice in D by lia. cbn [concat] in D. rewrite !app_length in D. lia. }
      subst bs2. cbn [concat app fold_left] in *.
      assert (RL : rl = len). { apply (f_equal (@length Z)) in D. rewrite !length_slice in D by lia. lia. }
      subst rl. replace (len =? 0)%nat with false by (symmetry; apply Nat.eqb_neq; lia). rewrite Nat.sub_diag, Nat.add_0_r in *.
      rewrite wcopy_ok by lia. cbn [bind]. eexists. split; [reflexivity|].
      assert (Lt : length (slice inp io len) = len) by (apply length_slice; lia).
      split; [exact Is|split; [apply bytes_splice; auto; now apply bytes_slice|split; [rewrite length_splice; lia|split; [lia|]]]].
      exists bs. split; [exact Hbs|split; [|exact Hs]]. rewrite slice_wcopy_front by lia. now rewrite Hd, app_assoc.
Qed.

Lemma lazy_ok s0 d st inp io len : ainv true s0 d st -> bytes inp -> (io + len <= length inp)%nat ->
  exists st', lazy_update rate f st inp io len = Ok st' /\ ainv true s0 (d ++ slice inp io len) st'.
Proof.
  destruct st as ((s & buf) & pos). intros (Is & Bb & Lb & P & bs & Hbs & Hd & Hs) Hi Hl. unfold lazy_update.
  destruct (Nat.eqb_spec len 0) as [->|N].
  { eexists. split; [reflexivity|]. rewrite slice_n0, app_nil_r. split; [exact Is|split; [exact Bb|split; [exact Lb|split; [exact P|]]]]. now exists bs. }
  destruct P as (P & P').
  set (r0 := if (pos =? rate)%nat then _ else _).
  assert (F : exists s1 pos1 bs1, r0 = Ok (s1, pos1) /\ I s1 /\ (pos1 < rate)%nat /\ Forall blk bs1 /\ d = concat bs1 ++ slice buf 0 pos1 /\ s1 = fold_left g bs1 s0).
  { unfold r0. destruct (Nat.eqb_spec pos rate) as [->|Ne].
    - destruct (Hf s buf 0%nat Is Bb ltac:(lia)) as (-> & I1). cbn [bind].
      exists (g s (slice buf 0 rate)), 0%nat, (bs ++ [slice buf 0 rate]).
      split; [reflexivity|split; [exact I1|split; [lia|split; [|split]]]].
      + apply Forall_app. split; [exact Hbs|]. constructor; [|constructor]. apply blk_slice; auto; lia.
      + rewrite concat_app. cbn [concat]. now rewrite slice_n0, !app_nil_r.
      + rewrite fold_left_app, <- Hs. reflexivity.
    - exists s, pos, bs. split; [reflexivity|split; [exact Is|split; [lia|auto]]]. }
  destruct F as (s1 & pos1 & bs1 & -> & I1 & P1 & Hbs1 & Hd1 & Hs1). cbn [bind].
  replace (pos1 <=? rate)%nat with true by (symmetry; apply Nat.leb_le; lia). cbn [safe bind].
  destruct (Nat.ltb_spec (rate - pos1) len) as [L|L].
  - rewrite wcopy_ok by lia. cbn [bind].
    assert (Lw : length (slice inp io (rate - pos1)) = (rate - pos1)%nat) by (apply length_slice; lia).
    destruct (buf_block buf pos1 (slice inp io (rate - pos1))) as (B1 & B2 & B3); auto using bytes_slice; try lia.
    set (buf1 := splice buf pos1 _) in *.
    destruct (Hf s1 buf1 0%nat I1 B1 ltac:(lia)) as (-> & I2). cbn [bind].
    destruct (lazy_blocks_ok inp Hi len (g s1 (slice buf1 0 rate)) (io + (rate - pos1)) (len - (rate - pos1))) as (bs2 & rl & E & I3 & Hbs2 & R1 & R2 & D); auto; try lia.
    rewrite E. cbn [bind]. replace (0 <? rl)%nat with true by (symmetry; apply Nat.ltb_lt; lia).
    rewrite wcopy_ok by lia. cbn [bind]. rewrite Nat.add_0_l. eexists. split; [reflexivity|].
    assert (DD : d ++ slice inp io len = concat (bs1 ++ slice buf1 0 rate :: bs2) ++ slice inp (io + (rate - pos1) + (len - (rate - pos1) - rl)) rl).
    { rewrite Hd1. replace len with ((rate - pos1) + (len - (rate - pos1)))%nat at 1 by lia. rewrite slice_app, D, concat_app. cbn [concat]. rewrite B3, <- !app_assoc. reflexivity. }
    set (t := slice inp _ rl) in *. assert (Lt : length t = rl) by (apply length_slice; lia).
    split; [exact I3|split; [apply bytes_splice; auto; now apply bytes_slice|split; [rewrite length_splice; lia|split; [split; [lia|intros; lia]|]]]].
    exists (bs1 ++ slice buf1 0 rate :: bs2). split; [|split].
    + apply Forall_app. split; [exact Hbs1|]. constructor; [|exact Hbs2]. apply blk_slice; auto; lia.
    + rewrite DD. f_equal. rewrite slice_wcopy_front by lia. reflexivity.
    + rewrite fold_left_app, <- Hs1. reflexivity.
  - cbn [bind]. replace (0 <? len)%nat with true by (symmetry; apply Nat.ltb_lt; lia).
    rewrite wcopy_ok by lia. cbn [bind]. eexists. split; [reflexivity|].
    assert (Lt : length (slice inp io len) = len) by (apply length_slice; lia).
    split; [exact I1|split; [apply bytes_splice; auto; now apply bytes_slice|split; [rewrite length_splice; lia|split; [split; [lia|intros; lia]|]]]].
    exists bs1. split; [exact Hbs1|split; [|exact Hs1]]. rewrite slice_wcopy_front by lia. now rewrite Hd1, app_assoc.
Qed.

Lemma feed_inv {T} (u : T -> list Z -> nat -> nat -> res T) (J : list Z -> T -> Prop)
  (HU : forall d st inp io len, J d st -> bytes inp -> (io + len <= length inp)%nat -> exists st', u st inp io len = Ok st' /\ J (d ++ slice inp io len) st') ps :
  Forall p_ok ps -> forall d st, J d st -> exists st', feed u ps st = Ok st' /\ J (d ++ joined ps) st'.
Proof.
  induction ps as [|p t IH]; intros HF d st G.
  - exists st. split; [reflexivity|]. unfold joined. cbn. now rewrite app_nil_r.
  - inversion HF as [|? ? (P1 & P2) P3]; subst. cbn [feed].
    destruct (HU d st (p_in p) (p_off p) (p_len p)) as (st1 & E1 & G1); auto.
    rewrite E1. cbn [bind]. destruct (IH P3 _ _ G1) as (st2 & E2 & G2). exists st2. split; [exact E2|].
    unfold joined in *. cbn [map concat]. now rewrite app_assoc.
Qed.
Lemma eager_feed s0 d st ps : Forall p_ok ps -> ainv false s0 d st ->
  exists st', feed (eager_update rate f) ps st = Ok st' /\ ainv false s0 (d ++ joined ps) st'.
Proof. intros H1 H2. apply (feed_inv _ (ainv false s0)); auto. intros. now apply eager_ok. Qed.
Lemma lazy_feed s0 d st ps : Forall p_ok ps -> ainv true s0 d st ->
  exists st', feed (lazy_update rate f) ps st = Ok st' /\ ainv true s0 (d ++ joined ps) st'.
Proof. intros H1 H2. apply (feed_inv _ (ainv true s0)); auto. intros. now apply lazy_ok. Qed.
End absorb.
