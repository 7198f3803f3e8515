(** GHASH: Update, Multiply and Finalize against the SP 800-38D definition. *)
From Verif Require Import BaseLemmas Spec_Common Spec_GCM Spec_Feed Model_IntegerTools Proofs_IntegerTools Model_Modes Proofs_Windows Model_GHASH Proofs_GF Proofs_CMUL.
Open Scope Z_scope.

Lemma length_gmul h x : length (gmul h x) = 16%nat. Proof. reflexivity. Qed.
Lemma bytes_gmul h x : bytes (gmul h x). Proof. apply block_bytes. Qed.
Definition blk16 (x : list Z) : Prop := bytes x /\ length x = 16%nat.
Lemma blk16_gmul h x : blk16 (gmul h x). Proof. split; [apply bytes_gmul|apply length_gmul]. Qed.
Lemma blk16_xorl a b : blk16 a -> blk16 b -> blk16 (xorl a b).
Proof. intros (A & LA) (B & LB). split; [now apply bytes_xorl|]. rewrite length_xorl. lia. Qed.
Lemma blk16_zeros : blk16 (zeros 16). Proof. split; [apply bytes_zeros|apply length_zeros]. Qed.
Lemma blk16_pad x : bytes x -> (length x <= 16)%nat -> blk16 (x ++ zeros (16 - length x)).
Proof. intros B L. split; [apply bytes_app; split; auto; apply bytes_zeros|]. rewrite app_length, length_zeros. lia. Qed.

Lemma Permute_ok h out : blk16 h -> blk16 out -> GHASH_Permute (key_of h) out = Ok (gmul h out).
Proof.
  intros (Hh & Lh) (Ho & Lo). unfold GHASH_Permute. rewrite rd_ok by lia. cbn [bind]. rewrite slice_all by lia.
  rewrite CMUL_Permute_correct by auto. cbn [bind]. rewrite wr_ok by (rewrite length_gmul; lia). f_equal. apply splice_all. rewrite length_gmul. lia.
Qed.
(** xor of a window into the front of a block = xor of the zero-padded window *)
Lemma xor_front out buf io n : length out = 16%nat -> (n <= 16)%nat -> (io + n <= length buf)%nat ->
  wxor buf io out 0 n = Ok (xorl out (slice buf io n ++ zeros (16 - n))).
Proof.
  intros Lo Hn Hb. rewrite wxor_ok by lia. f_equal. unfold splice. cbn [firstn app]. rewrite length_xorl, !length_slice, Nat.min_id by lia.
  rewrite Nat.add_0_l. rewrite <- (firstn_skipn n out) at 3. unfold slice at 1. rewrite skipn_O.
  rewrite xorl_app by (rewrite firstn_length, length_slice; lia). f_equal. rewrite xorl_zeros; [reflexivity|]. rewrite skipn_length. lia.
Qed.
Lemma xor_block out buf io : length out = 16%nat -> (io + 16 <= length buf)%nat -> wxor buf io out 0 16 = Ok (xorl out (slice buf io 16)).
Proof. intros Lo Hb. rewrite xor_front by lia. cbn [Nat.sub zeros repeat]. now rewrite app_nil_r. Qed.

Lemma ghash_from_app h y a b : ghash_from h y (a ++ b) = ghash_from h (ghash_from h y a) b.
Proof. apply fold_left_app. Qed.
Lemma ghash_from_blk h y bs : blk16 y -> blk16 (ghash_from h y bs).
Proof. revert y. induction bs as [|b t IH]; intros y H; [exact H|]. apply IH. apply blk16_gmul. Qed.

Lemma pad_blocks_cons b l : length b = 16%nat -> pad_blocks (b ++ l) = b :: pad_blocks l.
Proof. intros H. unfold pad_blocks. rewrite chunks_app by (auto; lia). cbn [map]. rewrite H. cbn [Nat.sub zeros repeat]. now rewrite app_nil_r. Qed.
Definition tail_block (r : list Z) : list (list Z) := match r with [] => [] | _ => [r ++ zeros (16 - length r)] end.
Lemma pad_blocks_short r : (length r <= 16)%nat -> pad_blocks r = tail_block r.
Proof.
  intros H. destruct r as [|x t]; [reflexivity|]. unfold pad_blocks. rewrite chunks_cons by (auto; try lia; discriminate).
  rewrite firstn_all2, skipn_all2 by lia. reflexivity.
Qed.
Lemma pad_blocks_split bs r : (forall b, In b bs -> length b = 16%nat) -> (length r <= 16)%nat ->
  pad_blocks (concat bs ++ r) = bs ++ tail_block r.
Proof.
  intros Hb Hr. induction bs as [|b t IH]; [now apply pad_blocks_short|]. cbn [concat]. rewrite <- app_assoc.
  rewrite pad_blocks_cons by (apply Hb; now left). cbn [app]. f_equal. apply IH. intros; apply Hb; now right.
Qed.

Lemma slice_n0 {A} (l : list A) o : slice l o 0 = []. Proof. reflexivity. Qed.
(** Multiply *)
Lemma multiply_ok h inp : blk16 h -> bytes inp -> forall fuel boff out len, (len <= fuel)%nat -> (boff + len <= length inp)%nat -> blk16 out ->
  ghash_multiply fuel (key_of h) inp boff out len = Ok (ghash_from h out (pad_blocks (slice inp boff len))).
Proof.
  intros Hh Hi. induction fuel as [|f IH]; intros boff out len Hf Hl Ho.
  - replace len with 0%nat by lia. reflexivity.
  - cbn [ghash_multiply]. destruct (Nat.eqb_spec len 0) as [->|N]; [reflexivity|].
    destruct (Nat.le_gt_cases len 16) as [L|L].
    + rewrite Nat.min_l by lia. rewrite xor_front by (try apply Ho; lia). cbn [bind].
      assert (LS : length (slice inp boff len) = len) by (apply length_slice; lia).
      assert (P : blk16 (slice inp boff len ++ zeros (16 - len))) by (pose proof (blk16_pad (slice inp boff len)) as Q; rewrite LS in Q; apply Q; [now apply bytes_slice|lia]).
      rewrite Permute_ok by (auto using blk16_xorl). cbn [bind]. rewrite Nat.sub_diag.
      rewrite pad_blocks_short by lia. unfold tail_block. destruct (slice inp boff len) as [|x t] eqn:E; [cbn in LS; lia|].
      rewrite LS. destruct f; reflexivity.
    + rewrite Nat.min_r by lia. rewrite xor_block by (try apply Ho; lia). cbn [bind].
      assert (P : blk16 (slice inp boff 16)) by (split; [now apply bytes_slice|apply length_slice; lia]).
      rewrite Permute_ok by (auto using blk16_xorl). cbn [bind].
      rewrite IH by (auto using blk16_gmul; lia). f_equal.
      replace len with (16 + (len - 16))%nat at 2 by lia. rewrite slice_app, pad_blocks_cons by (rewrite length_slice; lia). reflexivity.
Qed.
Lemma Multiply_ok h g inp out : blk16 h -> gh_key g = key_of h -> bytes inp -> blk16 out ->
  GHASH_Multiply g inp out (length inp) = Ok (ghash_from h out (pad_blocks inp)).
Proof.
  intros Hh Hk Hi Ho. unfold GHASH_Multiply. rewrite Hk, multiply_ok by (auto; lia). now rewrite slice_all.
Qed.

(** Update: the data absorbed since the tag was [y0] *)
Definition ginv (h y0 d : list Z) (g : ghash) (tag : list Z) : Prop :=
  gh_key g = key_of h /\ blk16 (gh_buf g) /\ (gh_pos g <= 16)%nat /\
  exists bs, (forall b, In b bs -> blk16 b) /\ d = concat bs ++ slice (gh_buf g) 0 (gh_pos g) /\ tag = ghash_from h y0 bs.

Lemma ginv_start h y0 g : gh_key g = key_of h -> blk16 (gh_buf g) -> gh_pos g = 0%nat -> ginv h y0 [] g y0.
Proof. intros K B P. split; [exact K|split; [exact B|split; [lia|]]]. exists []. split; [intros ? []|]. rewrite P. split; reflexivity. Qed.

Lemma ghash_blocks_ok h inp : blk16 h -> bytes inp -> forall fuel io out len, (len <= fuel)%nat -> (0 < len)%nat -> (io + len <= length inp)%nat -> blk16 out ->
  exists bs rl, ghash_blocks fuel (key_of h) inp io out len = Ok (ghash_from h out bs, (io + (len - rl))%nat, rl) /\
    (forall b, In b bs -> blk16 b) /\ (0 < rl <= 16)%nat /\ (rl <= len)%nat /\
    slice inp io len = concat bs ++ slice inp (io + (len - rl)) rl.
Proof.
  intros Hh Hi. induction fuel as [|f IH]; intros io out len Hf H0 Hl Ho; [lia|].
  cbn [ghash_blocks]. destruct (Nat.ltb_spec 16 len) as [L|L].
  - rewrite xor_block by (try apply Ho; lia). cbn [bind].
    assert (P : blk16 (slice inp io 16)) by (split; [now apply bytes_slice|apply length_slice; lia]).
    rewrite Permute_ok by (auto using blk16_xorl). cbn [bind].
    destruct (IH (io + 16)%nat (gmul h (xorl out (slice inp io 16))) (len - 16)%nat) as (bs & rl & E & B & R1 & R2 & D); auto using blk16_gmul; try lia.
    exists (slice inp io 16 :: bs), rl. rewrite E. split; [|split; [|split; [lia|split; [lia|]]]].
    + cbn [ghash_from fold_left]. do 3 f_equal. lia.
    + intros b [<-|Hb]; auto.
    + replace len with (16 + (len - 16))%nat at 1 by lia. rewrite slice_app, D. cbn [concat]. rewrite <- app_assoc. do 3 f_equal. lia.
  - exists [], len. split; [|split; [intros ? []|split; [lia|split; [lia|]]]].
    + do 3 f_equal. lia.
    + cbn [concat app]. f_equal. lia.
Qed.
Lemma slice_wcopy_front (buf : list Z) pos d n : (pos + length d <= length buf)%nat -> n = (pos + length d)%nat ->
  slice (splice buf pos d) 0 n = slice buf 0 pos ++ d.
Proof.
  intros H ->. unfold slice, splice. rewrite !skipn_O. rewrite app_assoc, firstn_app. rewrite firstn_all2 by (rewrite app_length, firstn_length; lia).
  rewrite app_length, firstn_length. replace (pos + length d - _)%nat with 0%nat by lia. cbn [firstn]. now rewrite app_nil_r.
Qed.

Lemma Update_ok h y0 d g tag inp io len : blk16 h -> blk16 y0 -> ginv h y0 d g tag -> bytes inp -> (io + len <= length inp)%nat ->
  exists g' tag', GHASH_Update g inp io tag len = Ok (g', tag') /\ ginv h y0 (d ++ slice inp io len) g' tag'.
Proof.
  intros Hh Hy (K & B & P & bs & Hbs & Hd & Ht) Hi Hl. unfold GHASH_Update.
  destruct (Nat.eqb_spec len 0) as [->|N].
  { exists g, tag. split; [reflexivity|]. rewrite slice_n0, app_nil_r. split; [exact K|split; [exact B|split; [exact P|]]]. now exists bs. }
  assert (Htag : blk16 tag) by (rewrite Ht; now apply ghash_from_blk).
  (* after the optional flush *)
  set (st := if (gh_pos g =? 16)%nat then _ else _).
  assert (F : exists pos bs1 tag1, st = Ok (tag1, pos) /\ (pos < 16)%nat /\ (forall b, In b bs1 -> blk16 b) /\
              d = concat bs1 ++ slice (gh_buf g) 0 pos /\ tag1 = ghash_from h y0 bs1).
  { unfold st. destruct (Nat.eqb_spec (gh_pos g) 16) as [E|E].
    - rewrite K. rewrite xor_block by (try apply Htag; destruct B; lia). cbn [bind].
      rewrite slice_all by (destruct B; lia). rewrite Permute_ok by (auto using blk16_xorl). cbn [bind].
      exists 0%nat, (bs ++ [gh_buf g]), (gmul h (xorl tag (gh_buf g))). split; [reflexivity|split; [lia|split; [|split]]].
      + intros b Hb. apply in_app_or in Hb. destruct Hb as [Hb|[<-|[]]]; auto.
      + rewrite slice_n0, app_nil_r, Hd, E, concat_app. cbn [concat]. rewrite app_nil_r. f_equal. apply slice_all. destruct B; lia.
      + rewrite ghash_from_app, <- Ht. reflexivity.
    - exists (gh_pos g), bs, tag. split; [reflexivity|split; [lia|]]. auto. }
  destruct F as (pos & bs1 & tag1 & -> & Hpos & Hbs1 & Hd1 & Ht1). cbn [bind].
  replace (pos <=? 16)%nat with true by (symmetry; apply Nat.leb_le; lia). cbn [safe bind].
  assert (Htag1 : blk16 tag1) by (rewrite Ht1; now apply ghash_from_blk).
  destruct (Nat.ltb_spec (16 - pos) len) as [L|L].
  - rewrite wcopy_ok by (destruct B; lia). cbn [bind].
    set (buf := splice (gh_buf g) pos (slice inp io (16 - pos))).
    assert (Lw : length (slice inp io (16 - pos)) = (16 - pos)%nat) by (apply length_slice; lia).
    assert (Hbuf : blk16 buf).
    { destruct B as (B1 & B2). split; [apply bytes_splice; auto; now apply bytes_slice|]. unfold buf. rewrite length_splice; lia. }
    rewrite xor_block by (try apply Htag1; destruct Hbuf; lia). cbn [bind]. rewrite slice_all by (destruct Hbuf; lia).
    rewrite K, Permute_ok by (auto using blk16_xorl). cbn [bind].
    destruct (ghash_blocks_ok h inp Hh Hi len (io + (16 - pos))%nat (gmul h (xorl tag1 buf)) (len - (16 - pos))%nat) as (bs2 & rl & E & Hbs2 & R1 & R2 & D);
      auto using blk16_gmul; try lia.
    rewrite E. cbn [bind]. replace (0 <? rl)%nat with true by (symmetry; apply Nat.ltb_lt; lia).
    rewrite wcopy_ok by (destruct Hbuf; lia). cbn [bind]. rewrite Nat.add_0_l.
    eexists; eexists. split; [reflexivity|].
    set (tailw := slice inp _ rl) in *.
    assert (Lt : length tailw = rl) by (unfold tailw; apply length_slice; lia).
    assert (HB2 : blk16 (splice buf 0 tailw)).
    { destruct Hbuf as (B1 & B2). split; [apply bytes_splice; auto; now apply bytes_slice|]. rewrite length_splice; lia. }
    split; [reflexivity|split; [exact HB2|split; [cbn; lia|]]]. cbn [gh_buf gh_pos].
    exists (bs1 ++ buf :: bs2). split; [|split].
    + intros b Hb. apply in_app_or in Hb. destruct Hb as [Hb|[<-|Hb]]; auto.
    + rewrite slice_wcopy_front by (destruct Hbuf; lia). rewrite slice_n0, app_nil_l.
      rewrite concat_app. cbn [concat]. rewrite Hd1.
      replace len with ((16 - pos) + (len - (16 - pos)))%nat at 1 by lia. rewrite slice_app, D.
      assert (EB : buf = slice (gh_buf g) 0 pos ++ slice inp io (16 - pos)).
      { unfold buf. rewrite <- (slice_all (splice (gh_buf g) pos (slice inp io (16 - pos))) 16) by (fold buf; destruct Hbuf; lia).
        apply slice_wcopy_front; destruct B; lia. }
      rewrite EB, <- !app_assoc. reflexivity.
    + rewrite ghash_from_app, <- Ht1. reflexivity.
  - cbn [bind]. replace (0 <? len)%nat with true by (symmetry; apply Nat.ltb_lt; lia).
    rewrite wcopy_ok by (destruct B; lia). cbn [bind]. eexists; eexists. split; [reflexivity|].
    assert (Lw : length (slice inp io len) = len) by (apply length_slice; lia).
    split; [exact K|split; [|split; [cbn; lia|]]].
    + destruct B as (B1 & B2). split; [apply bytes_splice; auto; now apply bytes_slice|]. cbn [gh_buf]. rewrite length_splice; lia.
    + cbn [gh_buf gh_pos]. exists bs1. split; [exact Hbs1|split; [|exact Ht1]].
      rewrite slice_wcopy_front by (destruct B; lia). now rewrite Hd1, app_assoc.
Qed.
Lemma feed_ok h y0 ps : blk16 h -> blk16 y0 -> Forall p_ok ps -> forall d g tag, ginv h y0 d g tag ->
  exists g' tag', feed (fun st inp io len => GHASH_Update (fst st) inp io (snd st) len) ps (g, tag) = Ok (g', tag') /\
    ginv h y0 (d ++ joined ps) g' tag'.
Proof.
  intros Hh Hy. induction ps as [|p t IH]; intros HF d g tag G.
  - exists g, tag. split; [reflexivity|]. unfold joined. cbn. now rewrite app_nil_r.
  - inversion HF as [|? ? (P1 & P2) P3]; subst. cbn [feed fst snd].
    destruct (Update_ok h y0 d g tag (p_in p) (p_off p) (p_len p)) as (g1 & t1 & E1 & G1); auto.
    rewrite E1. cbn [bind]. destruct (IH P3 _ _ _ G1) as (g2 & t2 & E2 & G2). exists g2, t2. split; [exact E2|].
    unfold joined in *. cbn [map concat]. now rewrite app_assoc.
Qed.

(** Finalize *)
Lemma be8_mod x : be_bytes 8 (u64 x) = be_bytes 8 x.
Proof.
  unfold be_bytes. f_equal. apply le_val_inj; try apply bytes_le_bytes; [now rewrite !length_le_bytes|]. rewrite !le_val_le_bytes. change (256 ^ Z.of_nat 8) with (2 ^ 64). unfold u64. apply Z.mod_mod. lia.
Qed.
Lemma len_block_any a c : (t <- Be64ToBytes (u64 (Z.of_nat a * 8)) (zeros 16) 0 ;; Be64ToBytes (u64 (Z.of_nat c * 8)) t 8) = Ok (len_block a c).
Proof.
  rewrite Be64ToBytes_correct by (rewrite length_zeros; lia). cbn [bind].
  rewrite Be64ToBytes_correct by (rewrite length_splice; rewrite ?length_be_bytes, ?length_zeros; lia). f_equal. rewrite !be8_mod.
  pose proof (splice_splice_next (zeros 16) 0 (be_bytes 8 (Z.of_nat a * 8)) (be_bytes 8 (Z.of_nat c * 8))) as S.
  rewrite !length_be_bytes in S. rewrite length_zeros in S. cbn [Nat.add] in S. rewrite S by lia.
  rewrite splice_all by (rewrite app_length, !length_be_bytes, length_zeros; lia). unfold len_block. now rewrite !(Z.mul_comm 8).
Qed.
Lemma len_block_eq a c : (Z.of_nat a < 2 ^ 61) -> (Z.of_nat c < 2 ^ 61) ->
  (t <- Be64ToBytes (u64 (Z.of_nat a * 8)) (zeros 16) 0 ;; Be64ToBytes (u64 (Z.of_nat c * 8)) t 8) = Ok (len_block a c).
Proof. intros _ _. apply len_block_any. Qed.
Lemma blk16_len a c : blk16 (len_block a c).
Proof. split; [apply bytes_app; split; apply bytes_be_bytes|]. unfold len_block. now rewrite app_length, !length_be_bytes. Qed.
Lemma zero_tail (buf : list Z) n : length buf = 16%nat -> (n <= 16)%nat -> slice (splice buf n (zeros (16 - n))) 0 n = slice buf 0 n.
Proof. intros H1 H2. unfold slice, splice. rewrite !skipn_O. rewrite firstn_app, firstn_firstn, Nat.min_id, firstn_length, H1, Nat.min_l by lia.
  rewrite Nat.sub_diag. cbn [firstn]. now rewrite app_nil_r. Qed.
Lemma Finalize_any h y0 d g tag a c : blk16 h -> blk16 y0 -> ginv h y0 d g tag ->
  exists g', GHASH_Finalize g tag a c = Ok (g', ghash_from h y0 (pad_blocks d ++ [len_block a c])) /\ gh_key g' = key_of h /\ blk16 (gh_buf g').
Proof.
  intros Hh Hy (K & B & P & bs & Hbs & Hd & Ht). unfold GHASH_Finalize.
  assert (Htag : blk16 tag) by (rewrite Ht; now apply ghash_from_blk).
  set (st := if (gh_pos g =? 0)%nat then _ else _).
  assert (F : exists g1, st = Ok (g1, ghash_from h y0 (pad_blocks d)) /\ gh_key g1 = key_of h /\ blk16 (gh_buf g1)).
  { assert (Lr : length (slice (gh_buf g) 0 (gh_pos g)) = gh_pos g) by (apply length_slice; destruct B; lia).
    rewrite Hd, pad_blocks_split by (try lia; intros b Hb; now apply Hbs).
    unfold st. destruct (Nat.eqb_spec (gh_pos g) 0) as [E|E].
    - exists g. split; [|auto]. rewrite E. cbn. rewrite app_nil_r. now rewrite Ht.
    - assert (HB : exists buf, (if (gh_pos g =? 16)%nat then Ok (gh_buf g) else _ <- safe (gh_pos g <=? 16)%nat ;; wr (gh_buf g) (gh_pos g) (zeros (16 - gh_pos g))) = Ok buf
                  /\ blk16 buf /\ slice buf 0 (gh_pos g) = slice (gh_buf g) 0 (gh_pos g)).
      { destruct (Nat.eqb_spec (gh_pos g) 16) as [E'|E']; [exists (gh_buf g); auto|].
        replace (gh_pos g <=? 16)%nat with true by (symmetry; apply Nat.leb_le; lia). cbn [safe bind].
        destruct B as (B1 & B2). rewrite wr_ok by (rewrite length_zeros; lia). eexists. split; [reflexivity|]. split.
        - split; [apply bytes_splice; auto; apply bytes_zeros|]. rewrite length_splice; rewrite ?length_zeros; lia.
        - now apply zero_tail. }
      destruct HB as (buf & -> & Hbuf & Eb). cbn [bind]. rewrite xor_front by (try apply Htag; destruct Hbuf; lia). cbn [bind]. rewrite Eb.
      set (r := slice (gh_buf g) 0 (gh_pos g)) in *.
      assert (Pr : blk16 (r ++ zeros (16 - gh_pos g))) by (rewrite <- Lr; apply blk16_pad; [apply bytes_slice; apply B|lia]).
      rewrite K, Permute_ok by (auto using blk16_xorl). cbn [bind]. exists {| gh_key := key_of h; gh_buf := buf; gh_pos := gh_pos g |}. split; [|split; [reflexivity|exact Hbuf]].
      do 2 f_equal. rewrite ghash_from_app, <- Ht. unfold tail_block. destruct r as [|x t] eqn:Er; [cbn in Lr; lia|]. rewrite Lr. reflexivity. }
  destruct F as (g1 & -> & K1 & B1). cbn [bind]. pose proof (len_block_any a c) as LB.
  destruct (Be64ToBytes (u64 (Z.of_nat a * 8)) (zeros 16) 0) as [t| |] eqn:E1; cbn [bind] in LB; try discriminate. cbn [bind]. rewrite LB. cbn [bind].
  pose proof (blk16_len a c) as BL. pose proof (ghash_from_blk h y0 (pad_blocks d) Hy) as BY.
  rewrite xor_block by (try apply BY; destruct BL; lia). cbn [bind]. rewrite slice_all by (destruct BL; lia).
  rewrite K1, Permute_ok by (auto using blk16_xorl). cbn [bind]. exists g1. split; [|auto]. now rewrite ghash_from_app.
Qed.
Lemma Finalize_ok h y0 d g tag a c : blk16 h -> blk16 y0 -> ginv h y0 d g tag -> Z.of_nat a < 2 ^ 61 -> Z.of_nat c < 2 ^ 61 ->
  exists g', GHASH_Finalize g tag a c = Ok (g', ghash_from h y0 (pad_blocks d ++ [len_block a c])) /\ gh_key g' = key_of h /\ blk16 (gh_buf g').
Proof. intros Hh Hy HG _ _. now apply Finalize_any. Qed.
