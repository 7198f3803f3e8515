(** The stateless HMACs. *)
From Verif Require Import BaseLemmas Spec_Common Spec_Feed Spec_MAC Spec_SHA2 Model_IntegerTools Proofs_IntegerTools Proofs_Windows Proofs_Modes5
  Model_Modes Model_Absorb Proofs_Absorb Model_SHA2 Proofs_SHA2 Proofs_SHA2obj Proofs_SHA2cmp Model_HMAC Proofs_HMAC.
Open Scope Z_scope.

Section stateless.
Context (R L n : nat) (perm : list Z -> nat -> list Z -> res (list Z)) (iv : list Z)
  (put_len : Z -> list Z -> res (list Z)) (put_words : list Z -> list Z -> nat -> res (list Z)) (F : list Z -> list Z -> list Z) (W : list Z -> list Z).
Hypothesis HR : (0 < L /\ 2 * n = R /\ n + 1 + L <= R)%nat.
Hypothesis R128 : (R <= 128)%nat.
Hypothesis Hperm : forall inp io h, length h = 8%nat -> bytes inp -> (io + R <= length inp)%nat -> perm inp io h = Ok (F h (slice inp io R)).
Hypothesis HF : forall h b, length h = 8%nat -> length (F h b) = 8%nat.
Hypothesis Hiv : length iv = 8%nat.
Hypothesis Hlen : forall x buf, 0 <= x < 2 ^ 61 -> length buf = R -> put_len (wshl 64 x 3) buf = Ok (splice buf (R - L) (be_bytes L (8 * x))).
Hypothesis Hwords : forall h out oo, length h = 8%nat -> (oo + n <= length out)%nat -> put_words h out oo = Ok (splice out oo (W h)).
Hypothesis HW : forall h, length h = 8%nat -> length (W h) = n.
Hypothesis HWb : forall h, bytes (W h).
Definition hash (m : list Z) : list Z := W (merkle R L F iv m).
Definition sI (s : list Z * Z) : Prop := length (fst s) = 8%nat.
Definition sg (s : list Z * Z) (b : list Z) : list Z * Z := (F (fst s) b, u64 (snd s + Z.of_nat R)).
Lemma fold_sg bs : forall h t, fold_left sg bs (h, t) = (fold_left F bs h, if bs then t else u64 (t + Z.of_nat R * Z.of_nat (length bs))).
Proof.
  clear. induction bs as [|b bs IH]; intros h t; [reflexivity|]. cbn [fold_left]. unfold sg at 2. cbn [fst snd]. rewrite IH. f_equal.
  destruct bs; cbn [length]; [f_equal; lia|]. unfold u64. rewrite Z.add_mod_idemp_l by lia. f_equal. lia.
Qed.
Lemma fold_F_len bs : forall h, length h = 8%nat -> length (fold_left F bs h) = 8%nat.
Proof. induction bs; intros h H; [exact H|]. cbn [fold_left]. auto. Qed.
Lemma put_last d x : (length d < R)%nat -> length x = L ->
  let b := d ++ [128] ++ zeros (R - 1 - length d) in
  last_blocks R L d x = if (R - L <? S (length d))%nat then [b; splice (zeros R) (R - L) x] else [splice b (R - L) x].
Proof.
  clear - HR. intros H1 H2 b. unfold last_blocks. destruct (Nat.ltb_spec (R - L) (S (length d))).
  - replace (length d <? R - L)%nat with false by (symmetry; apply Nat.ltb_ge; lia). do 2 f_equal.
    replace (zeros R) with (zeros (R - L) ++ zeros (length x)) by (rewrite <- zeros_app; f_equal; lia). rewrite <- (app_nil_r (zeros (length x))). rewrite splice_mid by (rewrite ?length_zeros; lia). now rewrite app_nil_r.
  - replace (length d <? R - L)%nat with true by (symmetry; apply Nat.ltb_lt; lia). f_equal. unfold b.
    replace (R - 1 - length d)%nat with (R - L - 1 - length d + length x)%nat by lia. rewrite zeros_app.
    replace (d ++ [128] ++ zeros (R - L - 1 - length d) ++ zeros (length x)) with ((d ++ [128] ++ zeros (R - L - 1 - length d)) ++ zeros (length x) ++ []) by (rewrite app_nil_r, <- !app_assoc; reflexivity).
    rewrite splice_mid by (rewrite ?app_length, ?length_zeros; cbn [length]; lia). now rewrite app_nil_r, <- !app_assoc.
Qed.
Lemma blocks_hash bs d x : Forall (blk R) bs -> (length d < R)%nat -> x = 8 * Z.of_nat (length (concat bs ++ d)) ->
  fold_left F (last_blocks R L d (be_bytes L x)) (fold_left F bs iv) = merkle R L F iv (concat bs ++ d).
Proof. clear - HR. intros H1 H2 ->. unfold merkle, sha2_pad. rewrite <- fold_left_app. f_equal. symmetry. apply pad_blocks; auto; try lia. apply length_be_bytes. Qed.

Lemma stateless_ok key inp io len out oo : bytes key -> (length key <= R)%nat -> bytes inp -> (io + len <= length inp)%nat -> (oo + n <= length out)%nat -> Z.of_nat (R + len) < 2 ^ 61 ->
  stateless_mac R L n perm iv put_len put_words key inp io len out oo = Ok (splice out oo (hmac hash R key (slice inp io len))).
Proof.
  intros Bk Lk Hb Hl Ho H61. unfold stateless_mac, hmac, hmac_key. rewrite (proj2 (Nat.ltb_ge _ _) Lk).
  set (k := key ++ zeros (R - length key)).
  assert (Lk' : length k = R) by (unfold k; rewrite app_length, length_zeros; lia).
  assert (Bk' : bytes k) by (apply bytes_app; split; [exact Bk|apply bytes_zeros]).
  assert (CK : wcopy key 0 (zeros R) 0 (length key) = Ok k).
  { rewrite wcopy_ok by (rewrite ?length_zeros; lia). f_equal. rewrite slice_all by reflexivity. unfold k. replace (zeros R) with (zeros (length key) ++ zeros (R - length key)) by (rewrite <- zeros_app; f_equal; lia).
    apply (splice_mid [] (zeros (length key)) key); [now rewrite length_zeros|reflexivity]. }
  rewrite CK. cbn [bind]. cbv zeta. rewrite !XorPad_pad.
  set (ip := pad_with 54 k). set (op := pad_with 92 k).
  assert (Li : length ip = R) by (unfold ip; now rewrite pad_with_len). assert (Lo : length op = R) by (unfold op; now rewrite pad_with_len).
  assert (Bi : bytes ip) by (apply pad_with_bytes; auto; unfold is_byte; lia). assert (Bo : bytes op) by (apply pad_with_bytes; auto; unfold is_byte; lia).
  rewrite Hperm by (auto; lia). cbn [bind]. rewrite slice_all by auto.
  set (f := fun (s : list Z * Z) inp io => h <- perm inp io (fst s) ;; Ok (h, u64 (snd s + Z.of_nat R))).
  assert (Hf : forall s b o, sI s -> bytes b -> (o + R <= length b)%nat -> f s b o = Ok (sg s (slice b o R)) /\ sI (sg s (slice b o R))).
  { intros s b o H1 H2 H3. split; [unfold f; rewrite Hperm by auto; reflexivity|]. now apply HF. }
  destruct (eager_blocks_ok R R f sg sI ltac:(lia) Hf inp Hb len (F iv ip, Z.of_nat R) io len) as (bs & rl & E & I & Hbs & R1 & R2 & D); auto. { now apply HF. }
  rewrite E. cbn [bind]. clear E.
  rewrite <- bind_assoc. rewrite copy_pad by lia. cbn [bind]. set (d := slice inp (io + (len - rl)) rl) in *.
  assert (Ld : length d = rl) by (apply length_slice; lia). assert (Bd : bytes d) by now apply bytes_slice.
  rewrite fold_sg in *. cbn [fst snd]. set (t := if bs then Z.of_nat R else _).
  set (m := slice inp io len) in *. assert (LM : length m = (length bs * R + rl)%nat) by (rewrite D, app_length, (concat_len R) by auto; lia).
  assert (LL : length m = len) by (apply length_slice; lia).
  assert (ET : u64 (t + Z.of_nat rl) = Z.of_nat (length (ip ++ m))).
  { rewrite app_length, Li. unfold t. destruct bs; cbn [length] in *; unfold u64; [rewrite Z.mod_small; lia|]. rewrite Z.add_mod_idemp_l by lia. rewrite Z.mod_small; lia. }
  rewrite ET. clear ET t. set (x := Z.of_nat (length (ip ++ m))) in *. assert (Hx : 0 <= x < 2 ^ 61) by (unfold x; rewrite app_length; lia).
  set (h := fold_left F bs (F iv ip)) in *. assert (Hh : length h = 8%nat) by exact I.
  assert (EM : merkle R L F iv (ip ++ m) = fold_left F (last_blocks R L d (be_bytes L (8 * x))) h).
  { rewrite D at 1. rewrite app_assoc. change (ip ++ concat bs) with (concat (ip :: bs)). symmetry. apply (blocks_hash (ip :: bs) d); [constructor; [split; auto|auto]|lia|].
    unfold x. cbn [concat]. rewrite <- app_assoc, <- D. reflexivity. }
  pose proof (put_last d (be_bytes L (8 * x)) ltac:(lia) ltac:(apply length_be_bytes)) as PL. cbv zeta in PL. rewrite Ld in PL.
  set (b := d ++ [128] ++ zeros (R - 1 - rl)) in *.
  assert (Lb : length b = R) by (subst b; rewrite !app_length, length_zeros; cbn [length]; lia).
  assert (Bb : bytes b) by (subst b; apply bytes_app; split; [exact Bd|]; apply bytes_app; split; [constructor; [unfold is_byte; lia|constructor]|apply bytes_zeros]).
  assert (IN : exists h1 buf1, (if (R - L <? S rl)%nat then h <- perm b 0 h ;; Ok (h, zeros R) else Ok (h, b)) = Ok (h1, buf1) /\ length h1 = 8%nat /\ length buf1 = R /\ bytes buf1 /\
    merkle R L F iv (ip ++ m) = F h1 (splice buf1 (R - L) (be_bytes L (8 * x)))).
  { rewrite EM, PL. destruct (R - L <? S rl)%nat.
    - rewrite Hperm by (auto; lia). cbn [bind]. rewrite slice_all by auto. exists (F h b), (zeros R). split; [reflexivity|]. split; [now apply HF|]. split; [apply length_zeros|]. split; [apply bytes_zeros|reflexivity].
    - exists h, b. split; [reflexivity|]. auto. }
  destruct IN as (h1 & buf1 & -> & H1 & Lb1 & Bb1 & EM'). cbn [bind]. clear PL EM.
  rewrite Hlen by auto. cbn [bind].
  assert (L2 : length (splice buf1 (R - L) (be_bytes L (8 * x))) = R) by (rewrite length_splice; rewrite ?length_be_bytes; lia).
  rewrite Hperm by (auto using bytes_splice, bytes_be_bytes; lia). cbn [bind]. rewrite slice_all by auto. rewrite <- EM'.
  set (hi := merkle R L F iv (ip ++ m)) in *. assert (Hhi : length hi = 8%nat) by (rewrite EM'; now apply HF).
  rewrite Hwords by (auto; lia). cbn [bind]. set (buf2 := splice buf1 _ _) in *. clearbody buf2. clear EM' buf1 Lb1 Bb1 H1 h1.
  rewrite wr_ok by (rewrite length_splice, length_zeros; rewrite ?HW; auto; lia). cbn [bind].
  replace (splice (splice buf2 0 (W hi)) n (zeros n)) with (splice (splice buf2 0 (W hi)) (0 + length (W hi)) (zeros n)) by (rewrite HW by auto; reflexivity).
  assert (LWz : length (W hi ++ zeros n) = R) by (rewrite app_length, length_zeros, HW; auto; lia).
  rewrite splice_splice_next by (rewrite length_zeros, HW; auto; lia). rewrite splice_all by lia.
  rewrite Hperm by (auto; lia). cbn [bind]. rewrite slice_all by auto.
  rewrite put_ok by lia. cbn [bind].
  set (d2 := W hi) in *. assert (Ld2 : length d2 = n) by now apply HW.
  assert (U : upd (d2 ++ zeros n) n 128 = d2 ++ [128] ++ zeros (R - 1 - length d2)).
  { rewrite <- Ld2 at 2. replace (length d2) with (length d2 + 0)%nat at 1 by lia. rewrite upd_app_r. f_equal. rewrite Ld2. replace n with (S (R - 1 - n)) at 1 by lia. reflexivity. }
  rewrite U. assert (L4 : length (d2 ++ [128] ++ zeros (R - 1 - length d2)) = R) by (rewrite !app_length, length_zeros; cbn [length]; lia).
  rewrite Hlen by (auto; lia). cbn [bind].
  pose proof (put_last d2 (be_bytes L (8 * Z.of_nat (R + n))) ltac:(lia) ltac:(apply length_be_bytes)) as PL. cbv zeta in PL.
  replace (R - L <? S (length d2))%nat with false in PL by (symmetry; apply Nat.ltb_ge; lia).
  assert (B5 : bytes (splice (d2 ++ [128] ++ zeros (R - 1 - length d2)) (R - L) (be_bytes L (8 * Z.of_nat (R + n))))).
  { apply bytes_splice; [|apply bytes_be_bytes]. apply bytes_app; split; [apply HWb|]. apply bytes_app; split; [constructor; [unfold is_byte; lia|constructor]|apply bytes_zeros]. }
  rewrite Hperm; [|now apply HF|exact B5|rewrite length_splice; rewrite ?length_be_bytes; lia].
  cbn [bind]. rewrite slice_all by (rewrite length_splice; rewrite ?length_be_bytes; lia).
  rewrite Hwords by (auto; lia). do 2 f_equal. unfold hash at 1. f_equal.
  change (op ++ hash (ip ++ m)) with (op ++ d2). replace (op ++ d2) with (concat [op] ++ d2) by (cbn [concat]; now rewrite app_nil_r).
  rewrite <- (blocks_hash [op] d2 (8 * Z.of_nat (R + n))).
  - rewrite PL. reflexivity.
  - constructor; [split; auto|constructor].
  - lia.
  - cbn [concat]. rewrite app_nil_r, app_length. lia.
Qed.
End stateless.
