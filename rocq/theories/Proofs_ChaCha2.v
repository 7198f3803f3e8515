(** Generate and Process of the stream ciphers, for any block function. *)
From Coq Require Import Permutation.
From Verif Require Import BaseLemmas Spec_Common Proofs_Common Model_IntegerTools Proofs_IntegerTools Model_Modes Proofs_Windows Model_ChaCha Spec_ChaCha.
Open Scope Z_scope.

(** * counters *)
Lemma counter_range w v : 0 < w -> 0 <= v mod 2 ^ w < 2 ^ w /\ 0 <= v / 2 ^ w mod 2 ^ w < 2 ^ w.
Proof. intros Hw. assert (0 < 2 ^ w) by (apply Z.pow_pos_nonneg; lia). split; apply Z.mod_pos_bound; lia. Qed.
Lemma counter_val w v : 0 < w -> v mod 2 ^ w + 2 ^ w * (v / 2 ^ w mod 2 ^ w) = v mod 2 ^ (2 * w).
Proof. intros Hw. assert (0 < 2 ^ w) by (apply Z.pow_pos_nonneg; lia). replace (2 * w) with (w + w) by lia. rewrite Z.pow_add_r by lia. now rewrite Z.rem_mul_r by lia. Qed.
Lemma counter_uniq w a b v : 0 < w -> 0 <= a < 2 ^ w -> 0 <= b < 2 ^ w -> a + 2 ^ w * b = v mod 2 ^ (2 * w) -> [a; b] = counter_words w v.
Proof.
  intros Hw Ha Hb E. unfold counter_words. rewrite <- counter_val in E by exact Hw. destruct (counter_range w v Hw) as [R1 R2].
  set (M := 2 ^ w) in *. assert (b = v / M mod M) by nia. assert (a = v mod M) by nia. congruence.
Qed.
Lemma inc_counter w v : 0 < w -> LeIncrementW w (counter_words w v) = Ok (counter_words w (v + 1)).
Proof.
  intros Hw. destruct (counter_range w v Hw) as [R1 R2]. unfold counter_words at 1. destruct (LeIncrementW_correct w _ _ Hw R1 R2) as (a & b & -> & A & Bb & E).
  f_equal. apply counter_uniq; auto. rewrite E, counter_val by auto. assert (0 < 2 ^ (2 * w)) by (apply Z.pow_pos_nonneg; lia). rewrite Zplus_mod_idemp_l. reflexivity.
Qed.
Lemma increase_counter w v out n : 0 < w -> length out = 2%nat -> 0 <= n < 2 ^ w -> LeIncreaseW w (counter_words w v) out n = Ok (counter_words w (v + n)).
Proof.
  intros Hw HL Hn. destruct (counter_range w v Hw) as [R1 R2]. unfold counter_words at 1. destruct (LeIncreaseW_correct w _ _ out n Hw R1 R2 HL Hn) as (a & b & -> & A & Bb & E).
  f_equal. apply counter_uniq; auto. rewrite E, counter_val by auto. rewrite Zplus_mod_idemp_l. reflexivity.
Qed.
Lemma counter_len w v : length (counter_words w v) = 2%nat. Proof. reflexivity. Qed.

(** * keystreams *)
Section KS.
Context (B : nat) (kb : Z -> list Z).
Hypothesis HB : (0 < B)%nat.
Hypothesis HK : forall v, length (kb v) = B.
Definition ksb (n : nat) (v : Z) : list Z := concat (map (fun i => kb (v + Z.of_nat i)) (seq 0 n)).
Lemma ksb_len n v : length (ksb n v) = (n * B)%nat.
Proof. unfold ksb. rewrite (concat_length_eq B), map_length, seq_length; [reflexivity|]. intros b Hb. apply in_map_iff in Hb. destruct Hb as (i & <- & _). apply HK. Qed.
Lemma ksb_app n m v : ksb (n + m) v = ksb n v ++ ksb m (v + Z.of_nat n).
Proof.
  unfold ksb. rewrite seq_app, map_app, concat_app. f_equal. cbn [Nat.add].
  replace (seq n m) with (map (fun i => (n + i)%nat) (seq 0 m)).
  - rewrite map_map. f_equal. apply map_ext. intros i. f_equal. lia.
  - clear. revert n; induction m as [|m IH]; intros n; [reflexivity|]. cbn [seq map]. f_equal; [lia|].
    rewrite <- (IH (S n)). rewrite <- seq_shift, map_map. apply map_ext. intros; lia.
Qed.
Lemma ksb_1 v : ksb 1 v = kb v.
Proof. unfold ksb. cbn [seq map concat]. rewrite app_nil_r. f_equal. lia. Qed.
Lemma keystream_len v n : length (keystream B kb v n) = n.
Proof. unfold keystream. now rewrite map_length, seq_length. Qed.
Lemma keystream_nth v n i : (i < n)%nat -> nth i (keystream B kb v n) 0 = stream_byte B kb v i.
Proof.
  intros H. unfold keystream. rewrite (nth_indep _ 0 (stream_byte B kb v 0)) by (rewrite map_length, seq_length; lia). rewrite map_nth, seq_nth by lia. f_equal.
Qed.
Lemma stream_byte_shift v n i : stream_byte B kb v (n * B + i) = stream_byte B kb (v + Z.of_nat n) i.
Proof. unfold stream_byte. rewrite Nat.div_add_l by lia. rewrite (Nat.add_comm (n * B)), Nat.mod_add by lia. do 2 f_equal. lia. Qed.
Lemma keystream_app v n b : keystream B kb v (n * B + b) = keystream B kb v (n * B) ++ keystream B kb (v + Z.of_nat n) b.
Proof.
  apply (list_ext 0); [rewrite app_length, !keystream_len; reflexivity|]. rewrite keystream_len. intros i Hi. rewrite keystream_nth by lia. destruct (Nat.lt_ge_cases i (n * B)).
  - rewrite app_nth1 by (rewrite keystream_len; lia). now rewrite keystream_nth.
  - rewrite app_nth2 by (rewrite keystream_len; lia). rewrite keystream_len, keystream_nth by lia. rewrite <- stream_byte_shift. f_equal. lia.
Qed.
Lemma keystream_block v b : (b <= B)%nat -> keystream B kb v b = firstn b (kb v).
Proof.
  intros H. apply (list_ext 0); [rewrite keystream_len, firstn_length, HK; lia|]. rewrite keystream_len. intros i Hi. rewrite keystream_nth by lia. rewrite nth_firstn_lt by lia.
  unfold stream_byte. rewrite Nat.mod_small, Nat.div_small by lia. do 2 f_equal. lia.
Qed.
Lemma keystream_ksb v n : keystream B kb v (n * B) = ksb n v.
Proof.
  revert v. induction n as [|n IH]; intros v; [reflexivity|]. replace (S n) with (1 + n)%nat by lia. rewrite ksb_app, ksb_1. replace ((1 + n) * B)%nat with (1 * B + n * B)%nat by lia. rewrite keystream_app, IH. f_equal.
  rewrite Nat.mul_1_l, keystream_block by lia. rewrite firstn_all2; [reflexivity|rewrite HK; lia].
Qed.
Lemma crypt_len v m : length (stream_crypt B kb v m) = length m.
Proof. unfold stream_crypt. rewrite length_xorl, keystream_len. lia. Qed.
Lemma crypt_app v n a b : length a = (n * B)%nat -> stream_crypt B kb v (a ++ b) = stream_crypt B kb v a ++ stream_crypt B kb (v + Z.of_nat n) b.
Proof. intros H. unfold stream_crypt. rewrite app_length, H, keystream_app. apply xorl_app. now rewrite keystream_len. Qed.
Lemma crypt_twice v m : stream_crypt B kb v (stream_crypt B kb v m) = m.
Proof.
  assert (L := crypt_len v m). unfold stream_crypt at 1. rewrite L. unfold stream_crypt. set (k := keystream B kb v (length m)). assert (LK : length k = length m) by apply keystream_len. clearbody k. clear L.
  revert k LK. induction m as [|x m IH]; intros [|y k] H; cbn in *; try discriminate; [reflexivity|]. rewrite IH by lia. f_equal. rewrite Z.lxor_assoc, Z.lxor_nilpotent, Z.lxor_0_r. reflexivity.
Qed.
Lemma nblocks_split len : nblocks B len = (len / B + (if len mod B =? 0 then 0 else 1))%nat.
Proof.
  unfold nblocks. pose proof (Nat.div_mod len B ltac:(lia)) as D. pose proof (Nat.mod_upper_bound len B ltac:(lia)).
  destruct (Nat.eqb_spec (len mod B) 0) as [E|E].
  - replace (len + B - 1)%nat with ((len / B) * B + (B - 1))%nat by lia. rewrite Nat.div_add_l by lia. rewrite (Nat.div_small (B - 1)) by lia. reflexivity.
  - replace (len + B - 1)%nat with ((len / B + 1) * B + (len mod B - 1))%nat by lia. rewrite Nat.div_add_l by lia. rewrite (Nat.div_small (len mod B - 1)) by lia. lia.
Qed.
Lemma nblocks_mul n b : nblocks B (n * B + b) = (n + nblocks B b)%nat.
Proof. rewrite !nblocks_split. rewrite Nat.div_add_l by lia. rewrite (Nat.add_comm (n * B)), Nat.mod_add by lia. lia. Qed.
Lemma nblocks_exact n : nblocks B (n * B) = n.
Proof. pose proof (nblocks_mul n 0) as H. rewrite Nat.add_0_r in H. rewrite H. unfold nblocks. rewrite (Nat.div_small (0 + B - 1)) by lia. lia. Qed.

(** * Generate *)
Context (w : Z) (perm : list Z -> nat -> list Z -> res (list Z)).
Hypothesis Hw : 0 < w.
Hypothesis HP : forall out oo v, (oo + B <= length out)%nat -> perm out oo (counter_words w v) = Ok (splice out oo (kb v)).
Local Notation enc := (counter_words w).
Lemma S_block_ok out o v : (o + B <= length out)%nat -> S_block w perm out o (enc v) = Ok (splice out o (ksb 1 v), enc (v + 1)).
Proof. intros H. unfold S_block. rewrite HP by exact H. cbn [bind]. rewrite inc_counter by exact Hw. cbn [bind]. now rewrite ksb_1. Qed.
Lemma perm_loop out o n : forall a done v, length done = (a * B)%nat -> (o + (a + n) * B <= length out)%nat ->
  for_up a n (fun j out => perm out (o + j * B) (enc (v + Z.of_nat j))) (splice out o done) = Ok (splice out o (done ++ ksb n (v + Z.of_nat a))).
Proof.
  induction n as [|n IH]; intros a done v Hd Ho; cbn [for_up]; [cbn; now rewrite app_nil_r|].
  rewrite HP by (rewrite length_splice; nia). cbn [bind].
  pose proof (splice_splice_next out o done (kb (v + Z.of_nat a))) as SS. rewrite Hd in SS. rewrite SS by (rewrite HK; nia).
  rewrite IH by (rewrite ?app_length, ?HK; nia). rewrite <- app_assoc. do 3 f_equal.
  change (S n) with (1 + n)%nat. rewrite ksb_app, ksb_1. do 2 f_equal. lia.
Qed.
Lemma upd_app_mid (a b : list Z) x v : upd (a ++ x :: b) (length a) v = a ++ v :: b.
Proof. clear. induction a as [|y a IH]; cbn; [reflexivity|]. now rewrite IH. Qed.
Lemma S_wide_ok s out o v : (o + B * s <= length out)%nat -> S_wide w B perm s out o (enc v) = Ok (splice out o (ksb s v), enc (v + Z.of_nat s)).
Proof.
  intros H. unfold S_wide.
  set (lo := fun i => (v + Z.of_nat i) mod 2 ^ w). set (hi := fun i => (v + Z.of_nat i) / 2 ^ w mod 2 ^ w).
  set (tm := fun j => map lo (seq 0 j) ++ zeros (s - j) ++ map hi (seq 0 j) ++ zeros (s - j)).
  destruct (for_up_inv (fun j st => (j <= s)%nat -> st = (tm j, enc (v + Z.of_nat j))) (fun j st => let '(tmpc, ctr) := st in
    a <- get ctr 0 ;; tmpc <- put tmpc j a ;; b <- get ctr 1 ;; tmpc <- put tmpc (s + j) b ;; ctr <- LeIncrementW w ctr ;; Ok (tmpc, ctr)) 0 s (zeros (2 * s), enc v)) as (st & E1 & E2).
  - intros _. f_equal; [|f_equal; lia]. unfold tm. cbn [seq map app]. rewrite Nat.sub_0_r. unfold zeros. rewrite <- repeat_app. f_equal. lia.
  - intros j st Hj I. cbn [Nat.add] in *. specialize (I ltac:(lia)). subst st. eexists. split; [|intros _; reflexivity].
    assert (LT : length (tm j) = (2 * s)%nat) by (unfold tm, zeros; rewrite !app_length, !map_length, !seq_length, !repeat_length; lia).
    cbn [counter_words get nth_error bind]. rewrite put_ok by lia. cbn [bind]. rewrite put_ok by (rewrite length_upd; lia). cbn [bind].
    change [(v + Z.of_nat j) mod 2 ^ w; (v + Z.of_nat j) / 2 ^ w mod 2 ^ w] with (enc (v + Z.of_nat j)). rewrite inc_counter by exact Hw. cbn [bind].
    do 2 f_equal; [|f_equal; lia]. unfold tm. rewrite !seq_S, !map_app. cbn [map Nat.add]. fold (lo j). fold (hi j).
    replace (s - j)%nat with (S (s - S j)) by lia. unfold zeros. cbn [repeat].
    assert (L1 : length (map lo (seq 0 j)) = j) by now rewrite map_length, seq_length. assert (L2 : length (map hi (seq 0 j)) = j) by now rewrite map_length, seq_length.
    pose proof (upd_app_mid (map lo (seq 0 j)) (repeat 0 (s - S j) ++ map hi (seq 0 j) ++ 0 :: repeat 0 (s - S j)) 0 (lo j)) as U1. rewrite L1 in U1. cbn [app] in U1 |- *. rewrite U1.
    pose proof (upd_app_mid (map lo (seq 0 j) ++ lo j :: repeat 0 (s - S j) ++ map hi (seq 0 j)) (repeat 0 (s - S j)) 0 (hi j)) as U2.
    replace (length (map lo (seq 0 j) ++ lo j :: repeat 0 (s - S j) ++ map hi (seq 0 j))) with (s + j)%nat in U2 by (rewrite app_length; cbn [length]; rewrite app_length, repeat_length, L1, L2; lia).
    repeat (rewrite <- ?app_assoc in *; cbn [app] in * ). rewrite U2. reflexivity.
  - rewrite E1. cbn [bind]. cbn [Nat.add] in E2. rewrite (E2 ltac:(lia)).
    assert (G : forall j out, (0 <= j < 0 + s)%nat -> (a <- get (tm s) j ;; b <- get (tm s) (s + j) ;; perm out (o + j * B) [a; b]) = perm out (o + j * B)%nat (enc (v + Z.of_nat j))).
    { intros j out' Hj. unfold tm. rewrite Nat.sub_diag. cbn [zeros repeat app]. rewrite app_nil_r.
      assert (L1 : length (map lo (seq 0 s)) = s) by now rewrite map_length, seq_length. assert (L2 : length (map hi (seq 0 s)) = s) by now rewrite map_length, seq_length.
      rewrite (get_ok _ _ 0) by (rewrite app_length; lia). cbn [bind]. rewrite (get_ok _ _ 0) by (rewrite app_length; lia). cbn [bind].
      rewrite app_nth1 by lia. rewrite app_nth2 by lia. rewrite L1. replace (s + j - s)%nat with j by lia.
      rewrite (nth_indep _ 0 (lo 0%nat)) by lia. rewrite map_nth. rewrite (nth_indep _ 0 (hi 0%nat)) by lia. rewrite map_nth. rewrite seq_nth by lia. reflexivity. }
    rewrite (for_up_ext _ _ _ _ _ G).
    pose proof (perm_loop out o s 0 [] v eq_refl) as PL. rewrite splice_nil in PL. rewrite PL by (cbn [Nat.add]; lia). cbn [bind app Z.of_nat]. rewrite Z.add_0_r. reflexivity.
Qed.
Lemma S_loop_blocks out oo n : forall a done v, length done = (a * B)%nat -> (oo + (a + n) * B <= length out)%nat ->
  for_up a n (fun k st => let '(out, ctr) := st in S_block w perm out (oo + B * k) ctr) (splice out oo done, enc v) = Ok (splice out oo (done ++ ksb n v), enc (v + Z.of_nat n)).
Proof.
  induction n as [|n IH]; intros a done v Hd Ho; cbn [for_up].
  - cbn. rewrite app_nil_r. do 2 f_equal. f_equal. lia.
  - assert (L1 := ksb_len 1 v). rewrite S_block_ok by (rewrite length_splice; nia). cbn [bind].
    pose proof (splice_splice_next out oo done (ksb 1 v)) as SS. rewrite Hd in SS. rewrite (Nat.mul_comm B a). rewrite SS by nia.
    rewrite IH by (rewrite ?app_length; nia). rewrite <- app_assoc. replace (v + 1) with (v + Z.of_nat 1) by lia. rewrite <- ksb_app. cbn [Nat.add]. do 3 f_equal. lia.
Qed.
Lemma S_loop_wide s out oo n : forall a done v, length done = (a * (B * s))%nat -> (oo + (a + n) * (B * s) <= length out)%nat ->
  for_up a n (fun k st => let '(out, ctr) := st in S_wide w B perm s out (oo + k * (B * s)) ctr) (splice out oo done, enc v) = Ok (splice out oo (done ++ ksb (n * s) v), enc (v + Z.of_nat (n * s))).
Proof.
  induction n as [|n IH]; intros a done v Hd Ho; cbn [for_up].
  - cbn. rewrite app_nil_r. do 2 f_equal. f_equal. lia.
  - assert (L1 := ksb_len s v). assert (oo + a * (B * s) + B * s <= length out)%nat by (set (R := (B * s)%nat) in *; nia).
    rewrite S_wide_ok by (rewrite length_splice; lia). cbn [bind].
    pose proof (splice_splice_next out oo done (ksb s v)) as SS. rewrite Hd in SS. rewrite SS by lia.
    rewrite IH by (rewrite ?app_length; lia). rewrite <- app_assoc, <- ksb_app. replace (S n * s)%nat with (s + n * s)%nat by lia. do 3 f_equal. lia.
Qed.
(** [len] bytes of keystream *)
Lemma S_Generate_ok s out oo len v : (oo + len <= length out)%nat ->
  S_Generate w B perm s out oo len (enc v) = Ok (splice out oo (keystream B kb v len), enc (v + Z.of_nat (nblocks B len))).
Proof.
  intros Ho. unfold S_Generate.
  set (n := (if (s =? 0)%nat then 0 else if (B * s <=? len)%nat then len / (B * s) else 0)%nat).
  assert (Hdm : (len = (len / B) * B + len mod B)%nat) by (pose proof (Nat.div_mod len B); lia).
  assert (Hmu : (len mod B < B)%nat) by (apply Nat.mod_upper_bound; lia).
  assert (Hbf := nblocks_split len). set (q := (len / B)%nat) in *. set (rm := (len mod B)%nat) in *.
  assert (Hn : (n * s <= q)%nat).
  { unfold n. destruct (Nat.eqb_spec s 0); [lia|]. destruct (B * s <=? len)%nat; [|lia]. rewrite <- Nat.div_div by lia. fold q. rewrite Nat.mul_comm. now apply Nat.mul_div_le. }
  clearbody n q rm.
  pose proof (S_loop_wide s out oo n 0 [] v) as W. rewrite splice_nil in W. rewrite W by (cbn [length]; nia). cbn [bind app].
  rewrite S_loop_blocks by (rewrite ?ksb_len; nia). cbn [bind]. rewrite <- ksb_app. replace (n * s + (q - n * s))%nat with q by lia.
  replace (v + Z.of_nat (n * s) + Z.of_nat (q - n * s)) with (v + Z.of_nat q) by lia.
  assert (LQ := ksb_len q v). rewrite Hbf. replace (keystream B kb v len) with (keystream B kb v (q * B + rm)) by (f_equal; lia). rewrite keystream_app, keystream_ksb.
  destruct (Nat.eqb_spec rm 0) as [Z0|Z0].
  - rewrite Z0. rewrite (app_nil_r (ksb q v) : ksb q v ++ keystream B kb _ 0 = ksb q v). now rewrite Nat.add_0_r.
  - rewrite HP by (unfold zeros; rewrite repeat_length; lia). cbn [bind]. rewrite inc_counter by exact Hw. cbn [bind].
    assert (LE := HK (v + Z.of_nat q)). rewrite splice_all by (unfold zeros; rewrite LE, repeat_length; reflexivity).
    rewrite wcopy_ok by (rewrite ?length_splice; lia). cbn [bind].
    pose proof (splice_splice_next out oo (ksb q v) (slice (kb (v + Z.of_nat q)) 0 rm)) as SS. rewrite LQ in SS.
    replace (len - rm)%nat with (q * B)%nat by lia. rewrite SS by (rewrite length_slice; lia).
    rewrite keystream_block by lia. do 3 f_equal. lia.
Qed.

(** * Process *)
Lemma prclen_ok inp io out oo len : (io + len <= length inp)%nat -> (oo + len <= length out)%nat -> Z.of_nat (length inp) < 2 ^ 64 -> Z.of_nat (length out) < 2 ^ 64 -> prclen inp io out oo len = len.
Proof. intros H1 H2 H3 H4. unfold prclen. rewrite !Z.mod_small by lia. destruct (Z.leb_spec (Z.of_nat (length inp) - Z.of_nat io) (Z.of_nat len)), (Z.leb_spec (Z.of_nat (length out) - Z.of_nat oo) (Z.of_nat len)); cbn [andb]; lia. Qed.
(** the xor loop over bytes [a .. len) of windows: both arrays separate *)
Lemma xor_tail l io out oo ks a n done : length done = a -> length ks = (a + n)%nat -> (oo + a + n <= length out)%nat -> (io + a + n <= length l)%nat ->
  for_up a n (fun i out => x <- get l (i + io) ;; y <- get out (i + oo) ;; put out (i + oo) (Z.lxor y x)) (splice (splice out oo ks) oo done) =
  Ok (splice out oo (done ++ xorl (slice l (io + a) n) (skipn a ks))).
Proof.
  intros Hd Hk Ho Hi. set (out1 := splice out oo ks). assert (L1 : length out1 = length out) by (apply length_splice; lia).
  rewrite (byte_loop out1 oo (fun i => Z.lxor (nth i ks 0) (nth (io + i) l 0)) _ n a done Hd); [|lia|].
  2:{ intros i d Hi' Hl. assert (L2 : length (splice out1 oo d) = length out) by (rewrite length_splice; lia).
      rewrite (get_ok _ _ 0) by lia. cbn [bind]. rewrite (get_ok _ _ 0) by lia. cbn [bind]. rewrite (Nat.add_comm i io), (Nat.add_comm i oo). do 2 f_equal.
      rewrite nth_splice by lia. destruct (Nat.ltb_spec (oo + i) oo); [lia|]. destruct (Nat.ltb_spec (oo + i) (oo + length d)); [lia|].
      unfold out1. rewrite nth_splice by lia. destruct (Nat.ltb_spec (oo + i) oo); [lia|]. destruct (Nat.ltb_spec (oo + i) (oo + length ks)); [|lia]. f_equal. lia. }
  unfold out1. rewrite splice_over by (rewrite ?app_length, ?map_length, ?seq_length; lia). do 3 f_equal.
  rewrite xorl_map_seq by (rewrite length_slice, ?skipn_length; lia). rewrite length_slice by lia.
  apply (list_ext 0); [now rewrite !map_length, !seq_length|]. rewrite map_length, seq_length. intros i Hi'.
  set (f := fun i => Z.lxor (nth i ks 0) (nth (io + i) l 0)). set (g := fun i => Z.lxor (nth i (slice l (io + a) n) 0) (nth i (skipn a ks) 0)).
  rewrite (nth_indep _ 0 (f 0%nat)) by (rewrite map_length, seq_length; lia). rewrite map_nth.
  rewrite (nth_indep _ 0 (g 0%nat)) by (rewrite map_length, seq_length; lia). rewrite map_nth, !seq_nth by lia. unfold f, g. cbn [Nat.add].
  rewrite nth_slice by lia. rewrite Z.lxor_comm. f_equal; [f_equal; lia|].
  rewrite <- (firstn_skipn a ks) at 1. rewrite app_nth2 by (rewrite firstn_length; lia). rewrite firstn_length. f_equal. lia.
Qed.
Definition fit (l out : list Z) (io oo len : nat) : Prop := (io + len <= length l)%nat /\ (oo + len <= length out)%nat /\ Z.of_nat (length l) < 2 ^ 64 /\ Z.of_nat (length out) < 2 ^ 64.
Lemma xorl_firstn_skipn (a k : list Z) n : length a = length k -> xorl (firstn n a) (firstn n k) ++ xorl (skipn n a) (skipn n k) = xorl a k.
Proof.
  clear. revert n k. induction a as [|x a IH]; intros [|n] [|y k] H; cbn [firstn skipn xorl app length] in *; try discriminate; auto. f_equal. apply IH. lia.
Qed.
Lemma S_seq_ok s p ord l io out oo len v : fit l out io oo len -> (sp_par p = false \/ (len < sp_min p)%nat) ->
  S_Process w B perm s p ord (Some l) io out oo len (enc v) = Ok (splice out oo (stream_crypt B kb v (slice l io len)), enc (v + Z.of_nat (nblocks B len))).
Proof.
  intros (Hi & Ho & Hl & Hl') HS. unfold S_Process. cbn [src]. rewrite prclen_ok by auto.
  replace (negb (sp_par p) || (len <? sp_min p)%nat) with true.
  2:{ symmetry. apply orb_true_iff. destruct HS as [->|HS]; [left; reflexivity|right; apply Nat.ltb_lt; exact HS]. }
  rewrite S_Generate_ok by lia. cbn [bind]. pose proof (keystream_len v len) as LK. set (ks := keystream B kb v len) in *.
  assert (Hmu : (len mod B <= len)%nat) by (apply Nat.mod_le; lia). set (aln := (len - len mod B)%nat). assert (Ha : (aln <= len)%nat) by (unfold aln; lia). clearbody aln. clear Hmu.
  assert (E : (if (aln =? 0)%nat then Ok (splice out oo ks) else wxor l io (splice out oo ks) oo aln) = Ok (splice (splice out oo ks) oo (xorl (slice l io aln) (firstn aln ks)))).
  { destruct (Nat.eqb_spec aln 0) as [->|]; [unfold slice; rewrite firstn_O; cbn [xorl]; now rewrite splice_nil|].
    rewrite wxor_ok by (rewrite ?length_splice; lia). do 2 f_equal. rewrite xorl_comm. f_equal.
    rewrite <- (slice_splice_here out oo ks len) at 2 by lia. unfold slice. rewrite firstn_firstn. f_equal. lia. }
  rewrite E. cbn [bind]. rewrite (xor_tail l io out oo ks aln (len - aln)).
  - cbn [bind]. do 3 f_equal. unfold stream_crypt. rewrite length_slice by lia. fold ks. rewrite <- (xorl_firstn_skipn (slice l io len) ks aln) by (rewrite length_slice; lia). f_equal; f_equal.
    + unfold slice. rewrite firstn_firstn. f_equal. lia.
    + unfold slice. rewrite skipn_firstn_comm, skipn_skipn. f_equal. f_equal. lia.
  - rewrite length_xorl, length_slice, firstn_length by lia. lia.
  - lia.
  - lia.
  - lia.
Qed.
Lemma wcopy2 a b : length a = 2%nat -> length b = 2%nat -> wcopy a 0 b 0 2 = Ok a.
Proof. intros H1 H2. rewrite wcopy_ok by lia. rewrite slice_all by lia. rewrite splice_all by lia. reflexivity. Qed.
Lemma crypt_concat m l io v n : (io + n * (m * B) <= length l)%nat ->
  concat (map (fun i => stream_crypt B kb (v + Z.of_nat (m * i)) (slice l (io + i * (m * B)) (m * B))) (seq 0 n)) = stream_crypt B kb v (slice l io (n * (m * B))).
Proof.
  induction n as [|n IH]; intros H; [reflexivity|]. rewrite seq_S, map_app, concat_app, IH by lia. cbn [map concat Nat.add]. rewrite app_nil_r.
  replace (S n * (m * B))%nat with (n * (m * B) + m * B)%nat by lia. rewrite slice_app. rewrite (crypt_app v (n * m)) by (rewrite length_slice; lia). do 3 f_equal. lia.
Qed.
(** the parallel path: every order of the workers; the tail is only right at OutOffset 0 *)
Lemma S_par_ok s p ord l io out oo len v : fit l out io oo len -> (0 < sp_deg p)%nat -> (sp_deg p * B <= sp_min p)%nat -> Permutation ord (seq 0 (sp_deg p)) ->
  Z.of_nat (len / B) < 2 ^ w -> (oo = 0 \/ len mod (sp_deg p * B) = 0)%nat ->
  S_Process w B perm s p ord (Some l) io out oo len (enc v) = Ok (splice out oo (stream_crypt B kb v (slice l io len)), enc (v + Z.of_nat (nblocks B len))).
Proof.
  intros F Hd Hm HO Hc HT. destruct (Bool.orb_true_iff (negb (sp_par p)) (len <? sp_min p)%nat) as [HC _].
  destruct (negb (sp_par p) || (len <? sp_min p)%nat) eqn:EC.
  { apply S_seq_ok; [exact F|]. destruct (HC eq_refl) as [H|H]; [left; now destruct (sp_par p)|right; now apply Nat.ltb_lt]. }
  clear HC. destruct F as (Hi & Ho & Hl & Hl'). unfold S_Process. cbn [src]. rewrite prclen_ok by auto. rewrite EC. apply Bool.orb_false_iff in EC. destruct EC as [_ EC]. apply Nat.ltb_ge in EC.
  replace (sp_deg p =? 0)%nat with false by (symmetry; apply Nat.eqb_neq; lia). cbn [negb safe bind]. cbv zeta.
  set (dg := sp_deg p) in *. set (m := (len / B / dg)%nat).
  assert (Hq : (len / B = dg * m + (len / B) mod dg)%nat) by (apply Nat.div_mod; lia).
  assert (Hqm : ((len / B) mod dg < dg)%nat) by (apply Nat.mod_upper_bound; lia).
  assert (Hlb : (len = (len / B) * B + len mod B)%nat) by (pose proof (Nat.div_mod len B); lia).
  assert (Hlm : (len mod B < B)%nat) by (apply Nat.mod_upper_bound; lia).
  assert (Hm0 : (0 < m)%nat).
  { unfold m. apply Nat.div_str_pos. split; [lia|]. apply Nat.div_le_lower_bound; nia. }
  replace (m * B / B)%nat with m by (rewrite Nat.div_mul; lia).
  set (q := (len / B)%nat) in *. clearbody m q.
  set (cnk := (m * B)%nat) in *. assert (Hcn : (cnk * dg <= len)%nat) by (unfold cnk; clear - Hlb Hq; nia).
  assert (B0 : forall i, (i < dg)%nat -> (i * cnk + cnk <= len)%nat) by (intros i H; clear - H Hcn; nia).
  assert (B1 : forall i, (i < dg)%nat -> (io + i * cnk + cnk <= length l)%nat) by (intros i H; specialize (B0 i H); lia).
  assert (B2 : forall i, (i < dg)%nat -> (oo + i * cnk + cnk <= length out)%nat) by (intros i H; specialize (B0 i H); lia).
  assert (NB : nblocks B cnk = m) by (apply nblocks_exact).
  assert (BC : forall i, (i < dg)%nat -> 0 <= Z.of_nat (m * i) < 2 ^ w).
  { intros i H. assert (m * i <= q)%nat by (clear - H Hq; nia). lia. }
  assert (BO : (oo + dg * cnk <= length out)%nat) by lia.
  rewrite (workers_ok cnk dg oo out (fun i => stream_crypt B kb (v + Z.of_nat (m * i)) (slice l (io + i * cnk) cnk))
    (fun i t => if (i =? dg - 1)%nat then enc (v + Z.of_nat (m * (dg - 1)) + Z.of_nat m) else t) (fun t => length t = 2%nat)); [| | |  | |reflexivity|exact HO].
  3:{ exact BO. }
  2:{ intros i H. rewrite crypt_len. apply length_slice. auto. }
  2:{ intros i t H Ht. destruct (i =? dg - 1)%nat; auto. }
  2:{ intros i out' t H L Ht _. rewrite increase_counter by (auto; reflexivity). cbn [bind].
      specialize (B1 i H). specialize (B2 i H). rewrite S_Generate_ok by lia. cbn [bind]. pose proof (keystream_len (v + Z.of_nat (m * i)) cnk) as LK.
      rewrite wxor_ok by (rewrite ?length_splice; lia). cbn [bind]. rewrite slice_splice_here by lia.
      assert (LS : length (slice l (io + i * cnk) cnk) = cnk) by (apply length_slice; lia).
      rewrite splice_over by (rewrite ?length_xorl; lia). unfold stream_crypt. rewrite LS, xorl_comm, NB.
      destruct (Nat.eqb_spec i (dg - 1)) as [->|]; [|reflexivity]. rewrite wcopy2 by auto. reflexivity. }
  cbn [bind]. rewrite fold_last by (apply (Permutation_in _ (Permutation_sym HO)); apply in_seq; lia).
  rewrite wcopy2 by reflexivity. cbn [bind]. unfold cnk at 1. rewrite crypt_concat by (fold cnk; lia). fold cnk.
  replace (v + Z.of_nat (m * (dg - 1)) + Z.of_nat m) with (v + Z.of_nat (dg * m)) by (clear - Hd; nia).
  assert (HR : (cnk * dg = dg * m * B)%nat) by (unfold cnk; lia).
  destruct (Nat.ltb_spec (cnk * dg) len) as [LT|GE].
  - replace (cnk * dg =? 0)%nat with false by (symmetry; apply Nat.eqb_neq; unfold cnk; clear - Hd Hm0 HB; nia). cbn [negb safe bind].
    set (rnd := (cnk * dg)%nat) in *.
    assert (Hoo : oo = 0%nat \/ (oo <> 0 /\ len mod (dg * B) = 0)%nat) by (destruct HT; [now left|destruct (Nat.eq_dec oo 0); auto]).
    assert (HF : (len < 2 * rnd)%nat) by (rewrite HR; assert (q + 1 <= 2 * (dg * m))%nat by (clear - Hq Hqm Hm0; nia); assert ((q + 1) * B <= 2 * (dg * m) * B)%nat by (apply Nat.mul_le_mono_r; assumption); clear - Hlb Hlm H0; nia).
    assert (FM : (len mod rnd = len - rnd)%nat).
    { symmetry. apply (Nat.mod_unique len rnd 1); lia. }
    destruct Hoo as [->|[Hoo Hz]].
    2:{ exfalso. apply Nat.mod_divides in Hz; [|clear - Hd HB; nia]. destruct Hz as (c & Hz). assert (len mod B = 0)%nat by (rewrite Hz; replace (dg * B * c)%nat with (dg * c * B)%nat by lia; apply Nat.mod_mul; lia).
        assert (q = dg * c)%nat by (clear - Hz Hlb H HB; nia). assert (q mod dg = 0)%nat by (rewrite H0; rewrite Nat.mul_comm; apply Nat.mod_mul; lia). clear - Hlb H Hq H1 LT HR. nia. }
    rewrite FM. assert (LSR : length (slice l io rnd) = rnd) by (apply length_slice; lia).
    replace (dg * cnk)%nat with rnd by (unfold rnd; lia).
    rewrite S_Generate_ok by (rewrite length_splice; rewrite ?crypt_len; lia). cbn [bind].
    set (v' := v + Z.of_nat (dg * m)). pose proof (keystream_len v' (len - rnd)) as LK.
    set (out1 := splice out 0 (stream_crypt B kb v (slice l io rnd))). assert (LO : length out1 = length out) by (unfold out1; rewrite length_splice; rewrite ?crypt_len; lia).
    pose proof (xor_tail l (io + rnd) out1 rnd (keystream B kb v' (len - rnd)) 0 (len - rnd) [] eq_refl) as X. rewrite splice_nil in X. cbn [app skipn] in X.
    erewrite for_up_ext. 2:{ intros i o' Hi'. replace (i + io + rnd)%nat with (i + (io + rnd))%nat by lia. replace (i + 0 + rnd)%nat with (i + rnd)%nat by lia. reflexivity. }
    rewrite X by lia. cbn [bind]. rewrite Nat.add_0_r.
    replace (nblocks B len) with (dg * m + nblocks B (len - rnd))%nat by (rewrite <- nblocks_mul; f_equal; lia).
    do 2 f_equal; [|f_equal; unfold v'; lia].
    pose proof (splice_splice_next out 0 (stream_crypt B kb v (slice l io rnd)) (xorl (slice l (io + rnd) (len - rnd)) (keystream B kb v' (len - rnd)))) as SS.
    rewrite crypt_len, LSR in SS. cbn [Nat.add] in SS. unfold out1. rewrite SS by (rewrite length_xorl, length_slice; lia). f_equal.
    replace len with (rnd + (len - rnd))%nat at 3 by lia. rewrite slice_app. rewrite (crypt_app v (dg * m)) by lia. f_equal. unfold stream_crypt. rewrite length_slice by lia. reflexivity.
  - assert (len = cnk * dg)%nat by lia. subst len. rewrite (Nat.mul_comm cnk dg). do 3 f_equal. rewrite (Nat.mul_comm dg cnk), HR, nblocks_exact. lia.
Qed.
(** same array: the result is zeros *)
End KS.
