(** The SP 800-185 encodings, Customize and the key block. *)
From Verif Require Import BaseLemmas Spec_Common Spec_Feed Spec_Keccak Model_IntegerTools Proofs_IntegerTools Proofs_IntegerTools2 Model_Modes Model_Absorb Model_Keccak Model_SHAKE Proofs_Windows Proofs_Absorb Proofs_SHA2obj
  Proofs_Keccak Proofs_Sponge Proofs_SHA3 Proofs_XOF.
Open Scope Z_scope.

(** * encodings *)
Lemma enc_count_ok fuel v : 0 <= v < 2 ^ (8 * Z.of_nat fuel) -> enc_count fuel v = if v =? 0 then 0%nat else byte_len v.
Proof.
  revert v. induction fuel as [|k IH]; intros v H.
  - cbn in H. assert (v = 0) by lia. now subst.
  - cbn [enc_count]. destruct (Z.ltb_spec 0 v) as [P|P].
    + destruct (Z.eqb_spec v 0) as [E|E]; [lia|]. unfold wshr. rewrite IH.
      2:{ rewrite Z.shiftr_div_pow2 by lia. split; [apply Z.div_pos; lia|]. apply Z.div_lt_upper_bound; [lia|]. rewrite <- Z.pow_add_r by lia. replace (8 + 8 * Z.of_nat k) with (8 * Z.of_nat (S k)) by lia. lia. }
      unfold byte_len. rewrite Z.log2_shiftr by lia. pose proof (Z.log2_nonneg v). rewrite Z.shiftr_div_pow2 by lia. destruct (Z.eqb_spec (v / 2 ^ 8) 0) as [Q|Q].
      * assert (v < 2 ^ 8) by (change (2 ^ 8) with 256 in *; lia). pose proof (Z.log2_lt_pow2 v 8 ltac:(lia)). replace (Z.log2 v / 8) with 0 by lia. reflexivity.
      * assert (2 ^ 8 <= v) by (change (2 ^ 8) with 256 in *; lia). pose proof (Z.log2_le_pow2 v 8 ltac:(lia)). rewrite Z.max_r by lia.
        replace (Z.log2 v / 8 + 1) with (Z.succ ((Z.log2 v - 8) / 8 + 1)) by lia. rewrite Z2Nat.inj_succ by lia. reflexivity.
    + destruct (Z.eqb_spec v 0); [reflexivity|lia].
Qed.
Lemma enc_n_ok v : 0 <= v < 2 ^ 64 -> enc_n v = byte_len v.
Proof.
  intros H. unfold enc_n. rewrite enc_count_ok by exact H. destruct (Z.eqb_spec v 0) as [->|E]; [reflexivity|].
  destruct (Nat.eqb_spec (byte_len v) 0) as [Q|Q]; [|reflexivity]. unfold byte_len in Q. pose proof (Z.log2_nonneg v). lia.
Qed.
Lemma byte_len_pos v : (0 < byte_len v)%nat.
Proof. unfold byte_len. pose proof (Z.log2_nonneg v). lia. Qed.
Lemma byte_len_le v k : 0 < k -> v < 2 ^ (8 * k) -> (byte_len v <= Z.to_nat k)%nat.
Proof.
  intros Hk H. unfold byte_len. destruct (Z.le_gt_cases v 0) as [N|N]; [rewrite Z.log2_nonpos by exact N; change (0 / 8) with 0; lia|].
  pose proof (Z.log2_lt_pow2 v (8 * k) N). lia.
Qed.
Lemma be_digits n v : map (fun i => u8 (wshr v (8 * Z.of_nat (n - i)))) (seq 1 n) = be_bytes n v.
Proof.
  unfold be_bytes. apply (list_ext 0); [rewrite map_length, seq_length, rev_length, length_le_bytes; reflexivity|].
  intros i Hi. rewrite map_length, seq_length in Hi. rewrite (nth_indep _ 0 ((fun i => u8 (wshr v (8 * Z.of_nat (n - i)))) 0%nat)) by (rewrite map_length, seq_length; lia).
  rewrite (map_nth (fun i => u8 (wshr v (8 * Z.of_nat (n - i))))), seq_nth by lia. rewrite rev_nth by (rewrite length_le_bytes; lia). rewrite length_le_bytes, nth_le_bytes by lia.
  unfold u8, wshr. rewrite Z.shiftr_div_pow2 by lia. change 256 with (2 ^ 8). rewrite <- Z.pow_mul_r by lia. reflexivity.
Qed.
Lemma left_len v : length (left_encode v) = S (byte_len v).
Proof. unfold left_encode. cbn [length]. now rewrite length_be_bytes. Qed.
Lemma right_len v : length (right_encode v) = S (byte_len v).
Proof. unfold right_encode. rewrite app_length, length_be_bytes. cbn [length]. lia. Qed.
Lemma left_le9 v : v < 2 ^ 64 -> (length (left_encode v) <= 9)%nat.
Proof. intros H. rewrite left_len. pose proof (byte_len_le v 8 ltac:(lia) H). lia. Qed.
Lemma right_le9 v : v < 2 ^ 64 -> (length (right_encode v) <= 9)%nat.
Proof. intros H. rewrite right_len. pose proof (byte_len_le v 8 ltac:(lia) H). lia. Qed.
Lemma left_bytes v : v < 2 ^ 64 -> bytes (left_encode v).
Proof. intros H. constructor; [|apply bytes_be_bytes]. pose proof (byte_len_le v 8 ltac:(lia) H). red. lia. Qed.
Lemma right_bytes v : v < 2 ^ 64 -> bytes (right_encode v).
Proof. intros H. apply Forall_app. split; [apply bytes_be_bytes|]. pose proof (byte_len_le v 8 ltac:(lia) H). constructor; [red; lia|constructor]. Qed.
Lemma digits_loop n v out o : (o + n <= length out)%nat ->
  for_up 1 n (fun i out => put out (o + (i - 1)) (u8 (wshr v (8 * Z.of_nat (n - i))))) out = Ok (splice out o (be_bytes n v)).
Proof.
  intros HL. rewrite <- be_digits.
  assert (G : forall k a done, length done = (a - 1)%nat -> (0 < a)%nat -> (o + (a - 1) + k <= length out)%nat ->
    for_up a k (fun i out => put out (o + (i - 1)) (u8 (wshr v (8 * Z.of_nat (n - i))))) (splice out o done) = Ok (splice out o (done ++ map (fun i => u8 (wshr v (8 * Z.of_nat (n - i)))) (seq a k)))).
  { induction k as [|k IH]; intros a done L1 L2 L3; [cbn [for_up seq map]; now rewrite app_nil_r|]. cbn [for_up seq map].
    rewrite put_ok by (rewrite length_splice; lia). cbn [bind]. rewrite <- L1, upd_splice_snoc by lia. rewrite IH; [now rewrite <- app_assoc|rewrite app_length; cbn [length]; lia|lia|lia]. }
  specialize (G n 1%nat [] eq_refl ltac:(lia) ltac:(lia)). rewrite splice_nil in G. exact G.
Qed.
Lemma LeftEncode_ok out oo v : 0 <= v < 2 ^ 64 -> (oo + length (left_encode v) <= length out)%nat ->
  LeftEncode out oo v = Ok (splice out oo (left_encode v), length (left_encode v)).
Proof.
  intros Hv HL. unfold LeftEncode. rewrite enc_n_ok by exact Hv. set (n := byte_len v). rewrite left_len in *. fold n in HL |- *.
  rewrite (for_up_ext _ _ _ (fun i out => put out (oo + 1 + (i - 1)) (u8 (wshr v (8 * Z.of_nat (n - i)))))) by (intros i x Hi; f_equal; lia).
  rewrite digits_loop by lia. cbn [bind]. rewrite put_ok by (rewrite length_splice by (rewrite length_be_bytes; lia); lia). cbn [bind]. f_equal. f_equal; [|lia].
  unfold left_encode. fold n. change (Z.of_nat n :: be_bytes n v) with ([Z.of_nat n] ++ be_bytes n v).
  apply (list_ext 0); [rewrite length_upd, !length_splice; rewrite ?app_length, ?length_be_bytes; cbn [length]; lia|].
  intros i Hi. rewrite length_upd, length_splice in Hi by (rewrite length_be_bytes; lia).
  rewrite (nth_splice _ oo) by (rewrite app_length, length_be_bytes; cbn [length]; lia). rewrite app_length, length_be_bytes. cbn [length app].
  destruct (Nat.eq_dec i oo) as [->|N].
  - rewrite nth_upd_same by (rewrite length_splice; rewrite ?length_be_bytes; lia). rewrite Nat.ltb_irrefl. replace (oo <? oo + (1 + n))%nat with true by (symmetry; apply Nat.ltb_lt; lia). now rewrite Nat.sub_diag.
  - rewrite nth_upd_other by lia. rewrite nth_splice by (rewrite length_be_bytes; lia). rewrite length_be_bytes.
    destruct (Nat.ltb_spec i (oo + 1)), (Nat.ltb_spec i oo), (Nat.ltb_spec i (oo + 1 + n)), (Nat.ltb_spec i (oo + (1 + n))); try lia; try reflexivity.
    replace (i - oo)%nat with (S (i - (oo + 1))) by lia. reflexivity.
Qed.
Lemma RightEncode_ok out oo v : 0 <= v < 2 ^ 64 -> (oo + length (right_encode v) <= length out)%nat ->
  RightEncode out oo v = Ok (splice out oo (right_encode v), length (right_encode v)).
Proof.
  intros Hv HL. unfold RightEncode. rewrite enc_n_ok by exact Hv. set (n := byte_len v). rewrite right_len in *. fold n in HL |- *.
  rewrite digits_loop by lia. cbn [bind]. rewrite put_ok by (rewrite length_splice by (rewrite length_be_bytes; lia); lia). cbn [bind]. f_equal. f_equal; [|lia].
  replace (oo + n)%nat with (oo + length (be_bytes n v))%nat by now rewrite length_be_bytes. apply upd_splice_snoc. rewrite length_be_bytes. lia.
Qed.

(** * strings absorbed byte by byte *)
Lemma block_state_zeros d k : (length d + k <= 200)%nat -> block_state (d ++ zeros k) = block_state d.
Proof. intros H. unfold block_state. f_equal. rewrite <- app_assoc, <- zeros_app, app_length, length_zeros. do 2 f_equal. lia. Qed.
Lemma slice_upd_front (l : list Z) o n i v : (o + n <= i)%nat -> slice (upd l i v) o n = slice l o n.
Proof.
  intros H. unfold slice. revert i H. revert o. induction l as [|x l IH]; intros [|o] [|i] H; cbn [upd skipn]; auto; try (destruct n; [reflexivity|lia]).
  - destruct n; [reflexivity|]. cbn [firstn]. f_equal. specialize (IH 0%nat).
    clear IH. revert i l H. induction n as [|n IHn]; intros i l H; [reflexivity|]. destruct i; [lia|]. destruct l; [reflexivity|]. cbn [upd firstn]. f_equal. apply IHn. lia.
  - apply IH. lia.
Qed.
Lemma slice_snoc_upd (l : list Z) n v : (n < length l)%nat -> slice (upd l n v) 0 (n + 1) = slice l 0 n ++ [v].
Proof.
  intros H. rewrite slice_app. rewrite slice_upd_front by lia. f_equal. apply (list_ext 0); [rewrite length_slice; [reflexivity|rewrite length_upd; lia]|].
  intros i Hi. rewrite length_slice in Hi by (rewrite length_upd; lia). rewrite BaseLemmas.nth_slice by lia. assert (i = 0)%nat by lia. subst. rewrite Nat.add_0_r. cbn [Nat.add nth]. apply nth_upd_same. exact H.
Qed.
Section strs.
Context (R rate : nat) (st0 : list Z).
Hypothesis HR : rounds_ok R.
Hypothesis Hrate : (0 < rate <= 200)%nat.
Hypothesis Hst0 : st_ok st0.
Let F := fold_left (absorb_block (keccak R) rate).
Definition sinv (X : list Z) (p : list Z * nat * list Z) : Prop :=
  let '(pad, off, st) := p in
  (off <= rate)%nat /\ length pad = 200%nat /\ bytes pad /\ (X <> [] -> 0 < off)%nat /\
  exists bs, Forall (blk rate) bs /\ X = concat bs ++ slice pad 0 off /\ st = F bs st0.
Lemma sinv_start : sinv [] (zeros 200, 0%nat, st0).
Proof.
  split; [lia|]. split; [apply length_zeros|]. split; [apply bytes_zeros|]. split; [congruence|]. exists []. split; [constructor|]. split; reflexivity.
Qed.
Lemma sinv_off X pad off st : sinv X (pad, off, st) -> X <> [] -> off = ((length X - 1) mod rate + 1)%nat.
Proof.
  intros (H1 & H2 & H3 & H4 & bs & H5 & H6 & H7) N. specialize (H4 N). rewrite H6, app_length, (concat_len rate) by assumption. rewrite length_slice by lia.
  replace (length bs * rate + off - 1)%nat with (off - 1 + length bs * rate)%nat by lia. rewrite Nat.mod_add, Nat.mod_small by lia. lia.
Qed.
Lemma str_byte_ok X p s i : sinv X p -> bytes s -> (i < length s)%nat -> exists p', str_byte (Permute R) rate s i p = Ok p' /\ sinv (X ++ [nth i s 0]) p'.
Proof.
  destruct p as ((pad & off) & st). intros (H1 & H2 & H3 & H4 & bs & H5 & H6 & H7) Hs Hi. unfold str_byte.
  assert (Hst : st_ok st) by (rewrite H7; apply fold_g_ok; auto; lia).
  rewrite (get_ok s i 0) by exact Hi. destruct (Nat.eqb_spec off rate) as [E|E].
  - rewrite FastAbsorb_ok by (auto; lia). cbn [bind]. rewrite perm_ok; [|exact HR|apply xor_lanes_ok; [exact Hst|apply block_state_ok; [now apply bytes_slice|rewrite length_slice; lia]]].
    rewrite put_ok by lia. cbn [bind]. eexists. split; [reflexivity|].
    split; [lia|]. split; [now rewrite length_upd|]. split; [apply bytes_upd; auto; now apply bytes_nth|]. split; [lia|].
    assert (LS : length (slice pad 0 rate) = rate) by (apply length_slice; lia).
    exists (bs ++ [slice pad 0 rate]). split; [apply Forall_app; split; [assumption|constructor; [|constructor]]; split; [now apply bytes_slice|exact LS]|].
    split.
    + rewrite H6, E, concat_app. cbn [concat]. rewrite app_nil_r. f_equal. destruct pad as [|x pad]; [cbn in H2; lia|]. reflexivity.
    + rewrite H7. unfold F. rewrite fold_left_app. cbn [fold_left]. unfold absorb_block at 2. unfold block_state. now rewrite LS.
  - cbn [bind]. rewrite put_ok by lia. cbn [bind]. eexists. split; [reflexivity|].
    split; [lia|]. split; [now rewrite length_upd|]. split; [apply bytes_upd; auto; now apply bytes_nth|]. split; [lia|].
    exists bs. split; [assumption|]. split; [|assumption]. rewrite slice_snoc_upd by lia. rewrite app_assoc. now rewrite H6.
Qed.
Lemma absorb_str_ok X pad off st s : sinv X (pad, off, st) -> bytes s -> exists p', absorb_str (Permute R) rate s pad off st = Ok p' /\ sinv (X ++ s) p'.
Proof.
  intros H Hs. unfold absorb_str.
  destruct (for_up_inv (fun j p => sinv (X ++ firstn j s) p) (str_byte (Permute R) rate s) 0 (length s) (pad, off, st)) as (p' & E & H').
  - cbn [firstn]. rewrite app_nil_r. exact H.
  - intros j p Hj Hp. destruct (str_byte_ok _ p s j Hp Hs ltac:(lia)) as (p' & E & H'). exists p'. split; [exact E|].
    rewrite <- app_assoc in H'. replace (firstn (S j) s) with (firstn j s ++ [nth j s 0]); [exact H'|].
    clear - Hj. destruct Hj as [_ Hj]. cbn [Nat.add] in Hj. revert j Hj. induction s as [|x s IH]; intros [|j] Hj; cbn [length] in *; try lia; [reflexivity|]. cbn [firstn nth app]. f_equal. apply IH. lia.
  - exists p'. split; [exact E|]. cbn [Nat.add] in H'. rewrite firstn_all in H'. exact H'.
Qed.
Lemma left_step X pad off st v : sinv X (pad, off, st) -> 0 <= v < 2 ^ 64 -> (off + length (left_encode v) <= rate)%nat ->
  exists pad', LeftEncode pad off v = Ok (pad', length (left_encode v)) /\ sinv (X ++ left_encode v) (pad', (off + length (left_encode v))%nat, st).
Proof.
  intros (H1 & H2 & H3 & H4 & bs & H5 & H6 & H7) Hv HL. rewrite LeftEncode_ok by (auto; lia). eexists. split; [reflexivity|].
  split; [lia|]. split; [now rewrite length_splice by lia|]. split; [apply bytes_splice; auto; apply left_bytes; lia|]. split; [rewrite left_len; lia|].
  exists bs. split; [assumption|]. split; [|assumption]. rewrite H6, <- app_assoc. f_equal. rewrite slice_app. f_equal.
  - unfold slice, splice. cbn [skipn]. rewrite firstn_app, firstn_firstn, firstn_length. replace (Nat.min off off) with off by lia. replace (off - Nat.min off (length pad))%nat with 0%nat by lia. rewrite firstn_O, app_nil_r. reflexivity.
  - cbn [Nat.add]. rewrite slice_splice_same by lia. reflexivity.
Qed.
Definition fill (X : list Z) : list Z := X ++ zeros ((rate - length X mod rate) mod rate).
Lemma round8_le off : (off <= 200)%nat -> (off <= round8 off <= 200)%nat.
Proof.
  clear. intros H. unfold round8. pose proof (Nat.div_mod off 8 ltac:(lia)). pose proof (Nat.mod_upper_bound off 8 ltac:(lia)). destruct (Nat.eqb_spec (off mod 8) 0); [lia|].
  assert (off / 8 < 25)%nat by (apply Nat.div_lt_upper_bound; lia || (assert (off <> 200)%nat by (intros ->; cbn in n; lia); lia)). lia.
Qed.
Lemma last_ok X pad off st pad' : sinv X (pad, off, st) -> X <> [] -> clear_from pad off = Ok pad' ->
  keccak R (xor_lanes st (block_state (slice pad' 0 (round8 off)))) = absorb (keccak R) rate st0 (fill X) /\ bytes pad' /\ length pad' = 200%nat /\ st_ok st /\ st_ok (xor_lanes st (block_state (slice pad' 0 (round8 off)))).
Proof.
  intros Hv N E. pose proof Hv as (H1 & H2 & H3 & H4 & bs & H5 & H6 & H7). specialize (H4 N). rewrite clear_from_ok in E by lia. injection E as <-.
  assert (LS : length (slice pad 0 off) = off) by (apply length_slice; lia). pose proof (round8_le off ltac:(lia)) as R8.
  assert (Hst : st_ok st) by (rewrite H7; apply fold_g_ok; auto; lia).
  assert (B : bytes (slice pad 0 off ++ zeros (length pad - off))) by (apply Forall_app; split; [now apply bytes_slice|apply bytes_zeros]).
  assert (L : length (slice pad 0 off ++ zeros (length pad - off)) = 200%nat) by (rewrite app_length, length_zeros; lia).
  split; [|split; [exact B|split; [exact L|split; [exact Hst|apply xor_lanes_ok; [exact Hst|apply block_state_ok; [now apply bytes_slice|rewrite length_slice; lia]]]]]].
  assert (ES : slice (slice pad 0 off ++ zeros (length pad - off)) 0 (round8 off) = slice pad 0 off ++ zeros (round8 off - off)).
  { unfold slice at 1. cbn [skipn]. rewrite firstn_app, firstn_all2 by lia. f_equal. rewrite LS. unfold zeros. clear - R8 H2. remember (length pad - off)%nat as k. remember (round8 off - off)%nat as j. assert (j <= k)%nat by lia. clear - H. revert k H. induction j as [|j IH]; intros [|k] H; cbn; try lia; auto. f_equal. apply IH. lia. }
  rewrite ES, block_state_zeros by lia. unfold absorb, fill. rewrite H6 at 1. rewrite <- app_assoc, chunks_concat by (auto; lia). rewrite fold_left_app. unfold F in H7. rewrite <- H7.
  replace ((rate - length X mod rate) mod rate)%nat with (rate - off)%nat.
  2:{ pose proof (sinv_off X pad off st Hv N) as EO. assert (length X = length bs * rate + off)%nat by (rewrite H6, app_length, (concat_len rate) by assumption; lia).
      rewrite H. rewrite Nat.add_comm, Nat.mod_add by lia. destruct (Nat.eq_dec off rate) as [->|Q]; [rewrite Nat.mod_same, Nat.sub_0_r, Nat.mod_same by lia; lia|]. rewrite (Nat.mod_small off) by lia. rewrite Nat.mod_small; lia. }
  rewrite chunk1 by (rewrite ?app_length, ?length_zeros; lia). cbn [fold_left]. rewrite (g_eq R rate) by (rewrite app_length, length_zeros; lia). rewrite block_state_zeros by lia. reflexivity.
Qed.
End strs.

(** * Customize, the key block *)
Definition strlen_ok (s : list Z) : Prop := 8 * Z.of_nat (length s) < 2 ^ 64.
Lemma u64_len s : strlen_ok s -> u64 (Z.of_nat (length s) * 8) = 8 * Z.of_nat (length s).
Proof. unfold strlen_ok. intros H. unfold u64. rewrite Z.mod_small; lia. Qed.
(** the length of the customization string still fits into the block that holds the end of the name *)
Definition cust_fits (rate : nat) (name cust : list Z) : Prop :=
  ((length (left_encode (Z.of_nat rate) ++ encode_string name) - 1) mod rate + 1 + length (left_encode (8 * Z.of_nat (length cust))) <= rate)%nat.
Lemma rate_left rate : (0 < rate <= 200)%nat -> length (left_encode (Z.of_nat rate)) = 2%nat.
Proof.
  intros H. rewrite left_len. f_equal. pose proof (byte_len_pos (Z.of_nat rate)). pose proof (byte_len_le (Z.of_nat rate) 1 ltac:(lia) ltac:(change (2 ^ (8 * 1)) with 256; lia)). lia.
Qed.
Lemma bytepad_fill rate X : bytepad X rate = fill rate (left_encode (Z.of_nat rate) ++ X).
Proof. reflexivity. Qed.
Lemma Customize_ok R cust name rate st : rounds_ok R -> (11 <= rate <= 200)%nat -> st_ok st -> bytes cust -> bytes name -> strlen_ok cust -> strlen_ok name -> cust_fits rate name cust ->
  Customize R cust name rate st = Ok (absorb (keccak R) rate st (bytepad (encode_string name ++ encode_string cust) rate)) /\
  st_ok (absorb (keccak R) rate st (bytepad (encode_string name ++ encode_string cust) rate)).
Proof.
  intros HR Hr Hs Bc Bn Lc Ln Hf. unfold Customize. pose proof (rate_left rate ltac:(lia)) as L2. unfold strlen_ok in Lc, Ln.
  destruct (left_step R rate st ltac:(lia) [] (zeros 200) 0%nat st (Z.of_nat rate) (sinv_start R rate st ltac:(lia))) as (p1 & -> & I1); [lia|lia|]. cbn [bind]. cbn [app] in I1.
  rewrite !u64_len by assumption. pose proof (left_le9 _ Ln) as L9. rewrite Nat.add_0_l in I1.
  destruct (left_step R rate st ltac:(lia) _ _ _ _ (8 * Z.of_nat (length name)) I1) as (p2 & -> & I2); [lia|lia|]. cbn [bind].
  destruct (absorb_str_ok R rate st HR ltac:(lia) Hs _ _ _ _ name I2 Bn) as (((p3 & o3) & s3) & -> & I3). cbn [bind].
  rewrite <- app_assoc in I3. fold (encode_string name) in I3.
  pose proof (sinv_off R rate st ltac:(lia) _ _ _ _ I3 ltac:(unfold left_encode; discriminate)) as E3. unfold cust_fits in Hf. rewrite <- E3 in Hf.
  destruct (left_step R rate st ltac:(lia) _ _ _ _ (8 * Z.of_nat (length cust)) I3) as (p4 & -> & I4); [lia|lia|]. cbn [bind].
  destruct (absorb_str_ok R rate st HR ltac:(lia) Hs _ _ _ _ cust I4 Bc) as (((p5 & o5) & s5) & -> & I5). cbn [bind].
  rewrite <- !app_assoc in I5. fold (encode_string cust) in I5.
  assert (O5 : (o5 <= 200)%nat /\ length p5 = 200%nat) by (destruct I5 as (? & ? & _); lia).
  destruct (clear_from p5 o5) as [p6| |] eqn:E6; [|rewrite clear_from_ok in E6 by lia; discriminate|rewrite clear_from_ok in E6 by lia; discriminate].
  destruct (last_ok R rate st ltac:(lia) Hs _ _ _ _ p6 I5 ltac:(unfold left_encode; discriminate) E6) as (HL & B6 & L6 & S5 & SX). cbn [bind].
  pose proof (round8_le o5 ltac:(lia)). rewrite FastAbsorb_ok by (auto; lia). cbn [bind]. rewrite perm_ok by auto. rewrite HL. rewrite bytepad_fill. split; [reflexivity|]. rewrite <- HL. now apply keccak_ok.
Qed.
Lemma nth_lane_words b j : (8 * j + 8 <= length b)%nat -> nth j (lane_words b) 0 = le_val (slice b (8 * j) 8).
Proof.
  revert b. induction j as [|j IH]; intros b H.
  - rewrite <- (firstn_skipn 8 b) at 1. unfold lane_words. rewrite chunks8_cons by (rewrite firstn_length; lia). reflexivity.
  - rewrite <- (firstn_skipn 8 b) at 1. unfold lane_words. rewrite chunks8_cons by (rewrite firstn_length; lia). cbn [map nth]. change (map le_val (chunks 8 (skipn 8 b))) with (lane_words (skipn 8 b)).
    rewrite IH by (rewrite skipn_length; lia). unfold slice. rewrite skipn_skipn. do 3 f_equal. lia.
Qed.
Lemma nth_xor_lanes A B j : length A = length B -> nth j (xor_lanes A B) 0 = Z.lxor (nth j A 0) (nth j B 0).
Proof.
  revert B j. induction A as [|x A IH]; intros [|y B] [|j] H; cbn [length] in H; try discriminate; try reflexivity. unfold xor_lanes. cbn [combine map nth fst snd]. apply IH. lia.
Qed.
Lemma word_loop pad st m : st_ok st -> bytes pad -> length pad = 200%nat -> (m <= 25)%nat ->
  for_up 0 m (fun k st => w <- LeBytesTo64 pad (8 * k)%nat ;; x <- get st k ;; put st k (Z.lxor x w)) st = Ok (xor_lanes st (block_state (slice pad 0 (8 * m)))).
Proof.
  intros [L F] B LP Hm.
  destruct (for_up_inv (fun k s => length s = 25%nat /\ forall j, nth j s 0 = if (j <? k)%nat then Z.lxor (nth j st 0) (le_val (slice pad (8 * j) 8)) else nth j st 0)
    (fun k st => w <- LeBytesTo64 pad (8 * k)%nat ;; x <- get st k ;; put st k (Z.lxor x w)) 0 m st) as (s & E & Ls & Hs).
  - split; [exact L|]. intros j. reflexivity.
  - intros k s Hk [Ls Hs]. unfold LeBytesTo64. rewrite LeBytesTo_correct by lia. cbn [bind]. rewrite (get_ok _ _ 0) by lia. cbn [bind]. rewrite put_ok by lia.
    eexists. split; [reflexivity|]. split; [now rewrite length_upd|]. intros j. destruct (Nat.eq_dec j k) as [->|N].
    + rewrite nth_upd_same by lia. replace (k <? S k)%nat with true by (symmetry; apply Nat.ltb_lt; lia). rewrite Hs, Nat.ltb_irrefl. reflexivity.
    + rewrite nth_upd_other by lia. rewrite Hs. destruct (Nat.ltb_spec j k), (Nat.ltb_spec j (S k)); try lia; reflexivity.
  - rewrite E. f_equal. destruct (block_state_ok (slice pad 0 (8 * m)) ltac:(now apply bytes_slice) ltac:(rewrite length_slice; lia)) as [LB _].
    assert (LX : length (xor_lanes st (block_state (slice pad 0 (8 * m)))) = 25%nat) by (unfold xor_lanes; rewrite map_length, combine_length; lia).
    apply (list_ext 0); [lia|]. intros j Hj. rewrite nth_xor_lanes by lia. rewrite Hs. unfold block_state.
    assert (LS : length (slice pad 0 (8 * m)) = (8 * m)%nat) by (rewrite length_slice; lia). cbn [Nat.add].
    rewrite nth_lane_words by (rewrite app_length, length_zeros; lia). destruct (Nat.ltb_spec j m) as [Q|Q].
    + f_equal. f_equal. apply (list_ext 0); [rewrite !length_slice; rewrite ?app_length, ?length_zeros; lia|]. intros i Hi. rewrite length_slice in Hi by lia.
      rewrite !BaseLemmas.nth_slice by lia. rewrite app_nth1 by lia. rewrite BaseLemmas.nth_slice by lia. reflexivity.
    + replace (le_val _) with 0; [now rewrite Z.lxor_0_r|]. symmetry. rewrite <- (le_val_zeros 8). f_equal. apply (list_ext 0); [rewrite length_slice, length_zeros; rewrite ?app_length, ?length_zeros; lia|].
      intros i Hi. rewrite length_slice in Hi by (rewrite ?app_length, ?length_zeros; lia). rewrite BaseLemmas.nth_slice by lia. rewrite app_nth2 by lia. unfold zeros. now rewrite !nth_repeat.
Qed.
Lemma round8_mul off : (8 * (round8 off / 8) = round8 off)%nat.
Proof.
  assert (E : (round8 off mod 8 = 0)%nat).
  { unfold round8. destruct (Nat.eqb_spec (off mod 8) 0) as [Q|Q]; [exact Q|]. pose proof (Nat.mod_upper_bound off 8 ltac:(lia)). pose proof (Nat.div_mod off 8 ltac:(lia)).
    replace (off + (8 - off mod 8))%nat with ((off / 8 + 1) * 8)%nat by lia. apply Nat.mod_mul. lia. }
  pose proof (Nat.div_mod (round8 off) 8 ltac:(lia)). lia.
Qed.
Lemma load_key_ok R key rate st : rounds_ok R -> (11 <= rate <= 200)%nat -> st_ok st -> bytes key -> strlen_ok key ->
  exists pad, load_key R key rate st = Ok (pad, absorb (keccak R) rate st (bytepad (encode_string key) rate)) /\ bytes pad /\ length pad = 200%nat /\
  st_ok (absorb (keccak R) rate st (bytepad (encode_string key) rate)).
Proof.
  intros HR Hr Hs Bk Lk. unfold load_key. pose proof (rate_left rate ltac:(lia)) as L2. unfold strlen_ok in Lk.
  destruct (left_step R rate st ltac:(lia) [] (zeros 200) 0%nat st (Z.of_nat rate) (sinv_start R rate st ltac:(lia))) as (p1 & -> & I1); [lia|lia|]. cbn [bind]. cbn [app] in I1.
  rewrite !u64_len by assumption. pose proof (left_le9 _ Lk) as L9. rewrite Nat.add_0_l in I1.
  destruct (left_step R rate st ltac:(lia) _ _ _ _ (8 * Z.of_nat (length key)) I1) as (p2 & -> & I2); [lia|lia|]. cbn [bind].
  destruct (absorb_str_ok R rate st HR ltac:(lia) Hs _ _ _ _ key I2 Bk) as (((p3 & o3) & s3) & -> & I3). cbn [bind].
  rewrite <- app_assoc in I3. fold (encode_string key) in I3.
  assert (O5 : (o3 <= 200)%nat /\ length p3 = 200%nat) by (destruct I3 as (? & ? & _); lia).
  destruct (clear_from p3 o3) as [p6| |] eqn:E6; [|rewrite clear_from_ok in E6 by lia; discriminate|rewrite clear_from_ok in E6 by lia; discriminate].
  destruct (last_ok R rate st ltac:(lia) Hs _ _ _ _ p6 I3 ltac:(unfold left_encode; discriminate) E6) as (HL & B6 & L6 & S5 & SX). cbn [bind].
  pose proof (round8_le o3 ltac:(lia)) as R8. pose proof (round8_mul o3) as RM. rewrite word_loop by (auto; lia). cbn [bind]. rewrite RM. rewrite perm_ok by auto. rewrite HL. rewrite <- bytepad_fill.
  exists p6. split; [reflexivity|]. split; [exact B6|]. split; [exact L6|]. rewrite bytepad_fill, <- HL. now apply keccak_ok.
Qed.
(** * block-aligned prefixes *)
Lemma aligned_blocks rate a : (0 < rate)%nat -> bytes a -> (length a mod rate = 0)%nat -> exists bs, Forall (blk rate) bs /\ a = concat bs.
Proof.
  intros Hr Ba Hm. pose proof (Nat.div_mod (length a) rate ltac:(lia)) as D. rewrite Hm, Nat.add_0_r in D. remember (length a / rate)%nat as k. clear Heqk Hm. revert a Ba D. induction k as [|k IH]; intros a Ba D.
  - exists []. split; [constructor|]. destruct a; [reflexivity|cbn in D; lia].
  - destruct (IH (skipn rate a)) as (bs & H1 & H2); [now apply bytes_skipn|rewrite skipn_length; lia|]. exists (firstn rate a :: bs). split.
    + constructor; [|exact H1]. split; [now apply bytes_firstn|rewrite firstn_length; lia].
    + cbn [concat]. rewrite <- H2. symmetry. apply firstn_skipn.
Qed.
Lemma absorb_app R rate st a b : (0 < rate)%nat -> bytes a -> (length a mod rate = 0)%nat -> absorb (keccak R) rate st (a ++ b) = absorb (keccak R) rate (absorb (keccak R) rate st a) b.
Proof.
  intros Hr Ba Hm. destruct (aligned_blocks rate a Hr Ba Hm) as (bs & H1 & ->). unfold absorb. rewrite chunks_concat by assumption. rewrite fold_left_app. do 2 f_equal.
  rewrite <- (app_nil_r (concat bs)), chunks_concat by assumption. rewrite chunks_nil, app_nil_r. reflexivity.
Qed.
Lemma absorb_blocks_ok R rate st a : (0 < rate <= 200)%nat -> st_ok st -> bytes a -> (length a mod rate = 0)%nat -> st_ok (absorb (keccak R) rate st a).
Proof.
  intros Hr Hs Ba Hm. destruct (aligned_blocks rate a ltac:(lia) Ba Hm) as (bs & H1 & ->). unfold absorb. rewrite <- (app_nil_r (concat bs)), chunks_concat by (auto; lia). rewrite chunks_nil, app_nil_r. apply fold_g_ok; auto; lia.
Qed.
Lemma sponge_pad_app rate dom a m : (0 < rate)%nat -> (length a mod rate = 0)%nat -> sponge_pad rate dom (a ++ m) = a ++ sponge_pad rate dom m.
Proof.
  intros Hr Hm. unfold sponge_pad. rewrite <- app_assoc. f_equal. rewrite app_length. replace ((length a + length m) mod rate)%nat with (length m mod rate)%nat; [reflexivity|].
  rewrite Nat.add_mod, Hm, Nat.add_0_l, Nat.mod_mod by lia. reflexivity.
Qed.
Lemma fill_aligned rate X : (0 < rate)%nat -> (length (fill rate X) mod rate = 0)%nat.
Proof.
  intros Hr. unfold fill. rewrite app_length, length_zeros. pose proof (Nat.mod_upper_bound (length X) rate ltac:(lia)). rewrite Nat.add_mod_idemp_r by lia.
  pose proof (Nat.div_mod (length X) rate ltac:(lia)). replace (length X + (rate - length X mod rate))%nat with ((length X / rate + 1) * rate)%nat by lia. apply Nat.mod_mul. lia.
Qed.
Lemma bytepad_aligned rate X : (0 < rate)%nat -> (length (bytepad X rate) mod rate = 0)%nat.
Proof. intros H. rewrite bytepad_fill. now apply fill_aligned. Qed.
Lemma encode_string_bytes s : bytes s -> strlen_ok s -> bytes (encode_string s).
Proof. intros H1 H2. apply Forall_app. split; [now apply left_bytes|exact H1]. Qed.
Lemma bytepad_bytes rate X : (rate <= 200)%nat -> bytes X -> bytes (bytepad X rate).
Proof. intros H1 H2. unfold bytepad. apply Forall_app. split; [apply Forall_app; split; [apply left_bytes; lia|exact H2]|apply bytes_zeros]. Qed.
Lemma absorbed_app R rate st dom a m st' : (0 < rate)%nat -> bytes a -> (length a mod rate = 0)%nat -> absorbed R rate (absorb (keccak R) rate st a) dom m st' -> absorbed R rate st dom (a ++ m) st'.
Proof. intros Hr Ba Hm [H1 H2]. split; [exact H1|]. rewrite H2, sponge_pad_app, absorb_app by auto. reflexivity. Qed.
(** CXOFP1600 *)
Lemma CXOF_ok R key cust name out oo olen rate : rounds_ok R -> (11 <= rate <= 200)%nat -> bytes key -> bytes cust -> bytes name -> strlen_ok cust -> strlen_ok name -> cust_fits rate name cust -> (oo + olen <= length out)%nat ->
  exists d, CXOFP1600 R key cust name out oo olen rate = Ok (splice out oo d) /\ length d = olen /\
  d = sponge (keccak R) rate zero_state 4 (bytepad (encode_string name ++ encode_string cust) rate ++ key) olen.
Proof.
  intros HR Hr Bk Bc Bn Lc Ln Hf HO. unfold CXOFP1600. replace (0 <? rate)%nat with true by (symmetry; apply Nat.ltb_lt; lia). cbn [safe bind]. change (zeros 25) with zero_state.
  destruct (Customize_ok R cust name rate zero_state) as [-> S1]; auto using zero_state_ok. cbn [bind].
  destruct (Absorb_ok R key 0 (length key) rate 4 _ HR ltac:(lia) S1 Bk ltac:(lia) ltac:(red; lia)) as (st' & -> & HA). cbn [bind]. rewrite slice_all in HA by reflexivity.
  apply absorbed_app in HA; [|lia|apply bytepad_bytes; [lia|apply Forall_app; split; now apply encode_string_bytes]|apply bytepad_aligned; lia].
  rewrite squeeze_loop_ok; auto; try lia; try apply HA. eexists. split; [reflexivity|]. split; [apply stream_len; [lia|apply HA]|]. now rewrite (sponge_stream _ _ _ _ _ _ _ HA).
Qed.
