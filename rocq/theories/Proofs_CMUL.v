(** The bit-serial multiplication of CMUL computes the field product. *)
From Verif Require Import BaseLemmas Spec_Common Spec_GCM Model_IntegerTools Proofs_IntegerTools Proofs_IntegerTools2 Model_GHASH Proofs_GF.
Open Scope Z_scope.

(** the word pair (a0, a1) is the GCM bit order image of the polynomial p *)
Definition mir (a0 a1 p : Z) : Prop :=
  0 <= a0 < 2 ^ 64 /\ 0 <= a1 < 2 ^ 64 /\ 0 <= p < 2 ^ 128 /\
  forall i, 0 <= i < 128 -> Z.testbit p i = if i <? 64 then Z.testbit a0 (63 - i) else Z.testbit a1 (127 - i).

Definition xtime (p : Z) : Z := if Z.testbit p 127 then Z.lxor (Z.shiftl p 1) gcm_modulus else Z.shiftl p 1.
Lemma modulus_bit i : 0 <= i -> Z.testbit gcm_modulus i = (i =? 0) || (i =? 1) || (i =? 2) || (i =? 7) || (i =? 128).
Proof.
  intros Hi. rewrite modulus_bits, !Z.lxor_spec, !shiftl1_bit by lia.
  destruct (Z.eqb_spec i 0), (Z.eqb_spec i 1), (Z.eqb_spec i 2), (Z.eqb_spec i 7), (Z.eqb_spec i 128); try lia; reflexivity.
Qed.
Lemma xtime_bit p i : 0 <= i -> Z.testbit (xtime p) i = xorb (Z.testbit p (i - 1)) (Z.testbit p 127 && Z.testbit gcm_modulus i).
Proof.
  intros Hi. unfold xtime. destruct (Z.testbit p 127).
  - rewrite Z.lxor_spec, Z.shiftl_spec by lia. reflexivity.
  - rewrite Z.shiftl_spec, andb_false_l, xorb_false_r by lia. reflexivity.
Qed.
Lemma xtime_range p : 0 <= p < 2 ^ 128 -> 0 <= xtime p < 2 ^ 128.
Proof.
  intros Hp. assert (N : 0 <= xtime p).
  { unfold xtime. destruct (Z.testbit p 127); [apply Z.lxor_nonneg; split; intros; [unfold gcm_modulus; lia|]|]; apply Z.shiftl_nonneg; lia. }
  split; [exact N|]. apply word_of_bits; [lia|exact N|]. intros i Hi. rewrite xtime_bit, modulus_bit by lia.
  destruct (Z.eqb_spec i 128) as [->|Q].
  - rewrite orb_true_r, andb_true_r. change (128 - 1) with 127. apply xorb_nilpotent.
  - rewrite (testbit_high 128 p (i - 1)) by lia.
    replace (i =? 0) with false by (symmetry; apply Z.eqb_neq; lia).
    replace (i =? 1) with false by (symmetry; apply Z.eqb_neq; lia).
    replace (i =? 2) with false by (symmetry; apply Z.eqb_neq; lia).
    replace (i =? 7) with false by (symmetry; apply Z.eqb_neq; lia). cbn [orb]. now rewrite andb_false_r.
Qed.
Lemma xtime_cong p : cong (Z.shiftl p 1) (xtime p).
Proof.
  unfold xtime. destruct (Z.testbit p 127); [|apply cong_refl].
  exists 1. split; [lia|]. rewrite mulm_1, <- Z.lxor_assoc, Z.lxor_nilpotent. apply Z.lxor_0_l.
Qed.

Lemma mask64 x k : 0 <= k < 64 -> ExpandMask 6 (Z.land x (2 ^ k)) = if Z.testbit x k then 2 ^ 64 - 1 else 0.
Proof.
  intros Hk. assert (E : Z.land x (2 ^ k) = if Z.testbit x k then 2 ^ k else 0).
  { apply Z.bits_inj'. intros i Hi. rewrite Z.land_spec, Z.pow2_bits_eqb by lia.
    destruct (Z.eqb_spec k i) as [->|Q].
    - destruct (Z.testbit x i); [now rewrite Z.pow2_bits_true by lia|]. now rewrite Z.bits_0.
    - rewrite andb_false_r. destruct (Z.testbit x k); [now rewrite Z.pow2_bits_false by lia|]. now rewrite Z.bits_0. }
  assert (0 < 2 ^ k < 2 ^ 64) by (split; [apply Z.pow_pos_nonneg; lia|apply Z.pow_lt_mono_r; lia]).
  rewrite ExpandMask_correct.
  - rewrite E. destruct (Z.testbit x k); [|reflexivity]. destruct (Z.eqb_spec (2 ^ k) 0); [lia|reflexivity].
  - rewrite E. change (2 ^ (2 ^ Z.of_nat 6)) with (2 ^ 64). destruct (Z.testbit x k); lia.
Qed.
Lemma land_mask a (c : bool) : 0 <= a < 2 ^ 64 -> Z.land a (if c then 2 ^ 64 - 1 else 0) = if c then a else 0.
Proof. intros. destruct c; [now apply land_ones_word|apply Z.land_0_r]. Qed.

Lemma mir_xor a0 a1 p b0 b1 q : mir a0 a1 p -> mir b0 b1 q -> mir (Z.lxor a0 b0) (Z.lxor a1 b1) (Z.lxor p q).
Proof.
  intros (A0 & A1 & A2 & A3) (B0 & B1 & B2 & B3). split; [apply lxor_range; lia|split; [apply lxor_range; lia|split; [apply lxor_range; lia|]]].
  intros i Hi. rewrite !Z.lxor_spec, A3, B3 by lia. now destruct (i <? 64).
Qed.
Lemma mir_0 : mir 0 0 0.
Proof. repeat split; try lia. intros i Hi. rewrite !Z.bits_0. now destruct (i <? 64). Qed.
Lemma R_bit i : 0 <= i < 64 -> Z.testbit cmul_R i = (i =? 63) || (i =? 62) || (i =? 61) || (i =? 56).
Proof.
  intros Hi. assert (E : cmul_R = Z.lxor (Z.shiftl 1 63) (Z.lxor (Z.shiftl 1 62) (Z.lxor (Z.shiftl 1 61) (Z.shiftl 1 56)))) by reflexivity.
  rewrite E, !Z.lxor_spec, !shiftl1_bit by lia.
  destruct (Z.eqb_spec i 63), (Z.eqb_spec i 62), (Z.eqb_spec i 61), (Z.eqb_spec i 56); try lia; reflexivity.
Qed.
Lemma mir_xtime t0 t1 p : mir t0 t1 p ->
  mir (Z.lxor (wshr t0 1) (if Z.testbit t1 0 then cmul_R else 0)) (Z.lor (wshr t1 1) (wshl 64 t0 63)) (xtime p).
Proof.
  intros (A0 & A1 & A2 & A3).
  assert (P127 : Z.testbit p 127 = Z.testbit t1 0) by (rewrite A3 by lia; reflexivity).
  repeat split.
  - apply Z.lxor_nonneg. split; intros _; [destruct (Z.testbit t1 0); unfold cmul_R; lia|]. apply Z.shiftr_nonneg. lia.
  - apply lxor_range; [lia| |]; [|destruct (Z.testbit t1 0); unfold cmul_R; lia].
    unfold wshr. rewrite Z.shiftr_div_pow2 by lia. lia.
  - apply Z.lor_nonneg. split; [apply Z.shiftr_nonneg; lia|]. unfold wshl. apply Z.mod_pos_bound. lia.
  - apply lor_range; [lia| |]; [|unfold wshl; apply Z.mod_pos_bound; lia].
    unfold wshr. rewrite Z.shiftr_div_pow2 by lia. lia.
  - now apply xtime_range.
  - now apply xtime_range.
  - intros i Hi. rewrite xtime_bit, modulus_bit, P127 by lia.
    destruct (Z.ltb_spec i 64) as [L|L].
    + rewrite Z.lxor_spec. unfold wshr. rewrite Z.shiftr_spec by lia. replace (63 - i + 1) with (64 - i) by lia.
      assert (E1 : Z.testbit p (i - 1) = Z.testbit t0 (64 - i)).
      { destruct (Z.eq_dec i 0) as [->|N]; [rewrite Z.testbit_neg_r by lia; symmetry; now apply (testbit_high 64)|].
        rewrite A3 by lia. replace (i - 1 <? 64) with true by (symmetry; apply Z.ltb_lt; lia). f_equal. lia. }
      rewrite E1. f_equal. destruct (Z.testbit t1 0); [|now rewrite Z.bits_0].
      rewrite R_bit by lia. rewrite andb_true_l.
      destruct (Z.eqb_spec i 0), (Z.eqb_spec i 1), (Z.eqb_spec i 2), (Z.eqb_spec i 7), (Z.eqb_spec i 128),
        (Z.eqb_spec (63 - i) 63), (Z.eqb_spec (63 - i) 62), (Z.eqb_spec (63 - i) 61), (Z.eqb_spec (63 - i) 56); try lia; reflexivity.
    + replace (i =? 0) with false by (symmetry; apply Z.eqb_neq; lia).
      replace (i =? 1) with false by (symmetry; apply Z.eqb_neq; lia).
      replace (i =? 2) with false by (symmetry; apply Z.eqb_neq; lia).
      replace (i =? 7) with false by (symmetry; apply Z.eqb_neq; lia).
      replace (i =? 128) with false by (symmetry; apply Z.eqb_neq; lia). cbn [orb]. rewrite andb_false_r, xorb_false_r.
      rewrite Z.lor_spec. unfold wshr, wshl. rewrite Z.shiftr_spec, testbit_mod, Z.shiftl_spec by lia.
      replace (127 - i + 1) with (128 - i) by lia.
      replace (127 - i <? 64) with true by (symmetry; apply Z.ltb_lt; lia). rewrite andb_true_l.
      rewrite A3 by lia. destruct (Z.ltb_spec (i - 1) 64) as [M|M].
      * replace i with 64 in * by lia. replace (128 - 64) with 64 by lia. rewrite (testbit_high 64 t1 64) by lia. rewrite orb_false_l. reflexivity.
      * replace (127 - (i - 1)) with (128 - i) by lia. rewrite (Z.testbit_neg_r t0) by lia. now rewrite orb_false_r.
Qed.

(** the state after [K] rounds in all, [k] of them in the current half *)
Definition cinv (h px : Z) (K k : nat) (st : Z * Z * Z * Z * Z) : Prop :=
  let '(t0, t1, z0, z1, mpos) := st in
  exists pt pz, mir t0 t1 pt /\ mir z0 z1 pz /\ cong (Z.shiftl h (Z.of_nat K)) pt /\ cong (gf2_mul K h px) pz /\
    ((k < 64)%nat -> mpos = 2 ^ (63 - Z.of_nat k)).
Lemma mask_acc h px K x k t0 t1 z0 z1 pt pz : (k < 64)%nat ->
  Z.testbit px (Z.of_nat K) = Z.testbit x (63 - Z.of_nat k) ->
  mir t0 t1 pt -> mir z0 z1 pz -> cong (Z.shiftl h (Z.of_nat K)) pt -> cong (gf2_mul K h px) pz ->
  let mask := ExpandMask 6 (Z.land x (2 ^ (63 - Z.of_nat k))) in
  exists pz', mir (Z.lxor z0 (Z.land t0 mask)) (Z.lxor z1 (Z.land t1 mask)) pz' /\ cong (gf2_mul (S K) h px) pz'.
Proof.
  intros Hk Hx Mt Mz Ct Cz. cbv zeta. rewrite mask64 by lia.
  pose proof Mt as (T0 & T1 & _). rewrite !land_mask by lia. rewrite gf2_mul_S, Hx.
  destruct (Z.testbit x (63 - Z.of_nat k)).
  - exists (Z.lxor pz pt). split; [now apply mir_xor|]. now apply cong_xor.
  - exists pz. rewrite !Z.lxor_0_r. split; [exact Mz|exact Cz].
Qed.
Lemma cmul_round_inv h px K x k st : (k < 64)%nat -> Z.testbit px (Z.of_nat K) = Z.testbit x (63 - Z.of_nat k) ->
  cinv h px K k st -> cinv h px (S K) (S k) (cmul_round x st).
Proof.
  intros Hk Hx. destruct st as [[[[t0 t1] z0] z1] mpos]. unfold cinv. intros (pt & pz & Mt & Mz & Ct & Cz & Mp).
  unfold cmul_round. rewrite Mp by lia.
  destruct (mask_acc h px K x k t0 t1 z0 z1 pt pz) as (pz' & Mz' & Cz'); auto.
  exists (xtime pt), pz'. split; [|split; [exact Mz'|split; [|split; [exact Cz'|]]]].
  - replace (Z.land cmul_R (ExpandMask 6 (Z.land t1 1))) with (if Z.testbit t1 0 then cmul_R else 0).
    + now apply mir_xtime.
    + change (Z.land t1 1) with (Z.land t1 (2 ^ 0)). rewrite mask64 by lia. rewrite land_mask by (unfold cmul_R; lia). reflexivity.
  - eapply cong_trans; [|apply xtime_cong]. replace (Z.of_nat (S K)) with (Z.of_nat K + 1) by lia.
    rewrite <- Z.shiftl_shiftl by lia. apply cong_shift; [lia|exact Ct].
  - intros Hk'. unfold wshr. rewrite Z.shiftr_div_pow2 by lia.
    replace (63 - Z.of_nat k) with (63 - Z.of_nat (S k) + 1) by lia. rewrite Z.pow_add_r by lia. now rewrite Z.div_mul by lia.
Qed.
Lemma cmul_rounds_inv h px K x n : forall st, (n <= 64)%nat ->
  (forall i : nat, (i < n)%nat -> Z.testbit px (Z.of_nat (K + i)) = Z.testbit x (63 - Z.of_nat i)) ->
  cinv h px K 0 st -> cinv h px (K + n) n (Nat.iter n (cmul_round x) st).
Proof.
  induction n as [|n IH]; intros st Hn Hx H; [now rewrite Nat.add_0_r|].
  cbn [Nat.iter]. rewrite Nat.add_succ_r. apply cmul_round_inv; [lia|apply Hx; lia|]. apply IH; auto with arith.
Qed.
Lemma cmul_words_correct h0 h1 ph x0 x1 px : mir h0 h1 ph -> mir x0 x1 px ->
  let '(z0, z1) := cmul_words h0 h1 x0 x1 in mir z0 z1 (gf_mul ph px).
Proof.
  intros Mh Mx. pose proof Mx as (_ & _ & Px & Bx). unfold cmul_words.
  pose proof (cmul_rounds_inv ph px 0 x0 64 (h0, h1, 0, 0, cmul_top)) as I1.
  destruct (Nat.iter 64 (cmul_round x0) (h0, h1, 0, 0, cmul_top)) as [[[[t0 t1] z0] z1] mpos].
  assert (J1 : cinv ph px 64 64 (t0, t1, z0, z1, mpos)).
  { apply I1; [lia| |].
    - intros i Hi. rewrite Nat.add_0_l, Bx by lia. replace (Z.of_nat i <? 64) with true by (symmetry; apply Z.ltb_lt; lia). reflexivity.
    - exists ph, 0. split; [exact Mh|split; [apply mir_0|split; [|split]]].
      + rewrite Z.shiftl_0_r. apply cong_refl.
      + apply cong_refl.
      + reflexivity. }
  clear I1. destruct J1 as (pt & pz & Mt & Mz & Ct & Cz & _).
  pose proof (cmul_rounds_inv ph px 64 x1 63 (t0, t1, z0, z1, cmul_top)) as I2.
  destruct (Nat.iter 63 (cmul_round x1) (t0, t1, z0, z1, cmul_top)) as [[[[t0' t1'] z0'] z1'] mpos'].
  assert (J2 : cinv ph px 127 63 (t0', t1', z0', z1', mpos')).
  { apply I2; [lia| |].
    - intros i Hi. rewrite Bx by lia. replace (Z.of_nat (64 + i) <? 64) with false by (symmetry; apply Z.ltb_ge; lia). f_equal. lia.
    - exists pt, pz. repeat (split; [assumption|]). reflexivity. }
  destruct J2 as (pt' & pz' & Mt' & Mz' & Ct' & Cz' & Mp). rewrite Mp by lia.
  destruct (mask_acc ph px 127 x1 63 t0' t1' z0' z1' pt' pz') as (pz2 & M2 & C2); auto; try lia.
  - rewrite Bx by lia. reflexivity.
  - destruct M2 as (A & B & C & D). replace (gf_mul ph px) with pz2; [repeat split; auto; lia|].
    symmetry. apply gf_mul_unique; auto. now destruct Mh as (_ & _ & ? & _).
Qed.

(** * Blocks *)
Lemma testbit_le_val l : bytes l -> forall n, 0 <= n -> Z.testbit (le_val l) n = Z.testbit (nth (Z.to_nat (n / 8)) l 0) (n mod 8).
Proof.
  induction l as [|b t IH]; intros Hl n Hn.
  - cbn [le_val]. rewrite Z.bits_0. destruct (Z.to_nat (n / 8)); cbn [nth]; now rewrite Z.bits_0.
  - inversion Hl as [|? ? Hb Ht]; subst. cbn [le_val]. replace (256 * le_val t) with (2 ^ 8 * le_val t) by reflexivity.
    rewrite <- (lor_shiftl_add b (le_val t) 8) by (unfold is_byte in Hb; lia). rewrite Z.lor_spec, Z.shiftl_spec by lia.
    destruct (Z.ltb_spec n 8) as [L|L].
    + rewrite Z.div_small, Z.mod_small by lia. cbn [Z.to_nat nth]. rewrite (Z.testbit_neg_r _ (n - 8)) by lia. apply orb_false_r.
    + rewrite (testbit_high 8 b n) by (unfold is_byte in Hb; lia). rewrite orb_false_l, IH by (auto; lia).
      replace (Z.to_nat (n / 8)) with (S (Z.to_nat ((n - 8) / 8))) by lia. cbn [nth]. f_equal. lia.
Qed.
Lemma testbit_be_val l n : bytes l -> 0 <= n < 8 * Z.of_nat (length l) ->
  Z.testbit (be_val l) n = Z.testbit (nth (length l - 1 - Z.to_nat (n / 8)) l 0) (n mod 8).
Proof.
  intros Hl Hn. unfold be_val. rewrite testbit_le_val by (auto using bytes_rev; lia). rewrite rev_nth by lia. do 2 f_equal. lia.
Qed.
(** sums of distinct powers of two *)
Lemma bits_sum (f : nat -> bool) (e : nat -> Z) l i : 0 <= i -> (forall j, In j l -> 0 <= e j) ->
  Z.testbit (fold_right Z.lor 0 (map (fun j => if f j then 2 ^ e j else 0) l)) i = existsb (fun j => f j && (e j =? i)) l.
Proof.
  intros Hi. induction l as [|j t IH]; intros He; cbn [map fold_right existsb]; [apply Z.bits_0|].
  rewrite Z.lor_spec, IH by (intros; apply He; now right). f_equal.
  destruct (f j); [|apply Z.bits_0]. rewrite Z.pow2_bits_eqb by (apply He; now left). reflexivity.
Qed.
Lemma existsb_one (f : nat -> bool) (e : nat -> Z) l k i : (forall j j', In j l -> In j' l -> e j = e j' -> j = j') -> In k l -> e k = i ->
  existsb (fun j => f j && (e j =? i)) l = f k.
Proof.
  intros Inj Hk Ek. destruct (f k) eqn:F.
  - apply existsb_exists. exists k. split; auto. rewrite F, Ek, Z.eqb_refl. reflexivity.
  - apply not_true_is_false. intros H. apply existsb_exists in H. destruct H as (j & Hj & H). apply andb_true_iff in H. destruct H as (H1 & H2).
    apply Z.eqb_eq in H2. assert (j = k) by (apply Inj; auto; congruence). subst. congruence.
Qed.
Lemma fold_lor_nonneg (l : list Z) : (forall x, In x l -> 0 <= x) -> 0 <= fold_right Z.lor 0 l.
Proof. induction l as [|x t IH]; intros H; cbn [fold_right]; [lia|]. apply Z.lor_nonneg. split; [apply H; now left|apply IH; intros; apply H; now right]. Qed.
Lemma fold_lor_bound w (l : list Z) : 0 <= w -> (forall x, In x l -> 0 <= x < 2 ^ w) -> 0 <= fold_right Z.lor 0 l < 2 ^ w.
Proof.
  intros Hw. induction l as [|x t IH]; intros H; cbn [fold_right]; [split; [lia|apply Z.pow_pos_nonneg; lia]|].
  apply lor_range; auto. - apply H; now left. - apply IH. intros; apply H; now right.
Qed.
Lemma poly_range b : 0 <= poly b < 2 ^ 128.
Proof.
  apply fold_lor_bound; [lia|]. intros x Hx. apply in_map_iff in Hx. destruct Hx as (i & <- & Hi). apply in_seq in Hi.
  destruct (Z.testbit _ _); [|lia]. split; [apply Z.pow_nonneg; lia|]. apply Z.pow_lt_mono_r; lia.
Qed.
Lemma poly_bit b i : (i < 128)%nat -> Z.testbit (poly b) (Z.of_nat i) = Z.testbit (nth (i / 8) b 0) (7 - Z.of_nat (i mod 8)).
Proof.
  intros Hi. unfold poly.
  rewrite (bits_sum (fun i => Z.testbit (nth (i / 8) b 0) (7 - Z.of_nat (i mod 8))) Z.of_nat) by lia.
  apply (existsb_one (fun i => Z.testbit (nth (i / 8) b 0) (7 - Z.of_nat (i mod 8))) Z.of_nat _ i); [intros; lia|apply in_seq; lia|reflexivity].
Qed.
Definition bbyte (p : Z) (k : nat) : Z := fold_right Z.lor 0 (map (fun j => if Z.testbit p (Z.of_nat (8 * k + j)) then 2 ^ (7 - Z.of_nat j) else 0) (seq 0 8)).
Lemma bbyte_bit p k j : (j < 8)%nat -> Z.testbit (bbyte p k) (7 - Z.of_nat j) = Z.testbit p (Z.of_nat (8 * k + j)).
Proof.
  intros Hj. unfold bbyte. rewrite (bits_sum (fun j => Z.testbit p (Z.of_nat (8 * k + j))) (fun j => 7 - Z.of_nat j)).
  - apply (existsb_one (fun j => Z.testbit p (Z.of_nat (8 * k + j))) (fun j => 7 - Z.of_nat j) _ j); [intros; lia|apply in_seq; lia|reflexivity].
  - lia.
  - intros i Hi. apply in_seq in Hi. lia.
Qed.
Lemma bbyte_byte p k : is_byte (bbyte p k).
Proof.
  unfold is_byte. change 256 with (2 ^ 8). apply fold_lor_bound; [lia|]. intros x Hx. apply in_map_iff in Hx. destruct Hx as (i & <- & Hi). apply in_seq in Hi.
  destruct (Z.testbit _ _); [|lia]. split; [apply Z.pow_nonneg; lia|]. apply Z.pow_lt_mono_r; lia.
Qed.
Lemma block_len p : length (block p) = 16%nat. Proof. reflexivity. Qed.
Lemma block_nth p k : (k < 16)%nat -> nth k (block p) 0 = bbyte p k.
Proof. intros. unfold block. fold (bbyte p). change (map (bbyte p) (seq 0 16)) with (map (bbyte p) (seq 0 16)).
  rewrite nth_indep with (d' := bbyte p 0) by (rewrite map_length, seq_length; lia). rewrite (map_nth (bbyte p)). rewrite seq_nth by lia. reflexivity. Qed.
Lemma block_bytes p : bytes (block p).
Proof. apply Forall_forall. intros x Hx. apply in_map_iff in Hx. destruct Hx as (k & <- & _). apply (bbyte_byte p k). Qed.
Lemma byte_ext a b : is_byte a -> is_byte b -> (forall j : nat, (j < 8)%nat -> Z.testbit a (7 - Z.of_nat j) = Z.testbit b (7 - Z.of_nat j)) -> a = b.
Proof.
  unfold is_byte. intros Ha Hb H. apply (bits_ext 8); [lia|lia|lia|]. intros n Hn.
  specialize (H (Z.to_nat (7 - n))). replace (7 - Z.of_nat (Z.to_nat (7 - n))) with n in H by lia. apply H. lia.
Qed.
Lemma poly_inj a b : bytes a -> bytes b -> length a = 16%nat -> length b = 16%nat -> poly a = poly b -> a = b.
Proof.
  intros Ha Hb La Lb E. apply (list_ext 0); [congruence|]. intros k Hk.
  apply byte_ext; [now apply bytes_nth|now apply bytes_nth|]. intros j Hj.
  pose proof (poly_bit a (8 * k + j)) as A. pose proof (poly_bit b (8 * k + j)) as B.
  rewrite E in A. rewrite A in B by lia.
  replace ((8 * k + j) / 8)%nat with k in B by (apply Nat.div_unique with j; lia).
  replace ((8 * k + j) mod 8)%nat with j in B by (apply Nat.mod_unique with k; lia). apply B. lia.
Qed.
Lemma poly_block p : 0 <= p < 2 ^ 128 -> poly (block p) = p.
Proof.
  intros Hp. apply (bits_ext 128); [lia|apply poly_range|lia|]. intros n Hn.
  replace n with (Z.of_nat (Z.to_nat n)) by lia. assert (Hi : (Z.to_nat n < 128)%nat) by lia. revert Hi. generalize (Z.to_nat n). intros i Hi.
  assert (i / 8 < 16)%nat by (apply Nat.div_lt_upper_bound; lia).
  assert (i mod 8 < 8)%nat by (apply Nat.mod_upper_bound; lia).
  rewrite poly_bit, block_nth, bbyte_bit by lia. f_equal. rewrite <- Nat.div_mod by lia. reflexivity.
Qed.
Lemma block_poly b : bytes b -> length b = 16%nat -> block (poly b) = b.
Proof. intros Hb Hl. apply poly_inj; auto using block_bytes. apply poly_block. apply poly_range. Qed.
(** the two words of a block *)
Lemma mir_block b : bytes b -> length b = 16%nat -> mir (be_val (slice b 0 8)) (be_val (slice b 8 8)) (poly b).
Proof.
  intros Hb Hl. assert (L0 : length (slice b 0 8) = 8%nat) by (apply length_slice; lia). assert (L1 : length (slice b 8 8) = 8%nat) by (apply length_slice; lia).
  pose proof (be_val_range (slice b 0 8) (bytes_slice _ _ _ Hb)) as R0. pose proof (be_val_range (slice b 8 8) (bytes_slice _ _ _ Hb)) as R1.
  rewrite L0 in R0. rewrite L1 in R1. change (256 ^ Z.of_nat 8) with (2 ^ 64) in *.
  repeat split; try lia; try apply poly_range.
  intros n Hn. replace n with (Z.of_nat (Z.to_nat n)) by lia. assert (Hi : (Z.to_nat n < 128)%nat) by lia. revert Hi. generalize (Z.to_nat n). clear n Hn. intros i Hi.
  rewrite poly_bit by lia. assert (Hd : (i / 8 < 16)%nat) by (apply Nat.div_lt_upper_bound; lia).
  assert (Hm : (i mod 8 < 8)%nat) by (apply Nat.mod_upper_bound; lia).
  pose proof (Nat.div_mod i 8 ltac:(lia)) as DM. set (d := (i / 8)%nat) in *. set (m := (i mod 8)%nat) in *.
  destruct (Z.ltb_spec (Z.of_nat i) 64) as [L|L].
  - rewrite testbit_be_val by (auto using bytes_slice; lia). rewrite L0. rewrite BaseLemmas.nth_slice by lia.
    replace ((63 - Z.of_nat i) / 8) with (7 - Z.of_nat d) by lia. replace ((63 - Z.of_nat i) mod 8) with (7 - Z.of_nat m) by lia.
    do 2 f_equal. lia.
  - rewrite testbit_be_val by (auto using bytes_slice; lia). rewrite L1. rewrite BaseLemmas.nth_slice by lia.
    replace ((127 - Z.of_nat i) / 8) with (15 - Z.of_nat d) by lia. replace ((127 - Z.of_nat i) mod 8) with (7 - Z.of_nat m) by lia.
    do 2 f_equal. lia.
Qed.
Lemma mir_fun a0 a1 p b0 b1 : mir a0 a1 p -> mir b0 b1 p -> a0 = b0 /\ a1 = b1.
Proof.
  intros (A0 & A1 & A2 & A3) (B0 & B1 & _ & B3). split; apply (bits_ext 64); try lia; intros n Hn.
  - specialize (A3 (63 - n)). specialize (B3 (63 - n)). replace (63 - n <? 64) with true in * by (symmetry; apply Z.ltb_lt; lia).
    replace (63 - (63 - n)) with n in * by lia. rewrite <- A3, <- B3 by lia. reflexivity.
  - specialize (A3 (127 - n)). specialize (B3 (127 - n)). replace (127 - n <? 64) with false in * by (symmetry; apply Z.ltb_ge; lia).
    replace (127 - (127 - n)) with n in * by lia. rewrite <- A3, <- B3 by lia. reflexivity.
Qed.
Lemma mir_to_block a0 a1 p : mir a0 a1 p -> be_bytes 8 a0 ++ be_bytes 8 a1 = block p.
Proof.
  intros M. pose proof M as (A0 & A1 & A2 & _). pose proof (mir_block (block p) (block_bytes p) (block_len p)) as N.
  rewrite poly_block in N by lia. destruct (mir_fun _ _ _ _ _ M N) as (-> & ->).
  assert (L0 : length (slice (block p) 0 8) = 8%nat) by reflexivity. assert (L1 : length (slice (block p) 8 8) = 8%nat) by reflexivity.
  pose proof (be_bytes_be_val (slice (block p) 0 8) (bytes_slice _ _ _ (block_bytes p))) as E0. rewrite L0 in E0.
  pose proof (be_bytes_be_val (slice (block p) 8 8) (bytes_slice _ _ _ (block_bytes p))) as E1. rewrite L1 in E1.
  rewrite E0, E1. change 8%nat with (0 + 8)%nat at 2. rewrite <- (slice_app (block p) 0 8 8). apply slice_all. reflexivity.
Qed.

(** a hash key as the two words GCM::Initialize stores *)
Definition key_of (h : list Z) : Z * Z := (be_val (slice h 0 8), be_val (slice h 8 8)).
Lemma CMUL_Permute_correct h x : bytes h -> length h = 16%nat -> bytes x -> length x = 16%nat ->
  CMUL_Permute (key_of h) x = Ok (gmul h x).
Proof.
  intros Hh Lh Hx Lx. unfold CMUL_Permute. rewrite !BeBytesTo64_correct by (auto; lia). cbn [bind fst snd key_of].
  pose proof (cmul_words_correct _ _ _ _ _ _ (mir_block h Hh Lh) (mir_block x Hx Lx)) as Q.
  destruct (cmul_words _ _ _ _) as [z0 z1]. rewrite Be64ToBytes_correct by lia. cbn [bind].
  rewrite Be64ToBytes_correct by (rewrite length_splice; rewrite ?length_be_bytes; lia). f_equal.
  unfold gmul. rewrite <- (mir_to_block _ _ _ Q).
  rewrite <- (splice_all x (be_bytes 8 z0 ++ be_bytes 8 z1)) by (rewrite app_length, !length_be_bytes; lia).
  pose proof (splice_splice_next x 0 (be_bytes 8 z0) (be_bytes 8 z1)) as S. rewrite length_be_bytes in S. rewrite <- S; [reflexivity|].
  rewrite length_be_bytes. lia.
Qed.
