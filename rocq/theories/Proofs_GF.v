(** Polynomial arithmetic over GF(2): product, reduction, and the bit-serial multiplication. *)
From Verif Require Import BaseLemmas Spec_Common Spec_GCM Model_IntegerTools Proofs_IntegerTools Proofs_IntegerTools2 Model_GHASH.
Open Scope Z_scope.

Lemma fold_lxor_app l1 l2 : fold_right Z.lxor 0 (l1 ++ l2) = Z.lxor (fold_right Z.lxor 0 l1) (fold_right Z.lxor 0 l2).
Proof. induction l1 as [|x t IH]; cbn [app fold_right]; [now rewrite Z.lxor_0_l|]. now rewrite IH, Z.lxor_assoc. Qed.

Lemma gf2_mul_S n a b : gf2_mul (S n) a b = Z.lxor (gf2_mul n a b) (if Z.testbit b (Z.of_nat n) then Z.shiftl a (Z.of_nat n) else 0).
Proof. unfold gf2_mul. rewrite seq_S, map_app, fold_lxor_app. cbn [map fold_right]. now rewrite Z.lxor_0_r. Qed.
Lemma gf2_mul_0 a b : gf2_mul 0 a b = 0. Proof. reflexivity. Qed.

Lemma lxor4 a b c d : Z.lxor (Z.lxor a b) (Z.lxor c d) = Z.lxor (Z.lxor a c) (Z.lxor b d).
Proof. rewrite !Z.lxor_assoc. f_equal. rewrite <- !Z.lxor_assoc. f_equal. apply Z.lxor_comm. Qed.

Lemma gf2_mul_xor_l n a a' b : gf2_mul n (Z.lxor a a') b = Z.lxor (gf2_mul n a b) (gf2_mul n a' b).
Proof.
  induction n as [|n IH]; [reflexivity|]. rewrite !gf2_mul_S, IH.
  destruct (Z.testbit b (Z.of_nat n)); [rewrite Z.shiftl_lxor|]; [apply lxor4|]. now rewrite !Z.lxor_0_r.
Qed.
Lemma gf2_mul_xor_r n a b b' : gf2_mul n a (Z.lxor b b') = Z.lxor (gf2_mul n a b) (gf2_mul n a b').
Proof.
  induction n as [|n IH]; [reflexivity|]. rewrite !gf2_mul_S, IH, Z.lxor_spec, (lxor4 (gf2_mul n a b)). f_equal.
  destruct (Z.testbit b (Z.of_nat n)), (Z.testbit b' (Z.of_nat n)); cbn [xorb];
    rewrite ?Z.lxor_nilpotent, ?Z.lxor_0_r, ?Z.lxor_0_l; reflexivity.
Qed.
Lemma gf2_mul_0_l n b : gf2_mul n 0 b = 0.
Proof. induction n as [|n IH]; [reflexivity|]. rewrite gf2_mul_S, IH, Z.shiftl_0_l. now destruct (Z.testbit b _). Qed.
Lemma gf2_mul_ext n a b b' : (forall i, 0 <= i < Z.of_nat n -> Z.testbit b i = Z.testbit b' i) -> gf2_mul n a b = gf2_mul n a b'.
Proof.
  induction n as [|n IH]; intros H; [reflexivity|]. rewrite !gf2_mul_S, IH by (intros; apply H; lia).
  rewrite (H (Z.of_nat n)) by lia. reflexivity.
Qed.
Lemma gf2_mul_nonneg n a b : 0 <= a -> 0 <= gf2_mul n a b.
Proof.
  intros Ha. induction n as [|n IH]; [reflexivity|]. rewrite gf2_mul_S. apply Z.lxor_nonneg. split; intros; auto.
  destruct (Z.testbit b _); [|lia]. apply Z.shiftl_nonneg; lia.
Qed.
Lemma gf2_mul_shift n a b k : 0 <= k -> gf2_mul n (Z.shiftl a k) b = Z.shiftl (gf2_mul n a b) k.
Proof.
  intros Hk. induction n as [|n IH]; [now rewrite Z.shiftl_0_l|]. rewrite !gf2_mul_S, IH, Z.shiftl_lxor. f_equal.
  destruct (Z.testbit b _); [|now rewrite Z.shiftl_0_l]. rewrite !Z.shiftl_shiftl by lia. f_equal. lia.
Qed.
Lemma shiftl1_bit n i : 0 <= n -> 0 <= i -> Z.testbit (Z.shiftl 1 n) i = (i =? n).
Proof.
  intros. rewrite Z.shiftl_spec by lia. destruct (Z.eqb_spec i n) as [->|Q]; [now rewrite Z.sub_diag|].
  destruct (Z.ltb_spec i n); [apply Z.testbit_neg_r; lia|]. replace 1 with (2 ^ 0) by reflexivity. apply Z.pow2_bits_false. lia.
Qed.
(** 1 is neutral: the low n coefficients *)
Lemma gf2_mul_one n b : gf2_mul n 1 b = b mod 2 ^ Z.of_nat n.
Proof.
  induction n as [|n IH].
  - rewrite gf2_mul_0. cbn. now rewrite Z.mod_1_r.
  - rewrite gf2_mul_S, IH. apply Z.bits_inj'. intros i Hi. rewrite Z.lxor_spec, !testbit_mod by lia.
    destruct (Z.testbit b (Z.of_nat n)) eqn:E.
    + rewrite shiftl1_bit by lia. destruct (Z.eqb_spec i (Z.of_nat n)) as [->|Q].
      * rewrite E. replace (Z.of_nat n <? Z.of_nat n) with false by (symmetry; apply Z.ltb_ge; lia).
        replace (Z.of_nat n <? Z.of_nat (S n)) with true by (symmetry; apply Z.ltb_lt; lia). reflexivity.
      * rewrite xorb_false_r. f_equal. destruct (Z.ltb_spec i (Z.of_nat n)), (Z.ltb_spec i (Z.of_nat (S n))); lia.
    + rewrite Z.bits_0, xorb_false_r. destruct (Z.eqb_spec i (Z.of_nat n)) as [->|Q]; [rewrite E, !andb_false_r; reflexivity|].
      f_equal. destruct (Z.ltb_spec i (Z.of_nat n)), (Z.ltb_spec i (Z.of_nat (S n))); lia.
Qed.
Lemma gf2_mul_pow n b k : 0 <= k -> gf2_mul n (Z.shiftl 1 k) b = Z.shiftl (b mod 2 ^ Z.of_nat n) k.
Proof. intros. now rewrite gf2_mul_shift, gf2_mul_one. Qed.
(** commutativity *)
Lemma gf2_mul_decomp n m a b : gf2_mul n (a mod 2 ^ Z.of_nat m) b = gf2_mul m (b mod 2 ^ Z.of_nat n) a.
Proof.
  rewrite <- (gf2_mul_one m a). induction m as [|m IH]; [now rewrite !gf2_mul_0, gf2_mul_0_l|].
  rewrite (gf2_mul_S m 1 a), gf2_mul_xor_l, IH, (gf2_mul_S m _ a). f_equal.
  destruct (Z.testbit a (Z.of_nat m)); [apply gf2_mul_pow; lia|apply gf2_mul_0_l].
Qed.
Lemma gf2_mul_comm n a b : 0 <= a < 2 ^ Z.of_nat n -> 0 <= b < 2 ^ Z.of_nat n -> gf2_mul n a b = gf2_mul n b a.
Proof. intros Ha Hb. pose proof (gf2_mul_decomp n n a b) as Q. now rewrite !Z.mod_small in Q by lia. Qed.

(** * Multiples of the modulus *)
Definition mulm (q : Z) : Z := Z.lxor (Z.shiftl q 128) (Z.lxor (Z.shiftl q 7) (Z.lxor (Z.shiftl q 2) (Z.lxor (Z.shiftl q 1) q))).
Lemma modulus_bits : gcm_modulus = Z.lxor (Z.shiftl 1 128) (Z.lxor (Z.shiftl 1 7) (Z.lxor (Z.shiftl 1 2) (Z.lxor (Z.shiftl 1 1) (Z.shiftl 1 0)))).
Proof. reflexivity. Qed.
Lemma gf2_mul_modulus n q : 0 <= q < 2 ^ Z.of_nat n -> gf2_mul n gcm_modulus q = mulm q.
Proof.
  intros Hq. rewrite modulus_bits, !gf2_mul_xor_l, !gf2_mul_pow by lia. rewrite Z.mod_small by lia.
  unfold mulm. now rewrite Z.shiftl_0_r.
Qed.
Lemma mulm_xor a b : mulm (Z.lxor a b) = Z.lxor (mulm a) (mulm b).
Proof.
  unfold mulm. rewrite !Z.shiftl_lxor. apply Z.bits_inj'. intros i _. rewrite !Z.lxor_spec.
  repeat match goal with |- context [Z.testbit ?x i] => generalize (Z.testbit x i); intro end.
  repeat match goal with b : bool |- _ => destruct b end; reflexivity.
Qed.
Lemma mulm_shift q k : 0 <= k -> mulm (Z.shiftl q k) = Z.shiftl (mulm q) k.
Proof.
  intros. unfold mulm. rewrite !Z.shiftl_lxor, !Z.shiftl_shiftl by lia.
  rewrite (Z.add_comm k 128), (Z.add_comm k 7), (Z.add_comm k 2), (Z.add_comm k 1). reflexivity.
Qed.
Lemma mulm_0 : mulm 0 = 0. Proof. reflexivity. Qed.
Lemma mulm_1 : mulm 1 = gcm_modulus. Proof. reflexivity. Qed.
Lemma mulm_nonneg q : 0 <= q -> 0 <= mulm q.
Proof.
  intros. unfold mulm. repeat (apply Z.lxor_nonneg; split; intros); try apply Z.shiftl_nonneg; lia.
Qed.

(** congruence modulo the field polynomial *)
Definition cong (x y : Z) : Prop := exists q, 0 <= q /\ Z.lxor x y = mulm q.
Lemma cong_refl x : cong x x.
Proof. exists 0. split; [lia|]. now rewrite Z.lxor_nilpotent. Qed.
Lemma cong_sym x y : cong x y -> cong y x.
Proof. intros (q & H & E). exists q. split; auto. now rewrite Z.lxor_comm. Qed.
Lemma lxor_mid a b c : Z.lxor (Z.lxor a b) (Z.lxor b c) = Z.lxor a c.
Proof. rewrite Z.lxor_assoc, <- (Z.lxor_assoc b), Z.lxor_nilpotent, Z.lxor_0_l. reflexivity. Qed.
Lemma cong_trans x y z : cong x y -> cong y z -> cong x z.
Proof.
  intros (q & H & E) (q' & H' & E'). exists (Z.lxor q q'). split; [apply Z.lxor_nonneg; split; intros; lia|].
  rewrite mulm_xor, <- E, <- E'. now rewrite lxor_mid.
Qed.
Lemma cong_xor x y x' y' : cong x y -> cong x' y' -> cong (Z.lxor x x') (Z.lxor y y').
Proof.
  intros (q & H & E) (q' & H' & E'). exists (Z.lxor q q'). split; [apply Z.lxor_nonneg; split; intros; lia|].
  rewrite mulm_xor, <- E, <- E'. apply lxor4.
Qed.
Lemma cong_shift x y k : 0 <= k -> cong x y -> cong (Z.shiftl x k) (Z.shiftl y k).
Proof.
  intros Hk (q & H & E). exists (Z.shiftl q k). split; [apply Z.shiftl_nonneg; lia|].
  now rewrite mulm_shift, <- E, Z.shiftl_lxor.
Qed.
Lemma cong_modulus : cong gcm_modulus 0.
Proof. exists 1. split; [lia|]. now rewrite Z.lxor_0_r, mulm_1. Qed.

(** the remainder is unique *)
Lemma cong_unique x y : 0 <= x < 2 ^ 128 -> 0 <= y < 2 ^ 128 -> cong x y -> x = y.
Proof.
  intros Hx Hy (q & Hq & E). destruct (Z.eq_dec q 0) as [->|N].
  - rewrite mulm_0 in E. now apply Z.lxor_eq.
  - exfalso. pose proof (Z.log2_nonneg q) as L0. assert (B : Z.testbit (mulm q) (128 + Z.log2 q) = true).
    + unfold mulm. rewrite !Z.lxor_spec, !Z.shiftl_spec by lia.
      replace (128 + Z.log2 q - 128) with (Z.log2 q) by lia. rewrite (Z.bit_log2 q) by lia.
      rewrite !(Z.bits_above_log2 q) by lia. reflexivity.
    + rewrite <- E in B. rewrite (testbit_high 128) in B; [discriminate| |lia]. apply lxor_range; lia.
Qed.

(** * The reduction *)
Lemma gf_reduce_step n : forall v, 0 <= v < 2 ^ (128 + Z.of_nat n) ->
  let r := fold_right (fun i v => if Z.testbit v (128 + Z.of_nat i) then Z.lxor v (Z.shiftl gcm_modulus (Z.of_nat i)) else v) v (seq 0 n) in
  0 <= r < 2 ^ 128 /\ exists q, 0 <= q < 2 ^ Z.of_nat n /\ Z.lxor v r = mulm q.
Proof.
  induction n as [|n IH]; intros v Hv; cbv zeta.
  - cbn [seq fold_right]. rewrite Z.add_0_r in Hv. split; [lia|]. exists 0. split; [cbn; lia|]. now rewrite Z.lxor_nilpotent.
  - rewrite seq_S, fold_right_app. cbn [fold_right]. rewrite Nat.add_0_l.
    set (v' := if Z.testbit v (128 + Z.of_nat n) then Z.lxor v (Z.shiftl gcm_modulus (Z.of_nat n)) else v).
    assert (Hv' : 0 <= v' < 2 ^ (128 + Z.of_nat n)).
    + assert (W : 0 <= v' < 2 ^ (128 + Z.of_nat (S n))).
      { unfold v'. destruct (Z.testbit v _); [|lia]. apply lxor_range; [lia|lia|]. rewrite Z.shiftl_mul_pow2 by lia.
        replace (128 + Z.of_nat (S n)) with (129 + Z.of_nat n) by lia. rewrite Z.pow_add_r by lia.
        assert (0 < 2 ^ Z.of_nat n) by (apply Z.pow_pos_nonneg; lia). unfold gcm_modulus. nia. }
      split; [lia|]. apply word_of_bits; [lia|lia|]. intros i Hi.
      destruct (Z.eq_dec i (128 + Z.of_nat n)) as [->|N].
      * unfold v'. destruct (Z.testbit v (128 + Z.of_nat n)) eqn:E; [|exact E].
        rewrite Z.lxor_spec, E, Z.shiftl_spec by lia. replace (128 + Z.of_nat n - Z.of_nat n) with 128 by lia. reflexivity.
      * apply (testbit_high (128 + Z.of_nat (S n))); lia.
    + destruct (IH v' Hv') as (R & q & Hq & E). split; [exact R|].
      set (r := fold_right _ v' (seq 0 n)) in *.
      unfold v' in E. destruct (Z.testbit v (128 + Z.of_nat n)).
      * exists (Z.lxor (Z.shiftl 1 (Z.of_nat n)) q). split.
        { replace (Z.of_nat (S n)) with (Z.of_nat n + 1) by lia. apply lxor_range; [lia| |].
          - rewrite Z.shiftl_mul_pow2, Z.pow_add_r by lia. assert (0 < 2 ^ Z.of_nat n) by (apply Z.pow_pos_nonneg; lia). nia.
          - rewrite Z.pow_add_r by lia. lia. }
        rewrite mulm_xor, mulm_shift, mulm_1, <- E by lia.
        rewrite <- Z.lxor_assoc. f_equal. rewrite (Z.lxor_comm v), <- Z.lxor_assoc, Z.lxor_nilpotent, Z.lxor_0_l. reflexivity.
      * exists q. split; [|exact E]. replace (Z.of_nat (S n)) with (Z.of_nat n + 1) by lia. rewrite Z.pow_add_r by lia. lia.
Qed.
Lemma gf2_mul_range n m a b : 0 <= a < 2 ^ m -> 0 <= m -> 0 <= gf2_mul n a b < 2 ^ (m + Z.of_nat n).
Proof.
  intros Ha Hm. induction n as [|n IH].
  - rewrite gf2_mul_0. split; [lia|]. apply Z.pow_pos_nonneg; lia.
  - rewrite gf2_mul_S. replace (m + Z.of_nat (S n)) with (m + Z.of_nat n + 1) by lia. apply lxor_range; [lia| |].
    + rewrite Z.pow_add_r by lia. lia.
    + destruct (Z.testbit b _); [|split; [lia|apply Z.pow_pos_nonneg; lia]].
      rewrite Z.shiftl_mul_pow2 by lia. rewrite !Z.pow_add_r by lia.
      assert (0 < 2 ^ Z.of_nat n) by (apply Z.pow_pos_nonneg; lia). nia.
Qed.
Lemma gf_mul_rel a b : 0 <= a < 2 ^ 128 -> 0 <= gf_mul a b < 2 ^ 128 /\
  exists q, 0 <= q < 2 ^ 128 /\ gf2_mul 128 a b = Z.lxor (gf_mul a b) (gf2_mul 128 gcm_modulus q).
Proof.
  intros Ha. unfold gf_mul, gf_reduce. destruct (gf_reduce_step 128 (gf2_mul 128 a b)) as (R & q & Hq & E).
  { apply (gf2_mul_range 128 128); lia. }
  split; [exact R|]. exists q. split; [exact Hq|]. rewrite gf2_mul_modulus by exact Hq. rewrite <- E.
  rewrite (Z.lxor_comm (gf2_mul 128 a b)), <- Z.lxor_assoc, Z.lxor_nilpotent, Z.lxor_0_l. reflexivity.
Qed.
Lemma gf_mul_range a b : 0 <= a < 2 ^ 128 -> 0 <= gf_mul a b < 2 ^ 128.
Proof. intros. now apply gf_mul_rel. Qed.
Lemma gf_mul_cong a b : 0 <= a < 2 ^ 128 -> cong (gf2_mul 128 a b) (gf_mul a b).
Proof.
  intros Ha. destruct (gf_mul_rel a b Ha) as (R & q & Hq & E). rewrite gf2_mul_modulus in E by exact Hq.
  exists q. split; [lia|]. rewrite E, Z.lxor_comm, <- Z.lxor_assoc, Z.lxor_nilpotent. apply Z.lxor_0_l.
Qed.
Lemma gf_mul_unique a b r : 0 <= a < 2 ^ 128 -> 0 <= r < 2 ^ 128 -> cong (gf2_mul 128 a b) r -> gf_mul a b = r.
Proof.
  intros Ha Hr H. apply cong_unique; auto using gf_mul_range. eapply cong_trans; [|exact H]. apply cong_sym. now apply gf_mul_cong.
Qed.
Lemma gf_mul_comm a b : 0 <= a < 2 ^ 128 -> 0 <= b < 2 ^ 128 -> gf_mul a b = gf_mul b a.
Proof. intros. unfold gf_mul. now rewrite (gf2_mul_comm 128 a b). Qed.
Lemma gf_mul_xor_r a b b' : 0 <= a < 2 ^ 128 -> gf_mul a (Z.lxor b b') = Z.lxor (gf_mul a b) (gf_mul a b').
Proof.
  intros Ha. apply gf_mul_unique; auto.
  - apply lxor_range; [lia| |]; now apply gf_mul_range.
  - rewrite gf2_mul_xor_r. apply cong_xor; now apply gf_mul_cong.
Qed.
Lemma gf_mul_xor_l a a' b : 0 <= a < 2 ^ 128 -> 0 <= a' < 2 ^ 128 -> gf_mul (Z.lxor a a') b = Z.lxor (gf_mul a b) (gf_mul a' b).
Proof.
  intros Ha Ha'. apply gf_mul_unique; auto.
  - apply lxor_range; lia.
  - apply lxor_range; [lia| |]; now apply gf_mul_range.
  - rewrite gf2_mul_xor_l. apply cong_xor; now apply gf_mul_cong.
Qed.
Lemma gf_mul_0_l b : gf_mul 0 b = 0.
Proof. unfold gf_mul. rewrite gf2_mul_0_l. reflexivity. Qed.
