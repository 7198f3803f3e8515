(** Congruence modulo 3329, sums, and the reductions of KyberBase. *)
From Verif Require Import BaseLemmas Spec_Kyber Model_Kyber.
From Coq Require Import Setoid Morphisms.
Open Scope Z_scope.

Definition cg (a b : Z) : Prop := exists k, a = b + Q * k.
Infix "==" := cg (at level 70).
Lemma cg_ex a b : a == b <-> exists k, a = b + Q * k.
Proof. reflexivity. Qed.
Lemma cg_mod a b : a == b <-> a mod Q = b mod Q.
Proof.
  unfold cg, Q. split.
  - intros [k ->]. rewrite Z.mul_comm. now rewrite Z.mod_add by lia.
  - intros H. exists (a / 3329 - b / 3329). lia.
Qed.
#[global] Instance cg_equiv : Equivalence cg.
Proof.
  split.
  - intros x. exists 0. ring.
  - intros x y [k ->]. exists (- k). ring.
  - intros x y z [k ->] [l ->]. exists (k + l). ring.
Qed.
#[global] Instance cg_add : Proper (cg ==> cg ==> cg) Z.add.
Proof. intros a b H c d H1. apply cg_ex in H, H1. destruct H as [k ->], H1 as [l ->]. apply cg_ex. exists (k + l). ring. Qed.
#[global] Instance cg_sub : Proper (cg ==> cg ==> cg) Z.sub.
Proof. intros a b H c d H1. apply cg_ex in H, H1. destruct H as [k ->], H1 as [l ->]. apply cg_ex. exists (k - l). ring. Qed.
#[global] Instance cg_opp : Proper (cg ==> cg) Z.opp.
Proof. intros a b H. apply cg_ex in H. destruct H as [k ->]. apply cg_ex. exists (- k). ring. Qed.
#[global] Instance cg_mul : Proper (cg ==> cg ==> cg) Z.mul.
Proof. intros a b H c d H1. apply cg_ex in H, H1. destruct H as [k ->], H1 as [l ->]. apply cg_ex. exists (b * l + d * k + Q * k * l). ring. Qed.
Lemma cg_pow a b n : a == b -> a ^ Z.of_nat n == b ^ Z.of_nat n.
Proof.
  intros H. induction n as [|n IH]; [reflexivity|]. rewrite Nat2Z.inj_succ, !Z.pow_succ_r by lia. apply cg_mul; assumption.
Qed.
Lemma cg_refl a : a == a. Proof. reflexivity. Qed.
(** multiplication by a unit can be removed *)
Lemma cg_unit u v a b : u * v == 1 -> u * a == u * b -> a == b.
Proof.
  intros H H1. assert (v * (u * a) == v * (u * b)) as H2 by now rewrite H1.
  replace (v * (u * a)) with ((u * v) * a) in H2 by ring. replace (v * (u * b)) with ((u * v) * b) in H2 by ring.
  rewrite H in H2. now rewrite !Z.mul_1_l in H2.
Qed.

(** * sums *)
Lemma zsum_ext n f g : (forall i, (i < n)%nat -> f i = g i) -> zsum n f = zsum n g.
Proof. induction n as [|n IH]; intros H; [reflexivity|]. cbn [zsum]. rewrite IH by (intros; apply H; lia). now rewrite H by lia. Qed.
Lemma zsum_cg n f g : (forall i, (i < n)%nat -> f i == g i) -> zsum n f == zsum n g.
Proof. induction n as [|n IH]; intros H; [reflexivity|]. cbn [zsum]. rewrite IH by (intros; apply H; lia). now rewrite (H n) by lia. Qed.
Lemma zsum_add n f g : zsum n (fun i => f i + g i) = zsum n f + zsum n g.
Proof. induction n as [|n IH]; [reflexivity|]. cbn [zsum]. rewrite IH. ring. Qed.
Lemma zsum_mul n c f : zsum n (fun i => c * f i) = c * zsum n f.
Proof. induction n as [|n IH]; cbn [zsum]; [ring|]. rewrite IH. ring. Qed.
Lemma zsum_mulr n c f : zsum n (fun i => f i * c) = zsum n f * c.
Proof. induction n as [|n IH]; cbn [zsum]; [ring|]. rewrite IH. ring. Qed.
Lemma zsum_0 n : zsum n (fun _ => 0) = 0.
Proof. induction n as [|n IH]; cbn [zsum]; [ring|]. rewrite IH. ring. Qed.
Lemma zsum_app n m f : zsum (n + m) f = zsum n f + zsum m (fun i => f (n + i)%nat).
Proof.
  induction m as [|m IH]; [rewrite Nat.add_0_r; cbn [zsum]; ring|].
  rewrite Nat.add_succ_r. cbn [zsum]. rewrite IH. ring.
Qed.
Lemma zsum_swap n m f : zsum n (fun i => zsum m (fun j => f i j)) = zsum m (fun j => zsum n (fun i => f i j)).
Proof.
  induction n as [|n IH]; cbn [zsum]; [now rewrite zsum_0|]. rewrite IH, <- zsum_add. reflexivity.
Qed.
(** pairs of indices *)
Lemma zsum_pairs n f : zsum (2 * n) f = zsum n (fun i => f (2 * i)%nat + f (2 * i + 1)%nat).
Proof.
  induction n as [|n IH]; [reflexivity|]. replace (2 * S n)%nat with (S (S (2 * n))) by lia. cbn [zsum]. rewrite IH.
  replace (2 * n + 1)%nat with (S (2 * n)) by lia. ring.
Qed.

(** * int16_t and the reductions *)
Lemma s16_id x : - 2 ^ 15 <= x < 2 ^ 15 -> s16 x = x.
Proof. intros H. unfold s16. rewrite Z.mod_small by lia. lia. Qed.
Lemma s16_range x : - 2 ^ 15 <= s16 x < 2 ^ 15.
Proof. unfold s16. pose proof (Z.mod_pos_bound (x + 2 ^ 15) (2 ^ 16) ltac:(lia)). lia. Qed.
Lemma s16_ex x : exists k, s16 x = x + 65536 * k.
Proof. unfold s16. exists (- ((x + 2 ^ 15) / 2 ^ 16)). change (2 ^ 16) with 65536. change (2 ^ 15) with 32768. lia. Qed.

(** the inverse of 2^16 modulo Q *)
Lemma mont_inv : 65536 * 169 == 1. Proof. now apply cg_mod. Qed.
Lemma MontgomeryReduce_ok a B : 0 <= B < 2 ^ 30 -> Z.abs a <= 65536 * B -> B <= 30000 ->
  MontgomeryReduce a == 169 * a /\ Z.abs (MontgomeryReduce a) <= B + 1665.
Proof.
  intros H0 H H1. unfold MontgomeryReduce, KYBER_QINV, KYBER_Q.
  destruct (s16_ex (a * 62209)) as [k E]. pose proof (s16_range (a * 62209)) as R. set (u := s16 (a * 62209)) in *. clearbody u.
  assert (exists w, a - u * 3329 = 65536 * w) as [w W].
  { exists (- 3160 * a - 3329 * k). rewrite E. ring. }
  rewrite W. rewrite Z.shiftr_div_pow2 by lia. change (2 ^ 16) with 65536. rewrite (Z.mul_comm 65536), Z.div_mul by lia.
  assert (Z.abs w <= B + 1665) as HB by lia.
  rewrite s16_id by lia. split; [|exact HB].
  apply (cg_unit 65536 169 _ _ mont_inv). replace (65536 * (169 * a)) with (65536 * 169 * a) by ring. rewrite mont_inv.
  apply cg_ex. unfold Q. exists (- u). lia.
Qed.
Lemma FqMul_ok a b B : 0 <= B <= 30000 -> Z.abs (a * b) <= 65536 * B -> FqMul a b == 169 * (a * b) /\ Z.abs (FqMul a b) <= B + 1665.
Proof. intros. unfold FqMul. apply MontgomeryReduce_ok; lia. Qed.
Lemma BarrettReduce_ok a : - 2 ^ 15 <= a < 2 ^ 15 -> BarrettReduce a == a /\ Z.abs (BarrettReduce a) <= 1664.
Proof.
  intros H. unfold BarrettReduce, KYBER_Q. change ((2 ^ 26 + 3329 / 2) / 3329) with 20159.
  rewrite Z.shiftr_div_pow2 by lia. change (2 ^ 26) with 67108864. change (2 ^ 25) with 33554432. change (2 ^ 15) with 32768 in H.
  assert (exists t, (20159 * a + 33554432) / 67108864 = t /\ -10 <= t <= 10 /\ Z.abs (a - t * 3329) <= 1664) as (t & E & T & A).
  { exists ((20159 * a + 33554432) / 67108864). split; [reflexivity|]. lia. }
  rewrite E. rewrite (s16_id t) by lia. destruct (s16_ex (t * 3329)) as [k Ek].
  destruct (s16_ex (a - s16 (t * 3329))) as [l El].
  assert (s16 (a - s16 (t * 3329)) = a - t * 3329) as ->.
  { pose proof (s16_range (a - s16 (t * 3329))) as R. rewrite El, Ek in *. change (2 ^ 15) with 32768 in R. lia. }
  split; [|exact A]. apply cg_ex. exists (- t). unfold Q. ring.
Qed.
