From Verif Require Import BaseLemmas Spec_Common.
Open Scope Z_scope.

Lemma splice_written out o d : (o + length d <= length out)%nat -> written out (splice out o d) o d.
Proof.
  intros H. repeat split.
  - len.
  - intros i Hi. rewrite nth_splice by lia.
    destruct (Nat.ltb_spec (o + i) o); [lia|]. destruct (Nat.ltb_spec (o + i) (o + length d)); [|lia].
    f_equal. lia.
  - intros i Hi. rewrite nth_splice by lia.
    destruct (Nat.ltb_spec i o); auto. destruct (Nat.ltb_spec i (o + length d)); auto. lia.
Qed.

Lemma written_unique out a b o d : (o + length d <= length out)%nat ->
  written out a o d -> written out b o d -> a = b.
Proof.
  intros H (La & Ia & Oa) (Lb & Ib & Ob). apply (list_ext 0); [lia|]. intros i Hi.
  destruct (Nat.lt_ge_cases i o); [rewrite Oa, Ob by lia; reflexivity|].
  destruct (Nat.lt_ge_cases i (o + length d)); [|rewrite Oa, Ob by lia; reflexivity].
  replace i with (o + (i - o))%nat by lia. rewrite Ia, Ib by lia. reflexivity.
Qed.

Lemma sum_upto_S n f : sum_upto (S n) f = f 0%nat + sum_upto n (fun i => f (S i)).
Proof.
  unfold sum_upto. cbn [seq map fold_right]. f_equal. f_equal.
  rewrite <- seq_shift, map_map. reflexivity.
Qed.

Lemma sum_upto_ext n f g : (forall i, (i < n)%nat -> f i = g i) -> sum_upto n f = sum_upto n g.
Proof.
  intros H. unfold sum_upto. f_equal. apply map_ext_in. intros i Hi. apply in_seq in Hi. apply H. lia.
Qed.

Lemma sum_upto_mul n f c : sum_upto n (fun i => c * f i) = c * sum_upto n f.
Proof.
  revert f; induction n as [|n IH]; intros f; [unfold sum_upto; cbn; ring|].
  rewrite !sum_upto_S, (IH (fun i => f (S i))). ring.
Qed.

Lemma value_le_eq l : value_le l = le_val l.
Proof.
  unfold value_le. induction l as [|x l IH]; [reflexivity|].
  cbn [length]. rewrite sum_upto_S. cbn [nth le_val].
  rewrite <- IH, <- sum_upto_mul. change (256 ^ Z.of_nat 0) with 1. f_equal; [ring|].
  apply sum_upto_ext. intros i _. rewrite Nat2Z.inj_succ, Z.pow_succ_r by lia. ring.
Qed.

Lemma value_be_eq l : value_be l = be_val l.
Proof.
  unfold value_be. induction l as [|x l IH]; [reflexivity|].
  rewrite be_val_cons, <- IH. cbn [length]. rewrite sum_upto_S. cbn [nth].
  replace (Z.of_nat (S (length l)) - 1 - Z.of_nat 0) with (Z.of_nat (length l)) by lia.
  rewrite Z.add_comm. f_equal; [|ring].
  apply sum_upto_ext. intros i _. do 2 f_equal. lia.
Qed.
