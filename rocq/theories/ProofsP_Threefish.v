(** Glue for Properties_Threefish.v. *)
From Verif Require Import BaseLemmas Spec_Common Spec_ChaCha Spec_Threefish Model_Straight Model_ThreefishGen Model_Threefish Proofs_Threefish Proofs_Threefish2 Proofs_Threefish3.
Open Scope Z_scope.

Lemma ok_inj (a b : list Z) : Ok a = Ok b -> a = b. Proof. intros H. now injection H. Qed.
Lemma c66_256 key ctr tw : length key = 4%nat -> length ctr = 2%nat -> length tw = 2%nat -> PemuteR72P256U key ctr tw = Ok (threefish threefish256 72 key tw (ctr ++ repeat (2 ^ 64 - 1) 2)).
Proof. exact (tsx256_ok key ctr tw). Qed.
Lemma c66_512 key ctr tw : length key = 8%nat -> length ctr = 2%nat -> length tw = 2%nat ->
  PemuteR96P512U key ctr tw = Ok (tf_encrypt threefish512 96 (subkey threefish512 key tw 18 24) key tw (ctr ++ repeat (2 ^ 64 - 1) 6)).
Proof. exact (tsx512_ok key ctr tw). Qed.
Lemma c66_1024 key ctr tw : length key = 16%nat -> length ctr = 2%nat -> length tw = 2%nat ->
  PemuteR120P1024U key ctr tw = Ok (tf_encrypt threefish1024 120 (subkey threefish1024 key tw 20 30) key tw (ctr ++ repeat (2 ^ 64 - 1) 14)).
Proof. exact (tsx1024_ok key ctr tw). Qed.
Definition words64 (n : nat) (l : list Z) : Prop := length l = n /\ Forall (fun x => 0 <= x < 2 ^ 64) l.
Lemma ones_words n : Forall word64 (repeat (2 ^ 64 - 1) n).
Proof. apply Forall_forall. intros x H. apply repeat_spec in H. subst x. red. lia. Qed.
Lemma good_all : good threefish256 = true /\ good threefish512 = true /\ good threefish1024 = true. Proof. repeat split; reflexivity. Qed.
Lemma inj_pad F rounds last key tw k c c' : good F = true -> length last = f_n F -> words64 2 c -> words64 2 c' -> (2 + k = f_n F)%nat ->
  tf_encrypt F rounds last key tw (c ++ repeat (2 ^ 64 - 1) k) = tf_encrypt F rounds last key tw (c' ++ repeat (2 ^ 64 - 1) k) -> c = c'.
Proof.
  intros G LL [L1 W1] [L2 W2] K E. apply (encrypt_inj F G) in E; auto.
  - now apply app_inv_tail in E.
  - rewrite app_length, repeat_length; lia.
  - rewrite app_length, repeat_length; lia.
  - apply Forall_app. split; [exact W1|apply ones_words].
  - apply Forall_app. split; [exact W2|apply ones_words].
Qed.
Lemma c66_counters key ctr ctr' tw : length tw = 2%nat -> words64 2 ctr -> words64 2 ctr' -> ctr <> ctr' ->
  (length key = 4%nat -> PemuteR72P256U key ctr tw <> PemuteR72P256U key ctr' tw) /\
  (length key = 8%nat -> PemuteR96P512U key ctr tw <> PemuteR96P512U key ctr' tw) /\
  (length key = 16%nat -> PemuteR120P1024U key ctr tw <> PemuteR120P1024U key ctr' tw).
Proof.
  intros LT W W' NE. pose proof (proj1 W) as L1. pose proof (proj1 W') as L2. destruct good_all as (G1 & G2 & G3).
  split; [|split]; intros LK.
  - rewrite !tsx256_ok by auto. intros E. apply ok_inj in E. apply NE. refine (inj_pad threefish256 _ _ key tw 2 ctr ctr' G1 (subkey_len _ _ _ _ _) W W' eq_refl E).
  - rewrite !tsx512_ok by auto. intros E. apply ok_inj in E. apply NE. refine (inj_pad threefish512 _ _ key tw 6 ctr ctr' G2 (subkey_len _ _ _ _ _) W W' eq_refl E).
  - rewrite !tsx1024_ok by auto. intros E. apply ok_inj in E. apply NE. refine (inj_pad threefish1024 _ _ key tw 14 ctr ctr' G3 (subkey_len _ _ _ _ _) W W' eq_refl E).
Qed.
Lemma threefish_inj F (G : good F = true) rounds key tw v v' : length v = f_n F -> length v' = f_n F -> Forall word64 v -> Forall word64 v' ->
  threefish F rounds key tw v = threefish F rounds key tw v' -> v = v'.
Proof. intros L1 L2 W1 W2 E. unfold threefish in E. exact (encrypt_inj F G _ _ key tw v v' (subkey_len _ _ _ _ _) L1 L2 W1 W2 E). Qed.
Lemma c66_skein_inj key tw m m' : length tw = 2%nat -> m <> m' ->
  (length key = 4%nat -> words64 4 m -> words64 4 m' -> Skein_PemuteR72P256U m tw key <> Skein_PemuteR72P256U m' tw key) /\
  (length key = 8%nat -> words64 8 m -> words64 8 m' -> Skein_PemuteR72P512U m tw key <> Skein_PemuteR72P512U m' tw key) /\
  (length key = 16%nat -> words64 16 m -> words64 16 m' -> Skein_PemuteR80P1024U m tw key <> Skein_PemuteR80P1024U m' tw key).
Proof.
  intros LT NE. destruct good_all as (G1 & G2 & G3).
  split; [|split]; intros LK [L1 W1] [L2 W2].
  - rewrite !skein256_ok by auto. intros E. apply ok_inj in E. apply NE. exact (threefish_inj threefish256 G1 _ key tw m m' L1 L2 W1 W2 E).
  - rewrite !skein512_ok by auto. intros E. apply ok_inj in E. apply NE. exact (threefish_inj threefish512 G2 _ key tw m m' L1 L2 W1 W2 E).
  - rewrite !skein1024_ok by auto. intros E. apply ok_inj in E. apply NE. exact (threefish_inj threefish1024 G3 _ key tw m m' L1 L2 W1 W2 E).
Qed.
Lemma last_differs F rounds last key tw v : tf_encrypt F rounds last key tw v <> tf_encrypt F rounds (subkey F key tw (rounds / 4) (Z.of_nat (rounds / 4))) key tw v ->
  tf_encrypt F rounds last key tw v <> threefish F rounds key tw v.
Proof. exact (fun H => H). Qed.
Fixpoint eqbz (a b : list Z) : bool := match a, b with [], [] => true | x :: a, y :: b => (x =? y) && eqbz a b | _, _ => false end.
Lemma neqz a b : eqbz a b = false -> a <> b.
Proof. intros H ->. assert (E : eqbz b b = true) by (clear; induction b; cbn; [reflexivity|now rewrite Z.eqb_refl]). congruence. Qed.
Lemma c66_last512 : exists key ctr tw, words64 8 key /\ words64 2 ctr /\ words64 2 tw /\ PemuteR96P512U key ctr tw <> Ok (threefish threefish512 96 key tw (ctr ++ repeat (2 ^ 64 - 1) 6)).
Proof.
  exists (zeros 8), (zeros 2), (zeros 2). assert (W : forall n, words64 n (zeros n)).
  { intros n. split; [apply length_zeros|]. apply Forall_forall. intros x H. apply repeat_spec in H. subst. lia. }
  split; [apply W|]. split; [apply W|]. split; [apply W|]. rewrite tsx512_ok by reflexivity. intros E. apply ok_inj in E. revert E. apply neqz. Transparent plus rotl Z.lxor. vm_compute. reflexivity.
Qed.
Lemma c66_last1024 : exists key ctr tw, words64 16 key /\ words64 2 ctr /\ words64 2 tw /\ PemuteR120P1024U key ctr tw <> Ok (threefish threefish1024 120 key tw (ctr ++ repeat (2 ^ 64 - 1) 14)).
Proof.
  exists (zeros 16), (zeros 2), (zeros 2). assert (W : forall n, words64 n (zeros n)).
  { intros n. split; [apply length_zeros|]. apply Forall_forall. intros x H. apply repeat_spec in H. subst. lia. }
  split; [apply W|]. split; [apply W|]. split; [apply W|]. rewrite tsx1024_ok by reflexivity. intros E. apply ok_inj in E. revert E. apply neqz. vm_compute. reflexivity.
Qed.
