(** Threefish is one-to-one in the block. *)
From Verif Require Import BaseLemmas Spec_ChaCha Spec_Threefish Model_Straight Model_ThreefishGen Model_Threefish Proofs_Threefish Proofs_Threefish2 Spec_Keccak Proofs_Keccak Proofs_KeccakInv.
Open Scope Z_scope.
Transparent plus rotl Z.lxor.
Notation word64 := (is_word 64).

Lemma rotl_range x r : 0 < r < 64 -> word64 x -> word64 (rotl 64 x r).
Proof.
  intros Hr Hx. unfold is_word in *. unfold rotl. apply lor_range; [lia|apply Z.mod_pos_bound; lia|].
  split; [apply Z.shiftr_nonneg; lia|]. rewrite Z.shiftr_div_pow2 by lia. apply Z.div_lt_upper_bound; [apply Z.pow_pos_nonneg; lia|].
  assert (1 <= 2 ^ (64 - r)) by (apply Z.lt_pred_le; apply Z.pow_pos_nonneg; lia). nia.
Qed.
Lemma plus_range a b : word64 (plus 64 a b).
Proof. unfold plus, is_word. apply Z.mod_pos_bound. lia. Qed.
Lemma rotl_inj x y r : 0 < r < 64 -> word64 x -> word64 y -> rotl 64 x r = rotl 64 y r -> x = y.
Proof.
  intros Hr Hx Hy E. apply Z.bits_inj'. intros i Hi.
  destruct (Z_lt_ge_dec i 64) as [L|G].
  - pose proof (rotl_bit r x (i + r) ltac:(lia) Hx) as A. pose proof (rotl_bit r y (i + r) ltac:(lia) Hy) as B.
    change (rotl64 r x) with (rotl 64 x r) in A. change (rotl64 r y) with (rotl 64 y r) in B. rewrite E in A. rewrite A in B.
    replace (i + r - r) with i in B by lia. rewrite Z.mod_small in B by lia. exact B.
  - unfold is_word in *. assert (Hh : forall z, 0 <= z < 2 ^ 64 -> Z.testbit z i = false).
    { intros z Hz. destruct (Z.eq_dec z 0) as [->|N]; [apply Z.bits_0|]. apply Z.bits_above_log2; [lia|].
      assert (Z.log2 z < 64) by (apply Z.log2_lt_pow2; lia). lia. }
    now rewrite !Hh.
Qed.
Lemma plus_inj_l x x' y : word64 x -> word64 x' -> plus 64 x y = plus 64 x' y -> x = x'.
Proof.
  unfold plus, is_word. intros Hx Hx' E. assert (M : (x - x') mod 2 ^ 64 = 0).
  { replace (x - x') with ((x + y) - (x' + y)) by lia. rewrite Zminus_mod, E, Z.sub_diag. reflexivity. }
  apply Z.mod_divide in M; [|lia]. destruct M as [k Hk]. change (2 ^ 64) with 18446744073709551616 in *. nia.
Qed.
Lemma lxor_inj_r a b c : Z.lxor a c = Z.lxor b c -> a = b.
Proof. intros E. apply (f_equal (fun z => Z.lxor z c)) in E. now rewrite !Z.lxor_assoc, Z.lxor_nilpotent, !Z.lxor_0_r in E. Qed.

Lemma mix_words_range rs : forall v, Forall (fun r => 0 < r < 64) rs -> Forall word64 v -> Forall word64 (mix_words rs v).
Proof.
  induction rs as [|r rs IH]; intros v HR HV; [exact HV|]. destruct v as [|x [|y v]]; try exact HV. cbn [mix_words].
  inversion HR; subst. inversion HV as [|? ? ? HV1]; subst. inversion HV1; subst.
  constructor; [apply plus_range|]. constructor; [apply lxor_range; [lia|now apply rotl_range|apply plus_range]|]. now apply IH.
Qed.
Lemma mix_words_inj rs : forall v v', Forall (fun r => 0 < r < 64) rs -> Forall word64 v -> Forall word64 v' -> length v = length v' ->
  mix_words rs v = mix_words rs v' -> v = v'.
Proof.
  induction rs as [|r rs IH]; intros v v' HR HV HV' L E; [exact E|].
  destruct v as [|x [|y v]]; destruct v' as [|x' [|y' v']]; try discriminate L; try exact E. cbn [mix_words] in E.
  inversion HR; subst. inversion HV as [|? ? Hx HV1]; subst. inversion HV1 as [|? ? Hy HV2]; subst. inversion HV' as [|? ? Hx' HV1']; subst. inversion HV1' as [|? ? Hy' HV2']; subst.
  injection E as E1 E2 E3. unfold add64 in *. rewrite E1 in E2. apply lxor_inj_r in E2. apply rotl_inj in E2; auto. subst y'.
  apply plus_inj_l in E1; auto. subst x'. f_equal. f_equal. apply IH; auto. now injection L.
Qed.
Lemma add_words_range a : forall b, Forall word64 (add_words a b).
Proof. unfold add_words. induction a as [|x a IH]; intros [|y b]; cbn [combine map]; constructor; [apply plus_range|apply IH]. Qed.
Lemma add_words_inj a : forall a' b, Forall word64 a -> Forall word64 a' -> length a = length b -> length a' = length b -> add_words a b = add_words a' b -> a = a'.
Proof.
  unfold add_words. induction a as [|x a IH]; intros [|x' a'] [|y b] H H' L L' E; cbn in L, L'; try discriminate; [reflexivity|].
  inversion H; subst. inversion H'; subst. cbn [combine map fst snd] in E. injection E as E1 E2. apply plus_inj_l in E1; auto. subst x'. f_equal. apply (IH a' b); auto.
Qed.
(** what the tables must satisfy *)
Definition good (F : tfish) : bool :=
  (length (f_pi F) =? f_n F)%nat && forallb (fun i => existsb (Nat.eqb i) (f_pi F)) (seq 0 (f_n F)) && forallb (fun i => i <? f_n F)%nat (f_pi F)
  && forallb (forallb (fun r => (0 <? r) && (r <? 64))) (f_rots F).
Section inj.
Variable F : tfish.
Hypothesis G : good F = true.
Lemma g_pi : length (f_pi F) = f_n F.
Proof. unfold good in G. rewrite !andb_true_iff in G. apply Nat.eqb_eq. tauto. Qed.
Lemma g_rots d : Forall (fun r => 0 < r < 64) (nth d (f_rots F) []).
Proof.
  unfold good in G. rewrite !andb_true_iff in G. destruct G as [_ H]. rewrite forallb_forall in H.
  destruct (nth_in_or_default d (f_rots F) []) as [I| ->]; [|constructor]. apply H in I. rewrite forallb_forall in I. apply Forall_forall. intros r Hr. apply I in Hr. lia.
Qed.
Lemma view_inj c c' : length c = f_n F -> length c' = f_n F -> view (f_pi F) c = view (f_pi F) c' -> c = c'.
Proof.
  intros H H' E. apply (list_ext 0); [lia|]. intros i Hi. unfold good in G. rewrite !andb_true_iff, !forallb_forall in G. destruct G as [[[_ P] _] _].
  assert (I : In i (f_pi F)).
  { specialize (P i). rewrite in_seq in P. specialize (P ltac:(lia)). apply existsb_exists in P as (j & Hj & Ej). apply Nat.eqb_eq in Ej. now subst. }
  clear - I E. unfold view in E. induction (f_pi F) as [|j l IH]; [destruct I|]. cbn [map] in E. injection E as E1 E2. destruct I as [->|I]; auto.
Qed.
Lemma view_range c : Forall word64 c -> Forall word64 (view (f_pi F) c).
Proof.
  intros H. unfold view. apply Forall_forall. intros x Hx. apply in_map_iff in Hx as (i & <- & _).
  destruct (nth_in_or_default i c 0) as [I| ->]; [rewrite Forall_forall in H; auto|unfold is_word; lia].
Qed.
Lemma round_facts key tw v v' d : length v = f_n F -> length v' = f_n F -> Forall word64 v -> Forall word64 v' ->
  Forall word64 (tf_round F key tw v d) /\ (tf_round F key tw v d = tf_round F key tw v' d -> v = v').
Proof.
  intros L L' H H'. unfold tf_round. cbv zeta. fold (view (f_pi F)). 
  set (k := subkey F key tw (d / 4) (Z.of_nat (d / 4))). assert (LK : length k = f_n F) by apply subkey_len.
  change (map (fun i => nth i ?m 0) (f_pi F)) with (view (f_pi F) m).
  destruct (d mod 4 =? 0)%nat.
  - split; [apply view_range, mix_words_range; [apply g_rots|apply add_words_range]|]. intros E.
    apply view_inj in E; [|now rewrite mix_len, add_words_len by lia..]. apply mix_words_inj in E; [|apply g_rots|apply add_words_range|apply add_words_range|rewrite !add_words_len by lia; lia].
    apply (add_words_inj v v' k); [exact H|exact H'|lia|lia|exact E].
  - split; [apply view_range, mix_words_range; [apply g_rots|exact H]|]. intros E.
    apply view_inj in E; [|now rewrite mix_len..]. apply mix_words_inj in E; auto using g_rots. lia.
Qed.
Lemma encrypt_inj rounds last key tw v v' : length last = f_n F -> length v = f_n F -> length v' = f_n F -> Forall word64 v -> Forall word64 v' ->
  tf_encrypt F rounds last key tw v = tf_encrypt F rounds last key tw v' -> v = v'.
Proof.
  intros LL. unfold tf_encrypt. generalize (seq 0 rounds). intros l. revert v v'.
  assert (A : forall l v, length v = f_n F -> Forall word64 v -> length (fold_left (tf_round F key tw) l v) = f_n F /\ Forall word64 (fold_left (tf_round F key tw) l v)).
  { intros m; induction m as [|d m IH]; intros v H1 H2; [auto|]. cbn [fold_left]. apply IH; [apply tf_round_len, g_pi|]. now apply (round_facts key tw v v d). }
  assert (B : forall l v v', length v = f_n F -> length v' = f_n F -> Forall word64 v -> Forall word64 v' -> fold_left (tf_round F key tw) l v = fold_left (tf_round F key tw) l v' -> v = v').
  { intros m; induction m as [|d m IH]; intros v v' H1 H2 H3 H4 E; [exact E|]. cbn [fold_left] in E. apply IH in E; try (apply tf_round_len, g_pi); try (now apply (round_facts key tw v v d)); try (now apply (round_facts key tw v' v' d)).
    now apply (round_facts key tw v v' d) in E. }
  intros v v' H1 H2 H3 H4 E. destruct (A l v H1 H3). destruct (A l v' H2 H4). apply add_words_inj in E; try lia; auto. eapply B; eauto.
Qed.
End inj.
