(** Glue for the tree mode in Properties_Blake.v. *)
From Verif Require Import BaseLemmas Spec_Feed Model_IntegerTools Model_Modes Model_BlakeGen Model_Blake Model_BlakeTree Spec_ChaCha Spec_Blake Proofs_Blake Proofs_Blake2 Proofs_BlakeTree ProofsP_Blake.
Open Scope Z_scope.

Lemma load_ub size inp io : (length inp < io + 16 * size)%nat -> forall n a ws, (a + n = 16)%nat -> (0 < n)%nat ->
  for_up a n (fun i ws => x <- LeBytesTo size inp (io + size * i)%nat ;; Ok (ws ++ [x])) ws = UB.
Proof.
  intros H. induction n as [|n IH]; intros a ws HA HN; [lia|]. cbn [for_up]. unfold LeBytesTo at 1, rd.
  destruct (Nat.leb_spec (io + size * a + size) (length inp)) as [L|L]; cbn [safe bind]; [|reflexivity].
  apply IH; [lia|]. destruct n; [|lia]. exfalso. assert (a = 15%nat) by lia. subst. nia.
Qed.
Lemma permute_ub w size code inp io h iv : (length inp < io + 16 * size)%nat -> permute_U w size code inp io h iv = UB.
Proof. intros H. unfold permute_U, load_le. rewrite (load_ub size inp io H) by lia. reflexivity. Qed.
Lemma conf256 p cfg : length (p_dst p) = 12%nat -> length cfg = 8%nat -> exists cfg', GetConfig32 p cfg = Ok cfg' /\ length cfg' = 8%nat.
Proof. intros HD HC. destruct p as [a b c d e f g h i dst]. cbn [p_dst] in HD. split12 dst HD. split8 cfg HC. eexists. split; [reflexivity|]. reflexivity. Qed.
Ltac split40 s H := do 40 (destruct s as [|? s]; [discriminate H|]); destruct s; [|discriminate H].
Lemma conf512 p cfg : length (p_dst p) = 40%nat -> length cfg = 8%nat -> exists cfg', GetConfig64 p cfg = Ok cfg' /\ length cfg' = 8%nat.
Proof. intros HD HC. destruct p as [a b c d e f g h i dst]. cbn [p_dst] in HD. split40 dst HD. split8 cfg HC. eexists. split; [reflexivity|]. reflexivity. Qed.
Lemma new_tree256 fan : (2 <= fan)%nat -> Tree256_new fan = Tree_start IV256 GetConfig32 fan (2 * fan * 64) (BParams 32 0 (Z.of_nat fan) 2 0 0 0 32 0 (zeros 12)).
Proof.
  intros H. unfold Tree256_new, BlakeParams_new. replace (Z.of_nat fan =? 1) with false by (symmetry; apply Z.eqb_neq; lia). rewrite andb_false_r. reflexivity.
Qed.
Lemma new_tree512 fan : (2 <= fan)%nat -> Tree512_new fan = Tree_start IV512 GetConfig64 fan (2 * fan * 128) (BParams 64 0 (Z.of_nat fan) 2 0 0 0 64 0 (zeros 40)).
Proof.
  intros H. unfold Tree512_new, BlakeParams_new. replace (Z.of_nat fan =? 1) with false by (symmetry; apply Z.eqb_neq; lia). rewrite andb_false_r. reflexivity.
Qed.
Lemma fan_is a b fan c d e f g h i : fan_of (BParams a b (Z.of_nat fan) c d e f g h i) = fan.
Proof. apply Nat2Z.id. Qed.
Lemma degree_all cores fan : (0 < fan <= cores)%nat -> prl_degree cores fan = fan.
Proof. intros H. unfold prl_degree. replace (cores <? fan)%nat with false by (symmetry; apply Nat.ltb_ge; lia). replace (fan =? 0)%nat with false by (symmetry; apply Nat.eqb_neq; lia). reflexivity. Qed.
Lemma degree_few cores fan : (cores < fan)%nat -> prl_degree cores fan = cores.
Proof. intros H. unfold prl_degree. replace (cores <? fan)%nat with true by (symmetry; apply Nat.ltb_lt; lia). reflexivity. Qed.
Definition ub256 := permute_ub 32 4 blake256_U.
Definition ub512 := permute_ub 64 8 blake512_U.

(** ** dropped data *)
Lemma c36_tree_drop256 cores fan m m' out : (2 <= fan <= cores)%nat -> length m' = length m -> (64 * (3 * fan - 1) < length m)%nat ->
  firstn (64 * fan) m' = firstn (64 * fan) m -> skipn (64 * (2 * fan)) m' = skipn (64 * (2 * fan)) m ->
  (o <- Tree256_new fan ;; Tree256_Compute cores fan o m' out) = (o <- Tree256_new fan ;; Tree256_Compute cores fan o m out).
Proof.
  intros HF HL HM H1 H2. rewrite new_tree256 by lia. unfold Tree256_Compute, Tree256_P. rewrite degree_all by lia. change 64%nat with (16 * 4)%nat.
  apply (collision 32 4 10 (16, 12, 8, 7) IV256 PermuteR10P512U GetConfig32 ltac:(lia) ltac:(lia) iv256_len perm256 ub256 12 conf256 true false fan); auto using fan_is; try lia.
  - rewrite (Nat.mul_comm fan). exact H1.
  - replace (2 * (fan * (16 * 4)))%nat with (64 * (2 * fan))%nat by lia. exact H2.
Qed.
Lemma c36_tree_drop512 cores fan m m' out : (2 <= fan <= cores)%nat -> length m' = length m -> (128 * (3 * fan - 1) < length m)%nat ->
  firstn (128 * fan) m' = firstn (128 * fan) m -> skipn (128 * (2 * fan)) m' = skipn (128 * (2 * fan)) m ->
  (o <- Tree512_new fan ;; Tree512_Compute cores fan o m' out) = (o <- Tree512_new fan ;; Tree512_Compute cores fan o m out).
Proof.
  intros HF HL HM H1 H2. rewrite new_tree512 by lia. unfold Tree512_Compute, Tree512_P. rewrite degree_all by lia. change 128%nat with (16 * 8)%nat.
  apply (collision 64 8 12 (32, 24, 16, 63) IV512 PermuteR12P1024U GetConfig64 ltac:(lia) ltac:(lia) iv512_len perm512 ub512 40 conf512 false true fan); auto using fan_is; try lia.
  - rewrite (Nat.mul_comm fan). exact H1.
  - replace (2 * (fan * (16 * 8)))%nat with (128 * (2 * fan))%nat by lia. exact H2.
Qed.
(** ** too few processors *)
Lemma c36_tree_cores256 cores fan m : (2 <= cores)%nat -> (3 * cores <= fan)%nat -> (64 * (4 * fan + cores - 1) < length m)%nat ->
  (o <- Tree256_new fan ;; Tree256_Update cores fan o m 0 (length m)) = UB.
Proof.
  intros HC HF HM. rewrite new_tree256 by lia. unfold Tree256_Update, Tree256_P. rewrite degree_few by lia. change 64%nat with (16 * 4)%nat.
  apply (over_read 32 4 10 (16, 12, 8, 7) IV256 PermuteR10P512U GetConfig32 ltac:(lia) ltac:(lia) iv256_len perm256 ub256 12 conf256 fan); auto using fan_is; lia.
Qed.
Lemma c36_tree_cores512 cores fan m : (2 <= cores)%nat -> (3 * cores <= fan)%nat -> (128 * (4 * fan + cores - 1) < length m)%nat ->
  (o <- Tree512_new fan ;; Tree512_Update cores fan o m 0 (length m)) = UB.
Proof.
  intros HC HF HM. rewrite new_tree512 by lia. unfold Tree512_Update, Tree512_P. rewrite degree_few by lia. change 128%nat with (16 * 8)%nat.
  apply (over_read 64 8 12 (32, 24, 16, 63) IV512 PermuteR12P1024U GetConfig64 ltac:(lia) ltac:(lia) iv512_len perm512 ub512 40 conf512 fan); auto using fan_is; lia.
Qed.
Lemma c36_tree_degree256 d m : (2 <= d <= 64)%nat -> (d mod 2 = 0)%nat -> (64 * (3 * d - 1) < length m < 64 * (3 * d))%nat ->
  (o <- Tree256_degree d ;; Tree256_degree_Update d o m 0 (length m)) = UB.
Proof.
  intros HD HE HM. unfold Tree256_degree. replace (d =? 0)%nat with false by (symmetry; apply Nat.eqb_neq; lia). rewrite HE. replace (d <=? 64)%nat with true by (symmetry; apply Nat.leb_le; lia). cbn [negb Nat.eqb andb guard bind].
  unfold Tree256_degree_Update. change 64%nat with (16 * 4)%nat.
  apply (zero_leaf 32 4 10 (16, 12, 8, 7) IV256 PermuteR10P512U GetConfig32 ltac:(lia) ltac:(lia) iv256_len perm256 ub256 12 conf256 d); auto using fan_is; lia.
Qed.
(** ** the output offset *)
Lemma c36_tree_offset512 cores fan o out oo : (oo + 64 <= length out)%nat -> Tree512_Finalize cores fan o out oo = Tree512_Finalize cores fan o out 0.
Proof.
  intros H. unfold Tree512_Finalize, Tree_Finalize. unfold dsize.
  replace (oo <=? length out)%nat with true by (symmetry; apply Nat.leb_le; lia). replace (length out - oo <? 8 * 8)%nat with false by (symmetry; apply Nat.ltb_ge; lia).
  replace (length out - 0 <? 8 * 8)%nat with false by (symmetry; apply Nat.ltb_ge; lia). reflexivity.
Qed.
(** ** messages that fit into the buffer *)
Lemma split_feed (A : Type) w size perm IV P p ss bl ps (k : tobj -> res A) : Forall p_ok ps -> (length (joined ps) <= bl)%nat ->
  (o <- feed (Tree_Update w size perm IV P) ps ((ss, zeros bl, 0%nat), p) ;; k o) =
  (o <- Tree_Update w size perm IV P ((ss, zeros bl, 0%nat), p) (joined ps) 0 (length (joined ps)) ;; k o).
Proof.
  intros HP HB. assert (Z0 : zeros bl = splice (zeros bl) 0 []) by reflexivity. rewrite Z0. change 0%nat with (@length Z []) at 2 4.
  rewrite short_feed by (auto; rewrite length_zeros; cbn; lia). rewrite short_update by (rewrite ?length_zeros; cbn [length]; lia). cbn [app bind].
  rewrite (slice_all (joined ps)) by reflexivity. reflexivity.
Qed.
Lemma c36_tree_split256 cores fan ps out oo : (2 <= fan)%nat -> Forall p_ok ps -> (length (joined ps) <= 2 * fan * 64)%nat ->
  (o <- Tree256_new fan ;; o <- feed (Tree256_Update cores fan) ps o ;; Tree256_Finalize cores fan o out oo) =
  (o <- Tree256_new fan ;; o <- Tree256_Update cores fan o (joined ps) 0 (length (joined ps)) ;; Tree256_Finalize cores fan o out oo).
Proof.
  intros HF HP HL. rewrite new_tree256 by lia.
  destruct (start_shape 32 4 10 (16, 12, 8, 7) IV256 PermuteR10P512U GetConfig32 ltac:(lia) ltac:(lia) iv256_len perm256 ub256 12 conf256 fan (2 * fan * 64) _ (fan_is 32 0 fan 2 0 0 0 32 0 (zeros 12)) eq_refl) as (ss & -> & _). cbn [bind].
  now apply split_feed.
Qed.
Lemma c36_tree_split512 cores fan ps out oo : (2 <= fan)%nat -> Forall p_ok ps -> (length (joined ps) <= 2 * fan * 128)%nat ->
  (o <- Tree512_new fan ;; o <- feed (Tree512_Update cores fan) ps o ;; Tree512_Finalize cores fan o out oo) =
  (o <- Tree512_new fan ;; o <- Tree512_Update cores fan o (joined ps) 0 (length (joined ps)) ;; Tree512_Finalize cores fan o out oo).
Proof.
  intros HF HP HL. rewrite new_tree512 by lia.
  destruct (start_shape 64 8 12 (32, 24, 16, 63) IV512 PermuteR12P1024U GetConfig64 ltac:(lia) ltac:(lia) iv512_len perm512 ub512 40 conf512 fan (2 * fan * 128) _ (fan_is 64 0 fan 2 0 0 0 64 0 (zeros 40)) eq_refl) as (ss & -> & _). cbn [bind].
  now apply split_feed.
Qed.
