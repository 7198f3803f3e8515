(** C56: proofs *)
From Verif Require Import Base BaseLemmas Model_IntegerTools Proofs_IntegerTools Model_Blake Model_BlakeParams Spec_BlakeParams.
Open Scope Z_scope.

Ltac open_list d n := lazymatch n with O => destruct d; [|discriminate] | S ?m => destruct d as [|? d]; [discriminate|]; open_list d m end.

Lemma to_2s p : for_2s p -> BlakeParams_ToBytes p = Ok (block_of p ++ zeros 8).
Proof.
  intros (_ & O & L). destruct p as [out key fan dep leaf noff nd inn rs dst]. cbn in O, L. subst out.
  open_list dst 12%nat. reflexivity.
Qed.
Lemma to_2b p : for_2b p -> BlakeParams_ToBytes p = Ok (block_of p ++ zeros 12).
Proof.
  intros (_ & O & L). destruct p as [out key fan dep leaf noff nd inn rs dst]. cbn in O, L. subst out.
  open_list dst 40%nat. reflexivity.
Qed.
Lemma leaf_back x : is_word 32 x -> le_val (le_bytes 4 x) = x.
Proof. intros H. rewrite le_val_le_bytes. apply Z.mod_small. exact H. Qed.
Lemma from_2s p : for_2s p -> BlakeParams_bytes (block_of p ++ zeros 8) = Ok p.
Proof.
  intros ((_ & W & _) & O & L). destruct p as [out key fan dep leaf noff nd inn rs dst]. cbn in O, L, W. subst out.
  open_list dst 12%nat.
  transitivity (Ok (BParams 32 key fan dep (le_val (le_bytes 4 leaf)) noff nd inn rs [z; z0; z1; z2; z3; z4; z5; z6; z7; z8; z9; z10])).
  - reflexivity.
  - rewrite leaf_back by exact W. reflexivity.
Qed.
Lemma from_2b p : for_2b p -> BlakeParams_bytes (block_of p ++ zeros 12) = Ok p.
Proof.
  intros ((_ & W & _) & O & L). destruct p as [out key fan dep leaf noff nd inn rs dst]. cbn in O, L, W. subst out.
  transitivity (Ok (BParams 64 key fan dep (le_val (le_bytes 4 leaf)) noff nd inn rs dst)).
  - open_list dst 40%nat. reflexivity.
  - rewrite leaf_back by exact W. reflexivity.
Qed.
Lemma c56_format p : (for_2s p -> BlakeParams_ToBytes p = Ok (block_of p ++ zeros 8)) /\ (for_2b p -> BlakeParams_ToBytes p = Ok (block_of p ++ zeros 12)).
Proof. split; [apply to_2s | apply to_2b]. Qed.
Lemma c56_round_trip p t : for_2s p \/ for_2b p -> BlakeParams_ToBytes p = Ok t -> BlakeParams_bytes t = Ok p.
Proof.
  intros [H|H] E.
  - rewrite (to_2s p H) in E. injection E as <-. apply from_2s, H.
  - rewrite (to_2b p H) in E. injection E as <-. apply from_2b, H.
Qed.
Lemma c56_clone p : for_2s p \/ for_2b p -> BlakeParams_Clone p = Ok p.
Proof.
  intros H. unfold BlakeParams_Clone. destruct H as [H|H].
  - rewrite (to_2s p H). apply from_2s, H.
  - rewrite (to_2b p H). apply from_2b, H.
Qed.

(** every byte string *)
Lemma block_is t out : (12 + DistributionCodeMax out <= length t)%nat -> bytes t -> nth 0 t 0 = out ->
  let p := BParams out (nth 1 t 0) (nth 2 t 0) (nth 3 t 0) (le_val (slice t 4 4)) (nth 8 t 0) (nth 9 t 0) (nth 10 t 0) (nth 11 t 0) (slice t 12 (DistributionCodeMax out)) in
  block_of p = firstn (12 + DistributionCodeMax out) t /\ fields_ok p.
Proof.
  intros L B E p. split.
  - destruct t as [|a0 [|a1 [|a2 [|a3 [|a4 [|a5 [|a6 [|a7 [|a8 [|a9 [|a10 [|a11 t]]]]]]]]]]]]; try (cbn in L; lia).
    cbn [nth] in E. subst a0.
    assert (B4 : bytes [a4; a5; a6; a7])
      by exact (bytes_slice 4 4 _ B).
    unfold p, block_of. cbn [p_out p_key p_fan p_depth p_leaf p_noff p_ndepth p_inner p_res p_dst nth].
    change (slice (out :: a1 :: a2 :: a3 :: a4 :: a5 :: a6 :: a7 :: a8 :: a9 :: a10 :: a11 :: t) 4 4) with [a4; a5; a6; a7].
    change 4%nat with (length [a4; a5; a6; a7]) at 1. rewrite le_bytes_le_val by exact B4. reflexivity.
  - unfold p, fields_ok. cbn [p_out p_key p_fan p_depth p_leaf p_noff p_ndepth p_inner p_res p_dst]. subst out.
    split; [repeat constructor; apply bytes_nth, B|]. split; [|apply bytes_slice, B].
    unfold is_word. pose proof (le_val_range (slice t 4 4) (bytes_slice 4 4 t B)) as R.
    rewrite length_slice in R by lia. exact R.
Qed.
Lemma bytes_value t : (length t = 32 \/ length t = 64)%nat -> 
  BlakeParams_bytes t = (dst <- rd t 12 (DistributionCodeMax (nth 0 t 0)) ;;
    Ok (BParams (nth 0 t 0) (nth 1 t 0) (nth 2 t 0) (nth 3 t 0) (le_val (slice t 4 4)) (nth 8 t 0) (nth 9 t 0) (nth 10 t 0) (nth 11 t 0) dst)).
Proof.
  intros L. unfold BlakeParams_bytes, LeBytesTo32.
  assert (G : ((length t =? 32) || (length t =? 64))%nat = true) by (destruct L as [-> | ->]; reflexivity).
  rewrite G. cbn [guard bind].
  rewrite !(get_ok t _ 0) by lia. cbn [bind]. rewrite LeBytesTo_correct by lia. reflexivity.
Qed.
Lemma c56_parse t : bytes t ->
  (BlakeParams_bytes t = Throw IllegalOperation <-> length t <> 32%nat /\ length t <> 64%nat) /\
  (BlakeParams_bytes t = UB <-> length t = 32%nat /\ nth 0 t 0 <> 32) /\
  (forall p, BlakeParams_bytes t = Ok p ->
     fields_ok p /\ length (p_dst p) = (if p_out p =? 32 then 12%nat else 40%nat) /\
     exists rest, t = block_of p ++ rest).
Proof.
  intros B.
  assert (D : (length t <> 32%nat /\ length t <> 64%nat) \/ (length t = 32 \/ length t = 64)%nat) by lia.
  destruct D as [D|D].
  - assert (E : BlakeParams_bytes t = Throw IllegalOperation).
    { unfold BlakeParams_bytes. destruct D as [D1 D2]. apply Nat.eqb_neq in D1, D2. rewrite D1, D2. reflexivity. }
    rewrite E. split; [tauto|]. split; [split; [discriminate | lia]|]. discriminate.
  - rewrite (bytes_value t D).
    pose proof (Z.eqb_spec (nth 0 t 0) 32) as S.
    destruct (Nat.leb_spec (12 + DistributionCodeMax (nth 0 t 0)) (length t)) as [H|H].
    + rewrite rd_ok by exact H. cbn [bind]. split; [split; [discriminate | lia]|]. split.
      * split; [discriminate|]. intros [L N]. exfalso. unfold DistributionCodeMax in H. destruct S as [S|S]; [congruence|]. lia.
      * intros p E. destruct (block_is t _ H B eq_refl) as [E1 E2]. injection E as <-. split; [exact E2|].
        cbn [p_dst p_out]. split; [rewrite length_slice by lia; unfold DistributionCodeMax; reflexivity|].
        rewrite E1. exists (skipn (12 + DistributionCodeMax (nth 0 t 0)) t). symmetry. apply firstn_skipn.
    + unfold rd. rewrite (proj2 (Nat.leb_gt _ _) H).
      cbn [bind]. split; [split; [discriminate | lia]|]. split; [|discriminate].
      split; [|reflexivity]. intros _. unfold DistributionCodeMax in H. destruct S as [S|S]; split; lia || exact S.
Qed.

(** other output sizes *)
Lemma put_len t i v : (i < length t)%nat -> exists u, put t i v = Ok u /\ length u = length t.
Proof. intros H. rewrite put_ok by exact H. eexists. split; [reflexivity|]. apply length_upd. Qed.
Lemma put_ub t i v : (length t <= i)%nat -> put t i v = UB.
Proof. intros H. unfold put. replace (i <? length t)%nat with false by (symmetry; apply Nat.ltb_ge; exact H). reflexivity. Qed.
Lemma bind_ub {A B} (m : res A) (k : A -> res B) : (m = UB \/ exists a, m = Ok a /\ k a = UB) -> bind m k = UB.
Proof. intros [-> | (a & -> & H)]; [reflexivity | exact H]. Qed.
Lemma to_size p t : BlakeParams_ToBytes p = Ok t -> length t = Z.to_nat (p_out p) /\ (12 + length (p_dst p) <= length t)%nat.
Proof.
  unfold BlakeParams_ToBytes, Le32ToBytes, GetHeaderSize. cbv zeta.
  assert (P : forall t i v u, put t i v = Ok u -> length u = length t).
  { intros ? i v u. unfold put. destruct (i <? length t0)%nat; [|discriminate]. intros [= <-]. apply length_upd. }
  assert (W : forall t o d u, wr t o d = Ok u -> length u = length t /\ (o + length d <= length t)%nat).
  { intros ? o d u. unfold wr. destruct (Nat.leb_spec (o + length d) (length t0)); [|discriminate]. intros [= <-]. split; [apply length_splice; lia | lia]. }
  intros E.
  repeat match type of E with bind ?m _ = _ => let u := fresh "u" in let Q := fresh "Q" in destruct m as [u| |] eqn:Q; cbn [bind] in E; try discriminate end.
  apply P in Q, Q0, Q1, Q2, Q4, Q5, Q6, Q7. unfold LeToBytes in Q3. apply W in Q3. apply W in E.
  rewrite length_zeros in Q. lia.
Qed.
Lemma to_total p : p_out p < 52 -> length (p_dst p) = 40%nat -> BlakeParams_ToBytes p = UB.
Proof.
  intros H L. destruct (BlakeParams_ToBytes p) as [t| |] eqn:E; [|exfalso|reflexivity].
  - apply to_size in E. lia.
  - unfold BlakeParams_ToBytes, Le32ToBytes, LeToBytes, put, wr in E. cbv zeta in E.
    repeat match type of E with
    | bind (if ?b then _ else _) _ = _ => destruct b; cbn [bind] in E
    | (if ?b then _ else _) = _ => destruct b end; discriminate.
Qed.
Lemma c56_other p : p_out p <> 32 -> p_out p <> 64 -> is_byte (p_out p) -> length (p_dst p) = 40%nat ->
  (p_out p < 52 -> BlakeParams_ToBytes p = UB) /\
  (52 <= p_out p -> exists t, BlakeParams_ToBytes p = Ok t /\ BlakeParams_Clone p = Throw IllegalOperation).
Proof.
  intros N1 N2 B L. split; [intros H; apply to_total; assumption|]. intros H.
  assert (E : exists t, BlakeParams_ToBytes p = Ok t).
  { unfold BlakeParams_ToBytes, Le32ToBytes, GetHeaderSize. cbv zeta. 
    assert (Z0 : (52 <= length (zeros (Z.to_nat (p_out p))))%nat) by (rewrite length_zeros; lia).
    generalize dependent (zeros (Z.to_nat (p_out p))). intros t Z0.
    do 4 (rewrite put_ok by (rewrite ?length_upd; lia); cbn [bind]).
    rewrite LeToBytes_correct by (rewrite ?length_upd; lia). cbn [bind].
    match goal with |- context [splice ?a ?b ?c] => assert (Z1 : (52 <= length (splice a b c))%nat) by (rewrite length_splice; rewrite ?length_le_bytes, ?length_upd; lia); generalize dependent (splice a b c) end.
    intros t1 Z1.
    do 4 (rewrite put_ok by (rewrite ?length_upd; lia); cbn [bind]).
    rewrite wr_ok by (rewrite ?length_upd; lia). eexists. reflexivity. }
  destruct E as [t E]. exists t. split; [exact E|]. unfold BlakeParams_Clone. rewrite E. cbn [bind].
  apply to_size in E. unfold BlakeParams_bytes.
  replace (length t =? 32)%nat with false by (symmetry; apply Nat.eqb_neq; lia).
  replace (length t =? 64)%nat with false by (symmetry; apply Nat.eqb_neq; lia). reflexivity.
Qed.
Lemma c56_reset p : BlakeParams_ToBytes (BlakeParams_Reset p) = UB.
Proof. reflexivity. Qed.

(** the hash code *)
Lemma sum_range l : bytes l -> 0 <= sum_of l <= 255 * Z.of_nat (length l).
Proof. induction 1 as [|x l H _ IH]; [cbn; lia|]. unfold sum_of in *. cbn [fold_right length]. unfold is_byte in H. lia. Qed.
Lemma add_int_ok a b : a + b < 2 ^ 31 -> add_int a b = Ok (a + b).
Proof. intros H. unfold add_int. apply Z.ltb_lt in H. rewrite H. reflexivity. Qed.
Definition total (p : bparams) : Z := sum_of [p_out p; p_key p; p_fan p; p_depth p; p_leaf p; p_noff p; p_ndepth p; p_inner p; p_res p] + sum_of (p_dst p).
Lemma dst_loop l : forall pre r, bytes l -> r + 31 * sum_of l < 2 ^ 31 -> 
  for_up (length pre) (length l) (fun i r => d <- get (pre ++ l) i ;; add_int r (31 * d)) r = Ok (r + 31 * sum_of l).
Proof.
  induction l as [|x l IH]; intros pre r B H.
  - cbn. f_equal. lia.
  - inversion B as [|? ? Bx Bl]; subst. cbn [length for_up]. 
    rewrite (get_ok _ _ 0) by (rewrite app_length; cbn [length]; lia). rewrite nth_middle. cbn [bind].
    unfold sum_of in H. cbn [fold_right] in H. fold (sum_of l) in H. pose proof (sum_range l Bl). unfold is_byte in Bx.
    rewrite add_int_ok by lia. cbn [bind].
    replace (S (length pre)) with (length (pre ++ [x])) by (rewrite app_length; cbn [length]; lia).
    replace (pre ++ x :: l) with ((pre ++ [x]) ++ l) by (rewrite <- app_assoc; reflexivity).
    rewrite IH by (assumption || lia). unfold sum_of. cbn [fold_right]. fold (sum_of l). f_equal. lia.
Qed.
Lemma hash_ok p : fields_ok p -> p_leaf p <= 2 ^ 26 -> (length (p_dst p) <= 40)%nat ->
  BlakeParams_GetHashCode p = Ok (31 * total p).
Proof.
  intros (F & W & D) S L. unfold BlakeParams_GetHashCode, total.
  repeat match goal with H : Forall _ (_ :: _) |- _ => apply Forall_cons_iff in H as [? H] end. unfold is_byte, is_word in *.
  pose proof (sum_range _ D).
  rewrite add_int_ok by lia. cbn [bind]. rewrite add_int_ok by lia. cbn [bind]. rewrite add_int_ok by lia. cbn [bind]. cbv zeta.
  unfold to_int, u32. rewrite Z.mod_small by lia.
  match goal with |- context [?a <? ?b] => replace (a <? b) with true by (symmetry; apply Z.ltb_lt; lia) end.
  do 4 (rewrite add_int_ok by lia; cbn [bind]).
  pose proof (dst_loop (p_dst p) []) as G. cbn [app length] in G. rewrite G by (assumption || lia).
  f_equal. unfold sum_of. cbn [fold_right]. lia.
Qed.
Lemma c56_equals p q : fields_ok p -> fields_ok q -> p_leaf p <= 2 ^ 26 -> p_leaf q <= 2 ^ 26 ->
  (length (p_dst p) <= 40)%nat -> (length (p_dst q) <= 40)%nat ->
  BlakeParams_Equals p q = Ok (sum_of [p_out p; p_key p; p_fan p; p_depth p; p_leaf p; p_noff p; p_ndepth p; p_inner p; p_res p] + sum_of (p_dst p)
    =? sum_of [p_out q; p_key q; p_fan q; p_depth q; p_leaf q; p_noff q; p_ndepth q; p_inner q; p_res q] + sum_of (p_dst q)).
Proof.
  intros F G A B C D. unfold BlakeParams_Equals. rewrite !hash_ok by assumption. cbn [bind]. f_equal. fold (total p) (total q).
  destruct (Z.eqb_spec (total p) (total q)) as [-> |N]; [apply Z.eqb_refl | apply Z.eqb_neq; lia].
Qed.

Definition swapped (p : bparams) : bparams :=
  BParams (p_out p) (p_fan p) (p_key p) (p_depth p) (p_leaf p) (p_noff p) (p_ndepth p) (p_inner p) (p_res p) (p_dst p).
Lemma c56_equals_refuted p : fields_ok p -> p_leaf p <= 2 ^ 26 -> (length (p_dst p) <= 40)%nat ->
  BlakeParams_Equals p (BParams (p_out p) (p_fan p) (p_key p) (p_depth p) (p_leaf p) (p_noff p) (p_ndepth p) (p_inner p) (p_res p) (p_dst p)) = Ok true.
Proof.
  intros F S L. change (BlakeParams_Equals p (swapped p) = Ok true).
  assert (G : fields_ok (swapped p)).
  { destruct F as (F & W & D). split; [|split; [exact W | exact D]]. unfold swapped. cbn [p_out p_key p_fan p_depth p_noff p_ndepth p_inner p_res].
    repeat match goal with H : Forall _ (_ :: _) |- _ => apply Forall_cons_iff in H as [? H] end.
    repeat (apply Forall_cons; [assumption|]). apply Forall_nil. }
  rewrite c56_equals by (assumption || exact S || exact L). f_equal. apply Z.eqb_eq. unfold swapped, sum_of.
  cbn [p_out p_key p_fan p_depth p_leaf p_noff p_ndepth p_inner p_res p_dst fold_right]. lia.
Qed.
Lemma c56_hash_ub p : p_out p = 32 -> p_key p = 0 -> p_fan p = 1 -> p_depth p = 1 -> p_leaf p = 3255862271 -> 1 <= p_noff p -> BlakeParams_GetHashCode p = UB.
Proof.
  intros A B C D E F. unfold BlakeParams_GetHashCode. rewrite A, B, C, D, E.
  change (add_int (31 * 32) (31 * 0)) with (@Ok Z 992). cbn [bind].
  change (add_int 992 (31 * 1)) with (@Ok Z 1023). cbn [bind].
  change (add_int 1023 (31 * 1)) with (@Ok Z 1054). cbn [bind]. cbv zeta.
  change (to_int (1054 + 31 * 3255862271)) with (2 ^ 31 - 1).
  unfold add_int at 1. replace (2 ^ 31 - 1 + 31 * p_noff p <? 2 ^ 31) with false by (symmetry; apply Z.ltb_ge; lia). reflexivity.
Qed.
