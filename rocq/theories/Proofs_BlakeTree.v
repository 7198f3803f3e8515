(** The tree mode of the Blake objects: what Update does with a long message. *)
From Verif Require Import BaseLemmas Spec_Feed Model_IntegerTools Model_Modes Proofs_Windows Model_Keccak Model_Blake Model_BlakeTree Spec_ChaCha Proofs_ChaCha2 Spec_Blake Proofs_Blake Proofs_Blake2.
Open Scope Z_scope.

(** ** one task for every leaf *)
Section leaves.
Context {A : Type}.
Fixpoint mapi_from (g : nat -> A -> A) (k : nat) (l : list A) : list A := match l with [] => [] | a :: l => g k a :: mapi_from g (S k) l end.
Lemma with_leaf_mid (pre post : list A) s f : with_leaf (pre ++ s :: post) (length pre) f = (s' <- f s ;; Ok (pre ++ s' :: post)).
Proof.
  unfold with_leaf. rewrite nth_error_app2, Nat.sub_diag by lia. cbn [nth_error]. destruct (f s); cbn [bind]; try reflexivity.
  rewrite firstn_app, firstn_all, Nat.sub_diag, firstn_O, app_nil_r. f_equal. f_equal. f_equal.
  replace (skipn (S (length pre)) (pre ++ s :: post)) with (skipn 1 (skipn (length pre) (pre ++ s :: post))) by (rewrite skipn_skipn; f_equal; lia).
  rewrite skipn_app, skipn_all, Nat.sub_diag. reflexivity.
Qed.
Lemma leaves_from f g (Q : A -> Prop) : forall post pre, Forall Q post -> (forall i s, (length pre <= i < length pre + length post)%nat -> Q s -> f i s = Ok (g i s)) ->
  for_up (length pre) (length post) (fun i ss => with_leaf ss i (f i)) (pre ++ post) = Ok (pre ++ mapi_from g (length pre) post).
Proof.
  induction post as [|s post IH]; intros pre HQ HF; [reflexivity|]. inversion HQ; subst. cbn [length for_up]. rewrite with_leaf_mid, HF by (auto; cbn [length]; lia). cbn [bind mapi_from].
  specialize (IH (pre ++ [g (length pre) s])). rewrite app_length in IH. cbn [length] in IH. rewrite Nat.add_1_r, <- app_assoc in IH. cbn [app] in IH. rewrite IH; [now rewrite <- app_assoc|auto|].
  intros i s0 Hi. apply HF. cbn [length]. lia.
Qed.
Lemma leaves_ok f g (Q : A -> Prop) ss n : length ss = n -> Forall Q ss -> (forall i s, (i < n)%nat -> Q s -> f i s = Ok (g i s)) ->
  for_up 0 n (fun i ss => with_leaf ss i (f i)) ss = Ok (mapi_from g 0 ss).
Proof. intros <- HQ HF. apply (leaves_from f g Q ss []); auto. intros i s Hi. apply HF. cbn in Hi. lia. Qed.
Lemma leaves_ub_from f (Q : A -> Prop) k : forall post pre, (length pre <= k < length pre + length post)%nat -> Forall Q post ->
  (forall i s, Q s -> f i s = UB \/ exists s', f i s = Ok s') -> (forall s, Q s -> f k s = UB) ->
  for_up (length pre) (length post) (fun i ss => with_leaf ss i (f i)) (pre ++ post) = UB.
Proof.
  induction post as [|s post IH]; intros pre Hk HQ HF HK; [cbn in Hk; lia|]. inversion HQ; subst. cbn [length for_up]. rewrite with_leaf_mid. destruct (Nat.eq_dec (length pre) k) as [E|E].
  - rewrite E, HK by auto. reflexivity.
  - destruct (HF (length pre) s) as [->|[s' ->]]; [auto|reflexivity|]. cbn [bind]. cbn [length] in Hk.
    specialize (IH (pre ++ [s'])). rewrite app_length in IH. cbn [length] in IH. rewrite Nat.add_1_r, <- app_assoc in IH. cbn [app] in IH. apply IH; auto. lia.
Qed.
Lemma leaves_ub f (Q : A -> Prop) k ss n : length ss = n -> (k < n)%nat -> Forall Q ss ->
  (forall i s, Q s -> f i s = UB \/ exists s', f i s = Ok s') -> (forall s, Q s -> f k s = UB) -> for_up 0 n (fun i ss => with_leaf ss i (f i)) ss = UB.
Proof. intros <- Hk HQ HF HK. apply (leaves_ub_from f Q k ss []); auto. cbn. lia. Qed.
Lemma mapi_ext g g' (Q : A -> Prop) : forall l k, Forall Q l -> (forall i s, (k <= i < k + length l)%nat -> Q s -> g i s = g' i s) -> mapi_from g k l = mapi_from g' k l.
Proof.
  induction l as [|a l IH]; intros k HQ H; [reflexivity|]. inversion HQ; subst. cbn [mapi_from]. f_equal; [apply H; auto; cbn [length]; lia|].
  apply IH; auto. intros i s Hi. apply H. cbn [length]. lia.
Qed.
Lemma mapi_len g : forall l k, length (mapi_from g k l) = length l.
Proof. induction l as [|a l IH]; intros k; cbn [mapi_from length]; [reflexivity|]. now rewrite IH. Qed.
Lemma mapi_forall g (Q Q' : A -> Prop) : forall l k, Forall Q l -> (forall i s, Q s -> Q' (g i s)) -> Forall Q' (mapi_from g k l).
Proof. induction l as [|a l IH]; intros k HQ H; cbn [mapi_from]; constructor; inversion HQ; subst; auto. Qed.
End leaves.

Section tree.
Context (w : Z) (size rounds : nat) (rot : quad Z) (IV : list Z) (perm : list Z -> nat -> list Z -> list Z -> res (list Z))
  (GetConfig : bparams -> list Z -> res (list Z)).
Hypothesis Hw : 8 < w.
Hypothesis Hsize : (0 < size <= 8)%nat.
Hypothesis HIV : length IV = 8%nat.
Hypothesis Hperm : forall inp io h iv, length h = 8%nat -> length iv = 8%nat -> (io + 16 * size <= length inp)%nat ->
  perm inp io h iv = Ok (F_of w rounds rot h iv (le_words size (slice inp io (16 * size)))).
Hypothesis Hpub : forall inp io h iv, (length inp < io + 16 * size)%nat -> perm inp io h iv = UB.
Notation R := (16 * size)%nat.
Notation cmp := (compress w size rounds rot IV).
Notation Is := (I w).
Notation gP := (g w size rounds rot IV).
Lemma cmpl h b t f0 f1 : length h = 8%nat -> length (cmp h b t f0 f1) = 8%nat.
Proof. apply (cmp_len w size rounds rot IV perm GetConfig 0 Hsize HIV Hperm). Qed.
Lemma incr h t k F : (k <= R)%nat -> Increase w (F, h, counter_words w t) k = Ok (F, h, counter_words w (t + Z.of_nat k)).
Proof. apply (Increase_mk w size rounds rot IV perm GetConfig Hw Hsize HIV Hperm). Qed.
Definition pmk := Permute_mk w size rounds rot IV perm GetConfig 0 Hsize HIV Hperm.
Lemma Process_at s b o : Is s -> (o + R <= length b)%nat -> Process w size perm IV s b o = Ok (gP s (slice b o R)) /\ Is (gP s (slice b o R)).
Proof.
  intros (h & t & L & ->) H. rewrite g_mk by assumption. split; [|eexists _, _; split; [|reflexivity]; now apply cmpl].
  unfold Process, mk. unfold rate. rewrite incr by apply le_n. cbn [bind]. apply (pmk h _ false false b o L H).
Qed.
(** one Permute of ProcessLeaf: the counter stays *)
Definition p_step (s : bstate) (b : list Z) : bstate := let '(F, H, T) := s in (F, cmp H b (tval w T) false false, T).
Lemma Permute_at s b o : Is s -> (o + R <= length b)%nat -> Permute perm IV s b o = Ok (p_step s (slice b o R)) /\ Is (p_step s (slice b o R)).
Proof.
  intros (h & t & L & ->) H.
  assert (E : p_step (mk w h t) (slice b o R) = mk w (cmp h (slice b o R) t false false) t).
  { unfold p_step, mk. rewrite tval_counter by assumption. f_equal. f_equal. apply cmp_counter. pose proof (words_mod w Hw t 0) as X. now rewrite !Z.add_0_r in X. }
  rewrite E. split; [|eexists _, _; split; [|reflexivity]; now apply cmpl].
  exact (pmk h t false false b o L H).
Qed.
Lemma Permute_ub s b o : (length b < o + R)%nat -> Permute perm IV s b o = UB.
Proof. intros H. destruct s as ((F & h) & T). unfold Permute. now rewrite Hpub. Qed.

Context (P : nat) (HP : (0 < P)%nat).
Definition leaf_of (inp : list Z) (io k : nat) (s : bstate) : bstate := fold_left p_step (map (fun j => slice inp (io + j * P) R) (seq 0 k)) s.
Lemma leaf_loop_ok inp k : forall io s fuel, (k < fuel)%nat -> Is s -> (io + k * P + R <= length inp)%nat ->
  leaf_loop perm IV P fuel inp io (S k * P) s = Ok (leaf_of inp io (S k) s) /\ Is (leaf_of inp io (S k) s).
Proof.
  induction k as [|k IH]; intros io s fuel Hf HI Hl; (destruct fuel as [|fuel]; [lia|]); cbn [leaf_loop].
  - destruct (Permute_at s inp io HI) as [-> HI']; [lia|]. cbn [bind]. rewrite Nat.mul_1_l, Nat.eqb_refl. unfold leaf_of. cbn [seq map fold_left]. rewrite Nat.mul_0_l, Nat.add_0_r. auto.
  - destruct (Permute_at s inp io HI) as [-> HI']; [lia|]. cbn [bind].
    replace (S (S k) * P =? P)%nat with false by (symmetry; apply Nat.eqb_neq; nia). replace (P <? S (S k) * P)%nat with true by (symmetry; apply Nat.ltb_lt; nia). cbn [safe bind].
    replace (S (S k) * P - P)%nat with (S k * P)%nat by nia.
    destruct (IH (io + P)%nat (p_step s (slice inp io R)) fuel) as [E HI2]; [lia|exact HI'|nia|]. rewrite E.
    assert (EQ : leaf_of inp (io + P) (S k) (p_step s (slice inp io R)) = leaf_of inp io (S (S k)) s).
    { unfold leaf_of. change (seq 0 (S (S k))) with (0%nat :: seq 1 (S k)). cbn [map fold_left]. rewrite Nat.mul_0_l, Nat.add_0_r. f_equal. rewrite <- seq_shift, map_map. apply map_ext. intros j. f_equal. lia. }
    rewrite <- EQ. auto.
Qed.
Lemma leaf_loop_ub inp k : forall io s fuel, Is s -> (length inp < io + k * P + R)%nat -> leaf_loop perm IV P fuel inp io (S k * P) s = UB.
Proof.
  induction k as [|k IH]; intros io s fuel HI Hl; (destruct fuel as [|fuel]; [reflexivity|]); cbn [leaf_loop].
  - rewrite Permute_ub by lia. reflexivity.
  - destruct (le_lt_dec (io + R) (length inp)) as [Hi|Hi]; [|rewrite Permute_ub by lia; reflexivity].
    destruct (Permute_at s inp io HI Hi) as [-> HI']. cbn [bind].
    replace (S (S k) * P =? P)%nat with false by (symmetry; apply Nat.eqb_neq; nia). replace (P <? S (S k) * P)%nat with true by (symmetry; apply Nat.ltb_lt; nia). cbn [safe bind].
    replace (S (S k) * P - P)%nat with (S k * P)%nat by nia. apply IH; [exact HI'|nia].
Qed.
Lemma leaf_loop_zero inp : forall fuel io s, Is s -> leaf_loop perm IV P fuel inp io 0 s = UB.
Proof.
  intros [|fuel] io s HI; [reflexivity|]. cbn [leaf_loop]. destruct (le_lt_dec (io + R) (length inp)) as [Hi|Hi]; [|rewrite Permute_ub by lia; reflexivity].
  destruct (Permute_at s inp io HI Hi) as [-> HI']. cbn [bind]. replace (0 =? P)%nat with false by (symmetry; apply Nat.eqb_neq; lia). reflexivity.
Qed.
Lemma leaf_cases inp io k s : Is s -> let r := ProcessLeaf perm IV P inp io (k * P) s in r = UB \/ exists s', r = Ok s'.
Proof.
  intros HI r. subst r. unfold ProcessLeaf. destruct k as [|k]; [left; now apply leaf_loop_zero|].
  destruct (le_lt_dec (io + k * P + R) (length inp)) as [Hi|Hi].
  - right. eexists. refine (proj1 (leaf_loop_ok inp k io s _ _ HI Hi)). nia.
  - left. now apply leaf_loop_ub.
Qed.
Lemma each_leaf_ok fan buf ss : length ss = fan -> Forall Is ss -> (fan * R <= length buf)%nat ->
  each_leaf w size perm IV fan buf ss = Ok (mapi_from (fun i s => gP s (slice buf (i * R) R)) 0 ss) /\ Forall Is (mapi_from (fun i s => gP s (slice buf (i * R) R)) 0 ss).
Proof.
  intros HL HI HB. unfold each_leaf. split.
  - apply (leaves_ok (fun i s => Process w size perm IV s buf (i * rate size)) _ Is); auto. intros i s Hi Hs. unfold rate. apply Process_at; [exact Hs|clear - Hi HB; nia].
  - apply (mapi_forall _ Is); [exact HI|]. intros i s (h & t & L & ->). rewrite g_mk by assumption. eexists _, _; split; [|reflexivity]. now apply cmpl.
Qed.

(** ** the first part of Update for a long message given to an empty object *)
Definition first_set (fan : nat) (ss : list bstate) (inp : list Z) : list bstate := mapi_from (fun i s => gP s (slice (slice inp 0 (2 * fan * R)) (i * R) R)) 0 ss.
Lemma copy_all inp buf : (length buf <= length inp)%nat -> (if (length buf - 0 =? 0)%nat then Ok buf else wcopy inp 0 buf 0 (length buf - 0)) = Ok (slice inp 0 (length buf)).
Proof.
  intros H. rewrite Nat.sub_0_r. destruct (Nat.eqb_spec (length buf) 0) as [E|E].
  - destruct buf; [reflexivity|discriminate].
  - rewrite wcopy_ok by lia. f_equal. apply splice_all. rewrite length_slice; lia.
Qed.
Lemma leaf_of_I inp io k s : Is s -> Is (leaf_of inp io k s).
Proof.
  unfold leaf_of. generalize (map (fun j => slice inp (io + j * P) R) (seq 0 k)). intros l. revert s. induction l as [|b l IH]; intros s HI; [exact HI|]. cbn [fold_left]. apply IH.
  destruct HI as (h & t & L & ->). unfold p_step, mk. eexists _, _. split; [|reflexivity]. now apply cmpl.
Qed.
Lemma leaves_process fan inp io k ss : length ss = fan -> Forall Is ss -> (0 < k)%nat -> (io + (k - 1) * P + fan * R <= length inp)%nat ->
  for_up 0 fan (fun i ss => with_leaf ss i (ProcessLeaf perm IV P inp (io + i * rate size) (k * P))) ss =
  Ok (mapi_from (fun i s => leaf_of inp (io + i * R) k s) 0 ss) /\ Forall Is (mapi_from (fun i s => leaf_of inp (io + i * R) k s) 0 ss).
Proof.
  intros HL HI HK HB. split.
  - apply (leaves_ok (fun i => ProcessLeaf perm IV P inp (io + i * rate size) (k * P)) _ Is); auto. intros i s Hi Hs. unfold ProcessLeaf, rate.
    destruct k as [|k]; [lia|]. replace (S k - 1)%nat with k in HB by lia.
    assert (X : (i * R + R <= fan * R)%nat) by (clear - Hi; nia).
    assert (F : (k < S (S k * P))%nat) by (clear - HP; nia).
    exact (proj1 (leaf_loop_ok inp k (io + i * R)%nat s _ F Hs ltac:(lia))).
  - apply (mapi_forall _ Is); [exact HI|]. intros. now apply leaf_of_I.
Qed.
End tree.

(** ** two long messages that differ in the second half of the buffer only *)
Section collide.
Context (w : Z) (size rounds : nat) (rot : quad Z) (IV : list Z) (perm : list Z -> nat -> list Z -> list Z -> res (list Z))
  (GetConfig : bparams -> list Z -> res (list Z)).
Hypothesis Hw : 8 < w.
Hypothesis Hsize : (0 < size <= 8)%nat.
Hypothesis HIV : length IV = 8%nat.
Hypothesis Hperm : forall inp io h iv, length h = 8%nat -> length iv = 8%nat -> (io + 16 * size <= length inp)%nat ->
  perm inp io h iv = Ok (F_of w rounds rot h iv (le_words size (slice inp io (16 * size)))).
Hypothesis Hpub : forall inp io h iv, (length inp < io + 16 * size)%nat -> perm inp io h iv = UB.
Notation R := (16 * size)%nat.
Notation Is := (I w).
Notation upd := (tree_update w size perm IV).
Context (fan : nat) (Hfan : (0 < fan)%nat).
Notation P := (fan * R)%nat.
Notation gP := (g w size rounds rot IV).
Notation leafs := (leaf_of w size rounds rot IV P).
Definition set1 (ss : list bstate) (b : list Z) : list bstate := mapi_from (fun i s => gP s (slice b (i * R) R)) 0 ss.
Definition set2 (ss : list bstate) (msg : list Z) (k : nat) : list bstate := mapi_from (fun i s => leafs msg (2 * P + i * R)%nat k s) 0 ss.
Lemma fP : (R <= P)%nat. Proof. clear - Hfan. nia. Qed.
Lemma copied inp io buf bs : length buf = bs -> (io + bs <= length inp)%nat -> (if (bs - 0 =? 0)%nat then Ok buf else wcopy inp io buf 0 (bs - 0)) = Ok (slice inp io bs).
Proof.
  clear. intros H HB. rewrite Nat.sub_0_r. destruct (Nat.eqb_spec bs 0) as [E|E].
  - subst bs. destruct buf; [|discriminate]. reflexivity.
  - rewrite wcopy_ok by lia. f_equal. apply splice_all. rewrite length_slice; lia.
Qed.
(** what is left after the first two steps *)
Definition tail_of (ss : list bstate) (buf msg : list Z) (io len : nat) : list bstate * list Z * nat :=
  if (2 * P <? len)%nat then
    (set1 ss (slice msg io (2 * P)), splice (splice (slice msg io (2 * P)) 0 (slice (slice msg io (2 * P)) P P)) P (slice msg (io + 2 * P) (len - 2 * P)), (P + (len - 2 * P))%nat)
  else (ss, splice buf 0 (slice msg io len), len).
Lemma tail_ok ss buf msg io len : length ss = fan -> Forall Is ss -> length buf = (2 * P)%nat -> (0 < len < 3 * P)%nat -> (io + len <= length msg)%nat ->
  (r <- (if (2 * P <? len)%nat then
            _ <- safe (0 <=? 2 * P)%nat ;;
            let rmd := (2 * P - 0)%nat in
            buf <- (if (rmd =? 0)%nat then Ok buf else wcopy msg io buf 0 rmd) ;;
            ss <- each_leaf w size perm IV fan buf ss ;;
            _ <- safe (P <=? 2 * P)%nat ;;
            buf <- wcopy buf (2 * P / 2) buf 0 (2 * P / 2) ;;
            Ok (ss, buf, (2 * P - P)%nat, (io + rmd)%nat, (len - rmd)%nat)
          else Ok (ss, buf, 0%nat, io, len)) ;;
    let '(ss, buf, pos, io, len) := r in
    if (len =? 0)%nat then Ok (ss, buf, pos)
    else buf <- wcopy msg io buf pos len ;; Ok (ss, buf, (pos + len)%nat)) = Ok (tail_of ss buf msg io len).
Proof.
  intros HS HI HB HN HM. pose proof fP as HF. unfold tail_of. destruct (Nat.ltb_spec (2 * P) len) as [L|L].
  - cbn [Nat.leb safe bind]. cbv zeta. rewrite (copied msg io buf (2 * P) HB) by lia. cbn [bind].
    assert (LS : length (slice msg io (2 * P)) = (2 * P)%nat) by (apply length_slice; lia).
    rewrite (proj1 (each_leaf_ok w size rounds rot IV perm GetConfig Hw Hsize HIV Hperm fan (slice msg io (2 * P)) ss HS HI ltac:(rewrite LS; clear; nia))). cbn [bind].
    replace (P <=? 2 * P)%nat with true by (symmetry; apply Nat.leb_le; clear; lia). cbn [safe bind].
    replace (2 * P / 2)%nat with P by (symmetry; rewrite (Nat.mul_comm 2 P); apply Nat.div_mul; discriminate).
    rewrite wcopy_ok by lia. cbn [bind]. rewrite Nat.sub_0_r.
    replace (len - 2 * P =? 0)%nat with false by (symmetry; apply Nat.eqb_neq; lia).
    assert (LP : length (slice (slice msg io (2 * P)) P P) = P) by (apply length_slice; lia).
    rewrite wcopy_ok; [|lia|rewrite length_splice; lia]. cbn [bind]. replace (2 * P - P)%nat with P by (clear; lia). reflexivity.
  - cbn [bind]. replace (len =? 0)%nat with false by (symmetry; apply Nat.eqb_neq; lia). rewrite wcopy_ok by lia. reflexivity.
Qed.
Definition long_k (L : nat) : nat := if (2 * P + (P - R) <? L)%nat then ((L - P) / P)%nat else 0%nat.
Lemma long_update ss buf msg : length ss = fan -> Forall Is ss -> length buf = (2 * P)%nat -> (2 * P + (P - R) < length msg)%nat ->
  upd P fan (ss, buf, 0%nat) msg 0 (length msg) =
  Ok (let L := (length msg - 2 * P)%nat in let k := long_k L in
      let ss1 := set1 ss (slice msg 0 (2 * P)) in
      tail_of (if (k =? 0)%nat then ss1 else set2 ss1 msg k) (slice msg 0 (2 * P)) msg (2 * P + k * P) (L - k * P)).
Proof.
  intros HS HI HB HM. pose proof fP as HF. assert (R0 : (0 < R)%nat) by lia. unfold tree_update. replace (length msg =? 0)%nat with false by (symmetry; apply Nat.eqb_neq; lia). cbv zeta.
  unfold rate. rewrite HB, Nat.add_0_r. replace (2 * P + (P - R) <? length msg)%nat with true by (symmetry; apply Nat.ltb_lt; exact HM).
  replace (0 <=? 2 * P)%nat with true by reflexivity. cbn [safe bind]. rewrite (copied msg 0 buf (2 * P) HB) by lia. cbn [bind].
  assert (LS : length (slice msg 0 (2 * P)) = (2 * P)%nat) by (apply length_slice; lia).
  destruct (each_leaf_ok w size rounds rot IV perm GetConfig Hw Hsize HIV Hperm fan (slice msg 0 (2 * P)) ss HS HI ltac:(rewrite LS; clear; nia)) as [E1 HI1]. rewrite E1. cbn [bind].
  change (mapi_from (fun i s => gP s (slice (slice msg 0 (2 * P)) (i * R) R)) 0 ss) with (set1 ss (slice msg 0 (2 * P))) in *.
  assert (LS1 : length (set1 ss (slice msg 0 (2 * P))) = fan) by (unfold set1; rewrite mapi_len; exact HS).
  set (ss1 := set1 ss _) in *. rewrite Nat.sub_0_r, Nat.add_0_l. set (L := (length msg - 2 * P)%nat) in *. unfold long_k.
  destruct (Nat.ltb_spec (2 * P + (P - R)) L) as [HL|HL].
  - assert (EK : ((L - P) - (L - P) mod P)%nat = ((L - P) / P * P)%nat).
    { pose proof (Nat.div_mod (L - P) P ltac:(lia)) as X. rewrite Nat.mul_comm in X. lia. }
    rewrite EK. pose proof (Nat.div_mod (L - P) P ltac:(lia)) as X. pose proof (Nat.mod_upper_bound (L - P) P ltac:(lia)) as Y. rewrite (Nat.mul_comm P) in X.
    assert (K0 : (0 < (L - P) / P)%nat). { apply Nat.div_str_pos. lia. }
    set (k := ((L - P) / P)%nat) in *. clearbody k.
    replace (k =? 0)%nat with false by (symmetry; apply Nat.eqb_neq; lia).
    assert (HP : (0 < P)%nat) by lia.
    assert (EKP : ((k - 1) * P + P = k * P)%nat). { clear - K0. destruct k; [lia|]. cbn [Nat.mul Nat.sub]. rewrite Nat.sub_0_r. lia. }
    destruct (leaves_process w size rounds rot IV perm GetConfig Hw Hsize HIV Hperm Hpub P HP fan msg (2 * P) k ss1 LS1 HI1 K0 ltac:(lia)) as [E2 HI2].
    unfold rate in E2. rewrite E2. cbn [bind]. change (mapi_from _ 0 ss1) with (set2 ss1 msg k) in *.
    rewrite tail_ok; [reflexivity|unfold set2; now rewrite mapi_len|exact HI2|exact LS|lia|lia].
  - cbn [bind]. change (0 =? 0)%nat with true. cbv iota. replace (2 * P + 0 * P)%nat with (2 * P)%nat by (clear; lia). replace (L - 0 * P)%nat with L by (clear; lia). apply tail_ok; auto; lia.
Qed.
Context (m m' : list Z) (HL : length m' = length m) (HM : (2 * P + (P - R) < length m)%nat)
  (H1 : firstn P m' = firstn P m) (H2 : skipn (2 * P) m' = skipn (2 * P) m).
Lemma tail_slice a n : (2 * P <= a)%nat -> slice m' a n = slice m a n.
Proof. clear - H2. intros H. unfold slice. replace a with ((a - 2 * P) + 2 * P)%nat by lia. rewrite <- !skipn_skipn. now rewrite H2. Qed.
Lemma head_slice i : (i < fan)%nat -> slice (slice m' 0 (2 * P)) (i * R) R = slice (slice m 0 (2 * P)) (i * R) R.
Proof.
  clear - H1 Hsize. intros H. unfold slice. cbn [skipn]. rewrite !skipn_firstn_comm, !firstn_firstn. rewrite !Nat.min_l by nia.
  assert (X : forall l : list Z, firstn R (skipn (i * R) l) = firstn R (skipn (i * R) (firstn P l))).
  { intros l. rewrite skipn_firstn_comm, firstn_firstn. now rewrite Nat.min_l by nia. }
  rewrite (X m'), (X m). now rewrite H1.
Qed.
Lemma same_update ss buf : length ss = fan -> Forall Is ss -> length buf = (2 * P)%nat ->
  exists ss2 b b' pos, upd P fan (ss, buf, 0%nat) m 0 (length m) = Ok (ss2, b, pos) /\ upd P fan (ss, buf, 0%nat) m' 0 (length m) = Ok (ss2, b', pos) /\
    length b = (2 * P)%nat /\ length b' = (2 * P)%nat /\ (pos <= 2 * P)%nat /\ firstn pos b' = firstn pos b.
Proof.
  intros HS HI HB. pose proof fP as HF. assert (R0 : (0 < R)%nat) by lia.
  pose proof (long_update ss buf m HS HI HB HM) as E. pose proof (long_update ss buf m' HS HI HB ltac:(lia)) as E'. rewrite HL in E'. rewrite E, E'. clear E E'. cbv zeta.
  assert (S1 : set1 ss (slice m' 0 (2 * P)) = set1 ss (slice m 0 (2 * P))).
  { unfold set1. apply (mapi_ext _ _ Is); [exact HI|]. intros i s Hi _. rewrite head_slice by lia. reflexivity. }
  assert (S2 : forall k ss0, Forall Is ss0 -> set2 ss0 m' k = set2 ss0 m k).
  { intros k ss0 H0. unfold set2. apply (mapi_ext _ _ Is); [exact H0|]. intros i s _ _. unfold leaf_of. f_equal. apply map_ext. intros j. apply tail_slice. lia. }
  assert (HI1 : Forall Is (set1 ss (slice m 0 (2 * P)))).
  { refine (proj2 (each_leaf_ok w size rounds rot IV perm GetConfig Hw Hsize HIV Hperm fan (slice m 0 (2 * P)) ss HS HI _)). rewrite length_slice by lia. clear; nia. }
  rewrite S1. rewrite S2 by exact HI1. set (L := (length m - 2 * P)%nat). set (k := long_k L). set (ss2 := if (k =? 0)%nat then _ else _).
  assert (KL : (k * P <= L)%nat).
  { subst k. unfold long_k. destruct (Nat.ltb_spec (2 * P + (P - R)) L); [|cbn; lia]. pose proof (Nat.mul_div_le (L - P) P ltac:(lia)). lia. }
  assert (KB : (L - k * P < 3 * P)%nat).
  { subst k. unfold long_k. destruct (Nat.ltb_spec (2 * P + (P - R)) L) as [X|X]; [|cbn [Nat.mul]; lia].
    pose proof (Nat.div_mod (L - P) P ltac:(lia)) as Y. pose proof (Nat.mod_upper_bound (L - P) P ltac:(lia)) as Y2. rewrite (Nat.mul_comm P) in Y. lia. }
  clearbody k ss2. unfold tail_of. destruct (Nat.ltb_spec (2 * P) (L - k * P)) as [X|X].
  - assert (EQ : forall n a, (2 * P <= a)%nat -> slice m' a n = slice m a n) by (intros; now apply tail_slice).
    rewrite !(EQ _ (2 * P + k * P)%nat) by lia. rewrite (EQ _ (2 * P + k * P + 2 * P)%nat) by lia.
    assert (LS : length (slice m (2 * P + k * P) (2 * P)) = (2 * P)%nat) by (apply length_slice; lia).
    assert (LB : length (splice (splice (slice m (2 * P + k * P) (2 * P)) 0 (slice (slice m (2 * P + k * P) (2 * P)) P P)) P (slice m (2 * P + k * P + 2 * P) (L - k * P - 2 * P))) = (2 * P)%nat).
    { assert (LP : length (slice (slice m (2 * P + k * P) (2 * P)) P P) = P) by (apply length_slice; lia).
      assert (LQ : length (slice m (2 * P + k * P + 2 * P) (L - k * P - 2 * P)) = (L - k * P - 2 * P)%nat) by (apply length_slice; lia).
      rewrite length_splice; rewrite length_splice; lia. }
    eexists _, _, _, _. split; [reflexivity|split; [reflexivity|]]. split; [exact LB|split; [exact LB|split; [lia|reflexivity]]].
  - rewrite (tail_slice (2 * P + k * P)) by lia.
    assert (LT : length (slice m (2 * P + k * P) (L - k * P)) = (L - k * P)%nat) by (apply length_slice; lia).
    assert (LM : forall x : list Z, length x = length m -> length (splice (slice x 0 (2 * P)) 0 (slice m (2 * P + k * P) (L - k * P))) = (2 * P)%nat).
    { intros x Lx. assert (length (slice x 0 (2 * P)) = (2 * P)%nat) by (apply length_slice; lia). rewrite length_splice; lia. }
    eexists _, _, _, _. split; [reflexivity|split; [reflexivity|]]. split; [now apply LM|split; [apply LM; exact HL|split; [lia|]]].
    unfold splice. cbn [firstn app]. rewrite !firstn_app, !LT, Nat.sub_diag, !firstn_O, !app_nil_r. reflexivity.
Qed.
End collide.

(** ** whole objects *)
Section objs.
Context (w : Z) (size rounds : nat) (rot : quad Z) (IV : list Z) (perm : list Z -> nat -> list Z -> list Z -> res (list Z))
  (GetConfig : bparams -> list Z -> res (list Z)).
Hypothesis Hw : 8 < w.
Hypothesis Hsize : (0 < size <= 8)%nat.
Hypothesis HIV : length IV = 8%nat.
Hypothesis Hperm : forall inp io h iv, length h = 8%nat -> length iv = 8%nat -> (io + 16 * size <= length inp)%nat ->
  perm inp io h iv = Ok (F_of w rounds rot h iv (le_words size (slice inp io (16 * size)))).
Hypothesis Hpub : forall inp io h iv, (length inp < io + 16 * size)%nat -> perm inp io h iv = UB.
Notation R := (16 * size)%nat.
Notation Is := (I w).
Context (dl : nat).
Hypothesis Hconf : forall p cfg, length (p_dst p) = dl -> length cfg = 8%nat -> exists cfg', GetConfig p cfg = Ok cfg' /\ length cfg' = 8%nat.
Lemma counter0 : counter_words w 0 = [0; 0].
Proof. unfold counter_words. rewrite Z.mod_0_l, Z.div_0_l, Z.mod_0_l by (apply Z.pow_nonzero; lia). reflexivity. Qed.
Lemma start_shape nl bl p : fan_of p = nl -> length (p_dst p) = dl ->
  exists ss, Tree_start IV GetConfig nl bl p = Ok ((ss, zeros bl, 0%nat), set_noff p 0) /\ length ss = nl /\ Forall Is ss.
Proof.
  intros HF HD. unfold Tree_start, Tree_Reset, LoadLeaves. rewrite HF.
  assert (X : forall (post pre : list bstate) cfg, Forall Is pre -> length cfg = 8%nat -> exists ss cfg',
    for_up (length pre) (length post) (fun i (r : list bstate * list Z) => let '(ss, cfg) := r in cfg <- GetConfig (set_noff p (u8 (Z.of_nat i))) cfg ;; ss <- with_leaf ss i (fun _ : bstate => Ok ([0; 0], xorl IV cfg, [0; 0])) ;; Ok (ss, cfg)) (pre ++ post, cfg) = Ok (ss, cfg') /\
    length ss = (length pre + length post)%nat /\ Forall Is ss).
  { induction post as [|s post IH]; intros pre cfg HQ HC.
    - exists pre, cfg. cbn [length for_up]. rewrite app_nil_r. split; [reflexivity|split; [symmetry; apply Nat.add_0_r|exact HQ]].
    - cbn [length for_up]. destruct (Hconf (set_noff p (u8 (Z.of_nat (length pre)))) cfg HD HC) as (cfg' & -> & HC'). cbn [bind]. rewrite with_leaf_mid. cbn [bind].
      specialize (IH (pre ++ [([0; 0], xorl IV cfg', [0; 0])]) cfg'). rewrite app_length in IH. cbn [length] in IH. rewrite Nat.add_1_r, <- app_assoc in IH. cbn [app] in IH.
      destruct IH as (ss & c2 & E & L & F).
      + apply Forall_app. split; [exact HQ|]. constructor; [|constructor]. exists (xorl IV cfg'), 0. split; [rewrite length_xorl; lia|]. unfold mk. now rewrite counter0.
      + exact HC'.
      + exists ss, c2. split; [exact E|split; [rewrite L; lia|exact F]]. }
  destruct (X (repeat ([0; 0], zeros 8, [0; 0]) nl) [] (zeros 8) ltac:(constructor) eq_refl) as (ss & cfg' & E & L & F). cbn [app length] in E, L. rewrite repeat_length in E, L.
  match goal with |- context [for_up 0 nl ?f ?s] => replace (for_up 0 nl f s) with (Ok (ss, cfg')) by (symmetry; exact E) end. cbn [bind fst].
  exists ss. rewrite length_zeros. auto.
Qed.
Lemma firstn_clear b b' pos n : length b = n -> length b' = n -> (pos <= n)%nat -> firstn pos b' = firstn pos b -> clear_from b' pos = clear_from b pos.
Proof.
  intros H H' HP E. unfold clear_from. rewrite H, H'. replace (pos <=? n)%nat with true by (symmetry; now apply Nat.leb_le). cbn [safe bind].
  rewrite !wr_ok by (rewrite length_zeros; lia). f_equal. unfold splice. rewrite E. f_equal. f_equal. rewrite !skipn_all2; [reflexivity| |]; rewrite length_zeros; lia.
Qed.
Lemma collision half at0 fan bl p m m' out : (0 < fan)%nat -> fan_of p = fan -> length (p_dst p) = dl -> bl = (2 * (fan * R))%nat -> length m' = length m ->
  (2 * (fan * R) + (fan * R - R) < length m)%nat -> firstn (fan * R) m' = firstn (fan * R) m -> skipn (2 * (fan * R)) m' = skipn (2 * (fan * R)) m ->
  (o <- Tree_start IV GetConfig fan bl p ;; Tree_Compute w size perm IV GetConfig (fan * R) half at0 o m' out) =
  (o <- Tree_start IV GetConfig fan bl p ;; Tree_Compute w size perm IV GetConfig (fan * R) half at0 o m out).
Proof.
  intros HF HP HD -> HL HM H1 H2. destruct (start_shape fan (2 * (fan * R)) p HP HD) as (ss & -> & LS & FS). cbn [bind]. unfold Tree_Compute.
  destruct (guard _ _) as [u|e|]; cbn [bind]; try reflexivity. unfold Tree_Update. cbn [fst snd]. change (fan_of (set_noff p 0)) with (fan_of p). rewrite HP, HL.
  destruct (same_update w size rounds rot IV perm GetConfig Hw Hsize HIV Hperm Hpub fan HF m m' HL HM H1 H2 ss (zeros (2 * (fan * R))) LS FS (length_zeros _)) as (ss2 & b & b' & pos & -> & -> & B1 & B2 & B3 & B4).
  cbn [bind]. unfold Tree_Finalize. destruct (guard _ _) as [u2|e|]; cbn [bind]; try reflexivity. now rewrite (firstn_clear b b' pos _ B1 B2 B3 B4).
Qed.
(** too few processors: ProcessLeaf reads beyond the message *)
Lemma over_read fan P bl p m : (R <= P)%nat -> (3 * P <= fan * R)%nat -> fan_of p = fan -> length (p_dst p) = dl -> bl = (2 * (fan * R))%nat ->
  (2 * bl + (P - R) < length m)%nat -> (o <- Tree_start IV GetConfig fan bl p ;; Tree_Update w size perm IV P o m 0 (length m)) = UB.
Proof.
  intros HRP H3 HP HD -> HM. destruct (start_shape fan (2 * (fan * R)) p HP HD) as (ss & -> & LS & FS). cbn [bind]. unfold Tree_Update. cbn [fst snd]. change (fan_of (set_noff p 0)) with (fan_of p). rewrite HP.
  set (Q := (fan * R)%nat) in *. assert (P0 : (0 < P)%nat) by lia. assert (F0 : (0 < fan)%nat) by (destruct fan; [subst Q; lia|lia]).
  unfold tree_update. replace (length m =? 0)%nat with false by (symmetry; apply Nat.eqb_neq; lia). cbv zeta. rewrite length_zeros, Nat.add_0_r. unfold rate.
  replace (2 * Q + (P - R) <? length m)%nat with true by (symmetry; apply Nat.ltb_lt; lia). replace (0 <=? 2 * Q)%nat with true by reflexivity. cbn [safe bind].
  rewrite copied; [|apply length_zeros|lia]. cbn [bind].
  destruct (each_leaf_ok w size rounds rot IV perm GetConfig Hw Hsize HIV Hperm fan (slice m 0 (2 * Q)) ss LS FS) as [-> HI1]; [rewrite length_slice by lia; fold Q; clear; lia|]. cbn [bind].
  set (ss1 := mapi_from _ 0 ss) in *. assert (LS1 : length ss1 = fan) by (unfold ss1; now rewrite mapi_len). rewrite Nat.sub_0_r, Nat.add_0_l. set (L := (length m - 2 * Q)%nat).
  replace (2 * Q + (P - R) <? L)%nat with true by (symmetry; apply Nat.ltb_lt; lia).
  pose proof (Nat.div_mod (L - P) P ltac:(lia)) as X. pose proof (Nat.mod_upper_bound (L - P) P ltac:(lia)) as Y. rewrite (Nat.mul_comm P) in X.
  replace (L - P - (L - P) mod P)%nat with ((L - P) / P * P)%nat by lia. set (k := ((L - P) / P)%nat) in *. clearbody k.
  rewrite (leaves_ub (fun i => ProcessLeaf perm IV P m (2 * Q + i * R) (k * P)) Is (fan - 1) ss1 fan); [reflexivity|exact LS1|lia|exact HI1| |].
  - intros i s Hs. exact (leaf_cases w size rounds rot IV perm GetConfig Hw Hsize HIV Hperm Hpub P P0 m _ k s Hs).
  - intros s Hs. unfold ProcessLeaf. destruct k as [|k]; [apply (leaf_loop_zero w size rounds rot IV perm GetConfig Hw Hsize HIV Hperm Hpub P P0); exact Hs|].
    apply (leaf_loop_ub w size rounds rot IV perm GetConfig Hw Hsize HIV Hperm Hpub P P0); [exact Hs|].
    assert (E : (2 * Q + (fan - 1) * R + k * P + R = 2 * Q + Q + k * P)%nat). { subst Q. destruct fan; [lia|]. cbn [Nat.sub]. rewrite Nat.sub_0_r. clear. nia. }
    rewrite E. cbn [Nat.mul] in X. subst L. lia.
Qed.
(** a buffer of FanOut blocks only: some lengths make ProcessLeaf run with length 0 *)
Lemma zero_leaf fan bl p m : (0 < fan)%nat -> fan_of p = fan -> length (p_dst p) = dl -> bl = (fan * R)%nat ->
  (3 * (fan * R) - R < length m < 3 * (fan * R))%nat -> (o <- Tree_start IV GetConfig fan bl p ;; Tree_Update w size perm IV (fan * R) o m 0 (length m)) = UB.
Proof.
  intros F0 HP HD -> HM. destruct (start_shape fan (fan * R) p HP HD) as (ss & -> & LS & FS). cbn [bind]. unfold Tree_Update. cbn [fst snd]. change (fan_of (set_noff p 0)) with (fan_of p). rewrite HP.
  assert (RQ : (R <= fan * R)%nat) by (clear - F0; nia). 
  assert (EB : forall inp : list Z, (fan * R <= length inp)%nat -> (fan * R <= length (slice inp 0 (fan * R)))%nat) by (intros; rewrite length_slice; lia).
  set (Q := (fan * R)%nat) in *. assert (P0 : (0 < Q)%nat) by lia.
  unfold tree_update. replace (length m =? 0)%nat with false by (symmetry; apply Nat.eqb_neq; lia). cbv zeta. rewrite length_zeros, Nat.add_0_r. unfold rate.
  replace (Q + (Q - R) <? length m)%nat with true by (symmetry; apply Nat.ltb_lt; lia). replace (0 <=? Q)%nat with true by reflexivity. cbn [safe bind].
  rewrite copied; [|apply length_zeros|lia]. cbn [bind].
  destruct (each_leaf_ok w size rounds rot IV perm GetConfig Hw Hsize HIV Hperm fan (slice m 0 Q) ss LS FS) as [-> HI1]; [apply EB; lia|]. cbn [bind].
  set (ss1 := mapi_from _ 0 ss) in *. assert (LS1 : length ss1 = fan) by (unfold ss1; now rewrite mapi_len). rewrite Nat.sub_0_r, Nat.add_0_l. set (L := (length m - Q)%nat).
  replace (Q + (Q - R) <? L)%nat with true by (symmetry; apply Nat.ltb_lt; lia).
  rewrite (Nat.mod_small (L - Q) Q) by lia. rewrite Nat.sub_diag.
  rewrite (leaves_ub (fun i => ProcessLeaf perm IV Q m (Q + i * R) 0) Is 0 ss1 fan); [reflexivity|exact LS1|lia|exact HI1| |].
  - intros i s Hs. left. unfold ProcessLeaf. apply (leaf_loop_zero w size rounds rot IV perm GetConfig Hw Hsize HIV Hperm Hpub Q P0); exact Hs.
  - intros s Hs. unfold ProcessLeaf. apply (leaf_loop_zero w size rounds rot IV perm GetConfig Hw Hsize HIV Hperm Hpub Q P0); exact Hs.
Qed.
End objs.

(** ** messages that fit into the buffer are only stored *)
Section short.
Context (w : Z) (size : nat) (perm : list Z -> nat -> list Z -> list Z -> res (list Z)) (IV : list Z) (P : nat).
Lemma short_update p ss buf0 d inp io len : (length d + len <= length buf0)%nat -> (io + len <= length inp)%nat ->
  Tree_Update w size perm IV P ((ss, splice buf0 0 d, length d), p) inp io len = Ok ((ss, splice buf0 0 (d ++ slice inp io len), length (d ++ slice inp io len)), p).
Proof.
  intros HB HI. assert (LB : length (splice buf0 0 d) = length buf0) by (rewrite length_splice; lia).
  assert (LS : length (slice inp io len) = len) by (apply length_slice; lia).
  unfold Tree_Update, tree_update. cbn [fst snd]. destruct (Nat.eqb_spec len 0) as [->|N].
  - unfold slice. cbn [firstn]. rewrite app_nil_r. reflexivity.
  - cbv zeta. rewrite LB. replace (length buf0 + (P - rate size) <? len + length d)%nat with false by (symmetry; apply Nat.ltb_ge; lia). cbn [bind].
    replace (length buf0 <? len + length d)%nat with false by (symmetry; apply Nat.ltb_ge; lia). cbn [bind]. replace (len =? 0)%nat with false by (symmetry; now apply Nat.eqb_neq).
    rewrite wcopy_ok by lia. cbn [bind]. rewrite app_length, LS. f_equal. f_equal. f_equal. f_equal.
    rewrite <- (splice_splice_next buf0 0 d) by lia. reflexivity.
Qed.
Lemma short_feed p ss buf0 ps : forall d, Forall p_ok ps -> (length d + length (joined ps) <= length buf0)%nat ->
  feed (Tree_Update w size perm IV P) ps ((ss, splice buf0 0 d, length d), p) = Ok ((ss, splice buf0 0 (d ++ joined ps), length (d ++ joined ps)), p).
Proof.
  induction ps as [|q ps IH]; intros d HQ HB; [cbn; now rewrite app_nil_r|]. inversion HQ as [|? ? [H1 H2] H3]; subst. unfold joined in *. cbn [map concat feed] in *.
  assert (LP : length (p_data q) = p_len q) by (unfold p_data; apply length_slice; lia). rewrite app_length in HB.
  rewrite short_update by lia. cbn [bind]. fold (p_data q). rewrite IH; [now rewrite <- app_assoc|exact H3|]. rewrite app_length. lia.
Qed.
End short.
