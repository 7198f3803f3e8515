(** The loops of Ntt and InvNtt as layers on lists. *)
From Verif Require Import BaseLemmas Spec_Kyber Model_Kyber Proofs_Kyber.
From Coq Require Import Setoid Morphisms.
Open Scope Z_scope.

Definition zw (f : Z -> Z -> Z) (a b : list Z) : list Z := map (fun p => f (fst p) (snd p)) (combine a b).
Lemma zw_len f a b : length (zw f a b) = Nat.min (length a) (length b).
Proof. unfold zw. now rewrite map_length, combine_length. Qed.
Lemma upd_mid l1 x l2 v : upd (l1 ++ x :: l2) (length l1) v = l1 ++ v :: l2.
Proof. induction l1 as [|a l IH]; [reflexivity|]. cbn [app length upd]. now rewrite IH. Qed.
Lemma nth_mid' (l1 : list Z) x l2 : nth (length l1) (l1 ++ x :: l2) 0 = x.
Proof. apply nth_middle. Qed.

Section BF.
Context (f : nat -> list Z -> res (list Z)) (g h : Z -> Z -> Z) (len : nat).
Hypothesis Hf : forall j r, (j + len < length r)%nat -> (0 < len)%nat ->
  f j r = Ok (upd (upd r j (g (nth j r 0) (nth (j + len) r 0))) (j + len) (h (nth j r 0) (nth (j + len) r 0))).
Lemma bf_loop P S : forall c0 c1 D0 D1, length c0 = length c1 -> length D0 = length D1 -> (length D0 + length c0 = len)%nat ->
  for_up (length P + length D0) (length c0) f (P ++ D0 ++ c0 ++ D1 ++ c1 ++ S) = Ok (P ++ (D0 ++ zw g c0 c1) ++ (D1 ++ zw h c0 c1) ++ S).
Proof using Hf.
  induction c0 as [|x c0 IH]; intros [|y c1] D0 D1 H1 H2 H3; try discriminate.
  - cbn [length for_up zw combine map app]. rewrite !app_nil_r. reflexivity.
  - cbn [length for_up] in *.
    assert (E1 : P ++ D0 ++ (x :: c0) ++ D1 ++ (y :: c1) ++ S = (P ++ D0) ++ x :: (c0 ++ D1 ++ y :: c1 ++ S)) by (rewrite <- !app_assoc; reflexivity).
    assert (E2 : forall z, (P ++ D0) ++ z :: (c0 ++ D1 ++ y :: c1 ++ S) = (P ++ D0 ++ z :: c0 ++ D1) ++ y :: (c1 ++ S)) by (intros; rewrite <- !app_assoc; cbn [app]; now rewrite <- !app_assoc).
    assert (L1 : (length P + length D0)%nat = length (P ++ D0)) by (now rewrite app_length).
    assert (L2 : forall z, (length P + length D0 + len)%nat = length (P ++ D0 ++ z :: c0 ++ D1)) by (intros; rewrite !app_length; cbn [length]; rewrite app_length; lia).
    rewrite Hf; [|repeat (rewrite app_length; cbn [length]); lia|lia]. cbn [bind].
    assert (N1 : nth (length P + length D0) (P ++ D0 ++ (x :: c0) ++ D1 ++ (y :: c1) ++ S) 0 = x) by (rewrite E1, L1; apply nth_mid').
    assert (N2 : nth (length P + length D0 + len) (P ++ D0 ++ (x :: c0) ++ D1 ++ (y :: c1) ++ S) 0 = y) by (rewrite E1, E2, (L2 x); apply nth_mid').
    rewrite N1, N2. rewrite E1. rewrite L1, upd_mid, <- L1. rewrite E2, (L2 (g x y)), upd_mid.
    specialize (IH c1 (D0 ++ [g x y]) (D1 ++ [h x y])). rewrite !app_length in IH. cbn [length] in IH.
    assert (E3 : (P ++ D0 ++ g x y :: c0 ++ D1) ++ h x y :: c1 ++ S = P ++ (D0 ++ [g x y]) ++ c0 ++ (D1 ++ [h x y]) ++ c1 ++ S) by (rewrite <- !app_assoc; cbn [app]; rewrite <- !app_assoc; reflexivity).
    rewrite E3. replace (Datatypes.S (length P + length D0)) with (length P + (length D0 + 1))%nat by lia.
    rewrite IH by lia. rewrite <- !app_assoc. reflexivity.
Qed.
End BF.

Definition half {A} (c : list A) : nat := (length c / 2)%nat.
(** butterflies on a block *)
Definition bf (g h : Z -> Z -> Z) (c : list Z) : list Z :=
  let c0 := firstn (half c) c in let c1 := skipn (half c) c in zw g c0 c1 ++ zw h c0 c1.
Lemma bf_app g h c0 c1 : length c0 = length c1 -> bf g h (c0 ++ c1) = zw g c0 c1 ++ zw h c0 c1.
Proof.
  intros H. unfold bf, half. rewrite app_length, <- H. replace ((length c0 + length c0) / 2)%nat with (length c0).
  2:{ replace (length c0 + length c0)%nat with (length c0 * 2)%nat by lia. now rewrite Nat.div_mul. }
  rewrite firstn_app, firstn_all, Nat.sub_diag, skipn_app, skipn_all, Nat.sub_diag. cbn [firstn skipn app]. now rewrite app_nil_r.
Qed.
Lemma split_half (c : list Z) len : length c = (2 * len)%nat -> exists c0 c1, c = c0 ++ c1 /\ length c0 = len /\ length c1 = len.
Proof.
  intros H. exists (firstn len c), (skipn len c). rewrite firstn_skipn, firstn_length, skipn_length. repeat split; lia.
Qed.
Lemma bf_len g h c len : length c = (2 * len)%nat -> length (bf g h c) = (2 * len)%nat.
Proof. intros H. destruct (split_half c len H) as (c0 & c1 & -> & L0 & L1). rewrite bf_app by lia. rewrite app_length, !zw_len. lia. Qed.

(** a layer: block b of width w is transformed with the b-th number of zs *)
Fixpoint lay (L : Z -> list Z -> list Z) (zs : list Z) (w : nat) (r : list Z) : list Z :=
  match zs with [] => r | z :: zs => L z (firstn w r) ++ lay L zs w (skipn w r) end.
Lemma lay_cons L z zs w c r : length c = w -> lay L (z :: zs) w (c ++ r) = L z c ++ lay L zs w r.
Proof.
  intros <-. cbn [lay]. rewrite firstn_app, firstn_all, Nat.sub_diag, skipn_app, skipn_all, Nat.sub_diag. cbn [firstn skipn app]. now rewrite app_nil_r.
Qed.
Lemma split_at {A} (r : list A) w n : length r = (w + n)%nat -> exists c r', r = c ++ r' /\ length c = w /\ length r' = n.
Proof. intros H. exists (firstn w r), (skipn w r). rewrite firstn_skipn, firstn_length, skipn_length. repeat split; lia. Qed.

(** ** the code *)
Definition zn (k : nat) : Z := s16 (nth k Zetas 0).
Lemma zeta_ok k : (k < 128)%nat -> zeta_at k = Ok (zn k).
Proof. intros H. unfold zeta_at. rewrite (get_ok _ _ 0) by exact H. reflexivity. Qed.
Definition zns (k n : nat) : list Z := map zn (seq k n).
Lemma zn_small k : (k < 128)%nat -> Z.abs (zn k) <= 1659.
Proof.
  intros H. assert (F : forallb (fun k => Z.abs (zn k) <=? 1659) (seq 0 128) = true) by reflexivity.
  rewrite forallb_forall in F. apply Z.leb_le, F, in_seq. lia.
Qed.

Lemma ntt_step_ok z len j r : (j + len < length r)%nat -> (0 < len)%nat ->
  ntt_step z len j r = Ok (upd (upd r j (s16 (nth j r 0 + FqMul z (nth (j + len) r 0)))) (j + len) (s16 (nth j r 0 - FqMul z (nth (j + len) r 0)))).
Proof.
  intros H1 H2. unfold ntt_step. rewrite (get_ok _ (j + len) 0) by lia. cbn [bind]. rewrite (get_ok _ j 0) by lia. cbn [bind].
  rewrite put_ok by lia. cbn [bind]. rewrite (get_ok _ j 0) by (rewrite length_upd; lia). cbn [bind].
  rewrite nth_upd_other by lia. rewrite put_ok by (rewrite length_upd; lia). f_equal.
  apply (list_ext 0); [now rewrite !length_upd|]. intros i Hi. rewrite !length_upd in Hi.
  destruct (Nat.eq_dec i j) as [->|N1].
  - rewrite nth_upd_same by (rewrite length_upd; lia). rewrite nth_upd_other by lia. now rewrite nth_upd_same by lia.
  - destruct (Nat.eq_dec i (j + len)) as [->|N2].
    + rewrite nth_upd_other by lia. rewrite nth_upd_same by lia. now rewrite nth_upd_same by (rewrite length_upd; lia).
    + now rewrite !nth_upd_other by lia.
Qed.
Lemma inv_step_ok z len j r : (j + len < length r)%nat -> (0 < len)%nat ->
  inv_step z len j r = Ok (upd (upd r j (BarrettReduce (s16 (nth j r 0 + nth (j + len) r 0)))) (j + len) (FqMul z (s16 (nth (j + len) r 0 - nth j r 0)))).
Proof.
  intros H1 H2. unfold inv_step. rewrite (get_ok _ j 0) by lia. cbn [bind]. rewrite (get_ok _ (j + len) 0) by lia. cbn [bind].
  rewrite put_ok by lia. cbn [bind]. rewrite (get_ok _ (j + len) 0) by (rewrite length_upd; lia). cbn [bind].
  rewrite nth_upd_other by lia. rewrite put_ok by (rewrite length_upd; lia). cbn [bind].
  rewrite (get_ok _ (j + len) 0) by (rewrite !length_upd; lia). cbn [bind]. rewrite nth_upd_same by (rewrite length_upd; lia).
  rewrite put_ok by (rewrite !length_upd; lia). f_equal.
  apply (list_ext 0); [now rewrite !length_upd|]. intros i Hi. rewrite !length_upd in Hi.
  destruct (Nat.eq_dec i (j + len)) as [->|N2].
  - now rewrite !nth_upd_same by (rewrite ?length_upd; lia).
  - now rewrite !(nth_upd_other _ (j + len)) by lia.
Qed.
Definition fwd (z : Z) : list Z -> list Z := bf (fun x y => s16 (x + FqMul z y)) (fun x y => s16 (x - FqMul z y)).
Definition bwd (z : Z) : list Z -> list Z := bf (fun x y => BarrettReduce (s16 (x + y))) (fun x y => FqMul z (s16 (y - x))).

Lemma ntt_blocks len : (0 < len)%nat -> forall nb k P r b, length P = (b * (2 * len))%nat -> length r = (nb * (2 * len))%nat -> (k + nb <= 128)%nat ->
  for_up b nb (fun b p => let '(k, r) := p in zeta <- zeta_at k ;; r <- for_up (b * (2 * len)) len (ntt_step zeta len) r ;; Ok (S k, r)) (k, P ++ r) =
  Ok ((k + nb)%nat, P ++ lay fwd (zns k nb) (2 * len) r).
Proof.
  intros H0. induction nb as [|nb IH]; intros k P r b HP Hr Hk.
  - cbn [for_up zns seq map lay]. now rewrite Nat.add_0_r.
  - cbn [for_up]. rewrite zeta_ok by lia. cbn [bind].
    destruct (split_at r (2 * len) (nb * (2 * len))%nat) as (c & r' & -> & Lc & Lr); [lia|].
    destruct (split_half c len Lc) as (c0 & c1 & -> & L0 & L1).
    assert (E : for_up (b * (2 * len)) len (ntt_step (zn k) len) (P ++ (c0 ++ c1) ++ r') = Ok (P ++ fwd (zn k) (c0 ++ c1) ++ r')).
    { pose proof (bf_loop (ntt_step (zn k) len) (fun x y => s16 (x + FqMul (zn k) y)) (fun x y => s16 (x - FqMul (zn k) y)) len (fun j r => ntt_step_ok (zn k) len j r) P r' c0 c1 [] [] ltac:(lia) eq_refl ltac:(cbn [length]; lia)) as B.
      cbn [length app] in B. rewrite Nat.add_0_r, L0, HP in B. rewrite <- app_assoc. rewrite B. unfold fwd. rewrite bf_app by lia. now rewrite <- app_assoc. }
    rewrite E. cbn [bind]. rewrite app_assoc. rewrite IH; [|rewrite app_length; unfold fwd; rewrite (bf_len _ _ _ len) by exact Lc; lia|exact Lr|lia].
    unfold zns. cbn [seq map]. rewrite lay_cons by exact Lc. rewrite <- app_assoc. do 2 f_equal. lia.
Qed.
Lemma inv_blocks len : (0 < len)%nat -> forall nb k P r b, length P = (b * (2 * len))%nat -> length r = (nb * (2 * len))%nat -> (nb <= k + 1)%nat -> (k < 128)%nat ->
  for_up b nb (fun b p => let '(k, r) := p in zeta <- zeta_at k ;; r <- for_up (b * (2 * len)) len (inv_step zeta len) r ;; Ok ((k - 1)%nat, r)) (k, P ++ r) =
  Ok ((k - nb)%nat, P ++ lay bwd (map (fun i => zn (k - i)) (seq 0 nb)) (2 * len) r).
Proof.
  intros H0. induction nb as [|nb IH]; intros k P r b HP Hr Hk Hk2.
  - cbn [for_up seq map lay]. now rewrite Nat.sub_0_r.
  - cbn [for_up]. rewrite zeta_ok by lia. cbn [bind].
    destruct (split_at r (2 * len) (nb * (2 * len))%nat) as (c & r' & -> & Lc & Lr); [lia|].
    destruct (split_half c len Lc) as (c0 & c1 & -> & L0 & L1).
    assert (E : for_up (b * (2 * len)) len (inv_step (zn k) len) (P ++ (c0 ++ c1) ++ r') = Ok (P ++ bwd (zn k) (c0 ++ c1) ++ r')).
    { pose proof (bf_loop (inv_step (zn k) len) (fun x y => BarrettReduce (s16 (x + y))) (fun x y => FqMul (zn k) (s16 (y - x))) len (fun j r => inv_step_ok (zn k) len j r) P r' c0 c1 [] [] ltac:(lia) eq_refl ltac:(cbn [length]; lia)) as B.
      cbn [length app] in B. rewrite Nat.add_0_r, L0, HP in B. rewrite <- app_assoc. rewrite B. unfold bwd. rewrite bf_app by lia. now rewrite <- app_assoc. }
    rewrite E. cbn [bind]. rewrite app_assoc. destruct nb as [|nb].
    + cbn [for_up seq map]. rewrite lay_cons by exact Lc. cbn [lay]. rewrite <- app_assoc, Nat.sub_0_r. do 2 f_equal.
    + rewrite IH; [|rewrite app_length; unfold bwd; rewrite (bf_len _ _ _ len) by exact Lc; lia|exact Lr|lia|lia].
      cbn [seq map]. rewrite lay_cons by exact Lc. rewrite <- app_assoc, !Nat.sub_0_r. assert (EQ : map (fun i => zn (k - 1 - i)) (seq 1 nb) = map (fun i => zn (k - i)) (seq 2 nb)).
      { rewrite <- (seq_shift nb 1), map_map. apply map_ext. intros a. f_equal. lia. }
      rewrite EQ. f_equal. f_equal. lia.
Qed.
