(** The polynomial operations of the code: reductions, sums, products in the transformed domain, and the way back. *)
From Verif Require Import BaseLemmas Spec_Kyber Model_Kyber Proofs_Kyber Proofs_Kyber2 Proofs_Kyber3 Proofs_Kyber4 Proofs_Kyber5.
From Coq Require Import Setoid Morphisms.
Open Scope Z_scope.
Opaque lay zrs zis L0 I0 scale poly_of FW BW.
Lemma zsum_sub n f g : zsum n (fun i => f i - g i) = zsum n f - zsum n g.
Proof. induction n as [|n IH]; [reflexivity|]. cbn [zsum]. rewrite IH. ring. Qed.
Opaque zsum gamma.

Lemma cgl_pt a b : length a = length b -> (forall n, (n < length a)%nat -> nth n a 0 == nth n b 0) -> cgl a b.
Proof. intros. now apply (F2_mk cg 0 0). Qed.
Lemma cgl_len a b : cgl a b -> length a = length b. Proof. apply F2_len. Qed.
Lemma nearl_len B a b : nearl B a b -> length a = length b. Proof. apply F2_len. Qed.
Lemma nearl_cg B a b c : nearl B a b -> cgl b c -> nearl B a c.
Proof. intros H H1. apply nearl_mk; [|now apply nearl_bnd with b]. transitivity b; [now apply nearl_cgl with B|exact H1]. Qed.
Lemma bnd_nth B a n : Forall (fun x => Z.abs x <= B) a -> 0 <= B -> Z.abs (nth n a 0) <= B.
Proof.
  intros F HB. destruct (Nat.lt_ge_cases n (length a)) as [L|L].
  - apply (proj1 (Forall_forall _ a) F), nth_In, L.
  - rewrite nth_overflow by exact L. cbn. lia.
Qed.
Lemma bnd_le B B' a : B <= B' -> Forall (fun x => Z.abs x <= B) a -> Forall (fun x => Z.abs x <= B') a.
Proof. intros H F. eapply Forall_impl; [|exact F]. cbn. lia. Qed.

(** * reductions and sums *)
Lemma PolyReduce_ok a b : cgl a b -> Forall (fun x => Z.abs x <= 32767) a -> nearl 1664 (PolyReduce a) b.
Proof.
  intros H F. induction H as [|x y l l' H1 H2 IH]; [constructor|]. apply Forall_cons_iff in F. destruct F as [Hx F]. cbn [PolyReduce map]. constructor; [|now apply IH].
  destruct (BarrettReduce_ok x ltac:(lia)) as [E1 E2]. split; [|exact E2]. now rewrite E1.
Qed.
Lemma PolyReduce_len a : length (PolyReduce a) = length a. Proof. apply map_length. Qed.
Lemma mont_f : s16 (2 ^ 32 mod KYBER_Q) = 1353. Proof. reflexivity. Qed.
Lemma PolyToMont_ok a b : cgl a b -> Forall (fun x => Z.abs x <= 1664) a -> nearl 1700 (PolyToMont a) (scale (169 * 1353) b).
Proof.
  intros H F. unfold PolyToMont. rewrite mont_f. induction H as [|x y l l' H1 H2 IH]; [constructor|]. apply Forall_cons_iff in F. destruct F as [Hx F]. cbn [map].
  change (scale (169 * 1353) (y :: l')) with (169 * 1353 * y :: scale (169 * 1353) l'). constructor; [|now apply IH].
  destruct (MontgomeryReduce_ok (x * 1353) 35 ltac:(lia)) as [E1 E2]; [lia|lia|]. split; [|lia]. rewrite E1, H1. apply cg_ex. exists 0. ring.
Qed.
Lemma PolyToMont_len a : length (PolyToMont a) = length a. Proof. apply map_length. Qed.
Definition sumz : list Z -> list Z -> list Z := zw Z.add.
Definition subz : list Z -> list Z -> list Z := zw Z.sub.
Lemma PolyAdd_ok A B a b a' b' : A + B <= 32767 -> nearl A a a' -> nearl B b b' -> nearl (A + B) (PolyAdd a b) (sumz a' b').
Proof.
  intros HB H. revert b b'. unfold PolyAdd, sumz, zw. induction H as [|x x' l l' [H1 H1'] H2 IH]; intros b b' H3; [constructor|]. destruct H3 as [|y y' m m' [H4 H4'] H5]; [constructor|].
  cbn [combine map fst snd]. constructor; [|now apply IH]. rewrite s16_id by lia. split; [now rewrite H1, H4|lia].
Qed.
Lemma PolySub_ok A B a b a' b' : A + B <= 32767 -> nearl A a a' -> nearl B b b' -> nearl (A + B) (PolySub a b) (subz a' b').
Proof.
  intros HB H. revert b b'. unfold PolySub, subz, zw. induction H as [|x x' l l' [H1 H1'] H2 IH]; intros b b' H3; [constructor|]. destruct H3 as [|y y' m m' [H4 H4'] H5]; [constructor|].
  cbn [combine map fst snd]. constructor; [|now apply IH]. rewrite s16_id by lia. split; [now rewrite H1, H4|lia].
Qed.
Lemma PolyAdd_len a b : length (PolyAdd a b) = Nat.min (length a) (length b). Proof. unfold PolyAdd. now rewrite map_length, combine_length. Qed.
Lemma PolySub_len a b : length (PolySub a b) = Nat.min (length a) (length b). Proof. unfold PolySub. now rewrite map_length, combine_length. Qed.
Lemma sumz_len a b : length (sumz a b) = Nat.min (length a) (length b). Proof. apply zw_len. Qed.
Lemma nth_sumz a b n : length a = length b -> nth n (sumz a b) 0 = nth n a 0 + nth n b 0.
Proof.
  intros H. destruct (Nat.lt_ge_cases n (length a)) as [L|L]; [now apply nth_zw|]. rewrite !nth_overflow; [ring|lia|lia|]. rewrite sumz_len. lia.
Qed.
Lemma nth_subz a b n : length a = length b -> nth n (subz a b) 0 = nth n a 0 - nth n b 0.
Proof.
  intros H. destruct (Nat.lt_ge_cases n (length a)) as [L|L]; [now apply nth_zw|]. rewrite !nth_overflow; [ring|lia|lia|]. unfold subz. rewrite zw_len. lia.
Qed.

(** * sums under the transform *)
Lemma nth_add a b n : (n < 256)%nat -> nth n (add a b) 0 = nth n a 0 + nth n b 0. Proof. intros H. unfold add. now rewrite nth_poly_of. Qed.
Lemma nth_sub a b n : (n < 256)%nat -> nth n (sub a b) 0 = nth n a 0 - nth n b 0. Proof. intros H. unfold sub. now rewrite nth_poly_of. Qed.
Lemma nth_ntt_add a b n : (n < 256)%nat -> nth n (ntt (add a b)) 0 = nth n (ntt a) 0 + nth n (ntt b) 0.
Proof.
  intros H. destruct (split2 n H) as (j & k & -> & Hj & Hk). rewrite !ntt_nth by assumption. unfold EV. rewrite <- zsum_add. apply zsum_ext. intros i Hi.
  rewrite nth_add by lia. ring.
Qed.
Lemma nth_ntt_sub a b n : (n < 256)%nat -> nth n (ntt (sub a b)) 0 = nth n (ntt a) 0 - nth n (ntt b) 0.
Proof.
  intros H. destruct (split2 n H) as (j & k & -> & Hj & Hk). rewrite !ntt_nth by assumption. unfold EV.
  rewrite <- zsum_sub. apply zsum_ext. intros i Hi. rewrite nth_sub by lia. ring.
Qed.
Lemma nth_zero n : nth n zero_poly 0 = 0. Proof. unfold zero_poly, zeros. destruct (Nat.lt_ge_cases n 256) as [L|L]; [now rewrite nth_repeat|]. apply nth_overflow. rewrite repeat_length. exact L. Qed.
Lemma nth_ntt_zero n : (n < 256)%nat -> nth n (ntt zero_poly) 0 = 0.
Proof.
  intros H. destruct (split2 n H) as (j & k & -> & Hj & Hk). rewrite ntt_nth by assumption. unfold EV. rewrite <- (zsum_0 128). apply zsum_ext. intros i Hi. rewrite nth_zero. ring.
Qed.
Lemma ntt_cg a b : length a = 256%nat -> cgl a b -> cgl (ntt a) (ntt b).
Proof. intros H E. rewrite <- FW_ntt by exact H. rewrite <- (FW_ntt b) by (rewrite <- (cgl_len _ _ E); exact H). now apply FW_cg. Qed.

(** * products *)
Lemma rd2 a o : (o + 2 <= length a)%nat -> rd a o 2 = Ok [nth o a 0; nth (o + 1) a 0].
Proof.
  intros H. rewrite rd_ok by lia. f_equal. apply (list_ext 0); [rewrite length_slice by lia; reflexivity|]. rewrite length_slice by lia. intros i Hi. rewrite BaseLemmas.nth_slice by lia.
  destruct i as [|[|i]]; [now rewrite Nat.add_0_r|reflexivity|lia].
Qed.
Lemma BaseMul_ok a0 a1 b0 b1 z g : Z.abs a0 <= 4095 -> Z.abs a1 <= 4095 -> Z.abs b0 <= 1664 -> Z.abs b1 <= 1664 -> Z.abs z <= 1659 -> g == 169 * z ->
  exists u v, BaseMul [a0; a1] [b0; b1] z = [u; v] /\ near 3538 u (169 * (a0 * b0 + g * (a1 * b1))) /\ near 3538 v (169 * (a0 * b1 + a1 * b0)).
Proof.
  intros H0 H1 H2 H3 Hz Hg. unfold BaseMul. cbn [nth].
  assert (HM : forall a b, Z.abs a <= 4095 -> Z.abs b <= 1664 -> Z.abs (a * b) <= 65536 * 104).
  { intros a b Ha Hb. rewrite Z.abs_mul. pose proof (Z.mul_le_mono_nonneg (Z.abs a) 4095 (Z.abs b) 1664 ltac:(lia) Ha ltac:(lia) Hb). lia. }
  destruct (FqMul_ok a1 b1 104 ltac:(lia) (HM _ _ H1 H3)) as [E1 B1]. destruct (FqMul_ok a0 b0 104 ltac:(lia) (HM _ _ H0 H2)) as [E2 B2].
  destruct (FqMul_ok a0 b1 104 ltac:(lia) (HM _ _ H0 H3)) as [E3 B3]. destruct (FqMul_ok a1 b0 104 ltac:(lia) (HM _ _ H1 H2)) as [E4 B4].
  destruct (FqMul_ok (FqMul a1 b1) z 45 ltac:(lia)) as [E5 B5].
  { rewrite Z.abs_mul. pose proof (Z.mul_le_mono_nonneg (Z.abs (FqMul a1 b1)) 1769 (Z.abs z) 1659 ltac:(lia) ltac:(lia) ltac:(lia) Hz). lia. }
  eexists _, _. split; [reflexivity|]. rewrite !s16_id by lia. split; split; [|lia| |lia].
  - rewrite E5, E2, E1, Hg. apply cg_ex. exists 0. ring.
  - rewrite E3, E4. apply cg_ex. exists 0. ring.
Qed.
(** the product of two transformed polynomials *)
Definition pm0 (a b : list Z) (j : nat) : Z := nth (2 * j) a 0 * nth (2 * j) b 0 + gamma j * (nth (2 * j + 1) a 0 * nth (2 * j + 1) b 0).
Definition pm1 (a b : list Z) (j : nat) : Z := nth (2 * j) a 0 * nth (2 * j + 1) b 0 + nth (2 * j + 1) a 0 * nth (2 * j) b 0.
Lemma gamma_pair i : (i < 64)%nat -> gamma (2 * i) == 169 * zn (64 + i) /\ gamma (2 * i + 1) == 169 * s16 (- zn (64 + i)).
Proof.
  intros H. pose proof (zn_small (64 + i) ltac:(lia)) as Hz. rewrite s16_id by lia.
  assert (HI : In (64, 1)%nat [(1, 64); (2, 32); (4, 16); (8, 8); (16, 4); (32, 2); (64, 1)]%nat) by (cbn [In]; tauto).
  pose proof (gamma_layer 64 1 (2 * i) HI ltac:(lia)) as E0. pose proof (gamma_layer 64 1 (2 * i + 1) HI ltac:(lia)) as E1.
  rewrite Nat.div_1_r in E0, E1. change (Z.of_nat 1) with 1 in *. rewrite Z.pow_1_r in E0, E1. change (2 * 1)%nat with 2%nat in *.
  replace (2 * i / 2)%nat with i in E0 by (rewrite Nat.mul_comm, Nat.div_mul by lia; reflexivity).
  replace ((2 * i + 1) / 2)%nat with i in E1 by (rewrite Nat.add_comm, Nat.mul_comm, Nat.div_add by lia; reflexivity).
  replace (Nat.odd (2 * i)) with false in E0. 2:{ symmetry. rewrite Nat.odd_mul. reflexivity. }
  replace (Nat.odd (2 * i + 1)) with true in E1. 2:{ symmetry. rewrite Nat.odd_add, Nat.odd_mul. reflexivity. }
  rewrite E0, E1. split; apply cg_ex; exists 0; ring.
Qed.
Definition is_prod (a b r : list Z) (j : nat) : Prop := near 3538 (nth (2 * j) r 0) (169 * pm0 a b j) /\ near 3538 (nth (2 * j + 1) r 0) (169 * pm1 a b j).
Lemma wr2 r o u v : (o + 2 <= length r)%nat -> exists r', wr r o [u; v] = Ok r' /\ length r' = length r /\ nth o r' 0 = u /\ nth (o + 1) r' 0 = v /\
  forall n, (n < o \/ o + 2 <= n)%nat -> nth n r' 0 = nth n r 0.
Proof.
  intros H. rewrite wr_ok by (cbn [length]; lia). eexists. split; [reflexivity|]. split; [now rewrite length_splice by (cbn [length]; lia)|].
  rewrite !nth_splice by (cbn [length]; lia). cbn [length].
  rewrite (proj2 (Nat.ltb_ge o o)), (proj2 (Nat.ltb_ge (o + 1) o)), (proj2 (Nat.ltb_lt o (o + 2))), (proj2 (Nat.ltb_lt (o + 1) (o + 2))) by lia.
  rewrite Nat.sub_diag. replace (o + 1 - o)%nat with 1%nat by lia. split; [reflexivity|]. split; [reflexivity|]. intros n Hn. rewrite nth_splice by (cbn [length]; lia). cbn [length].
  destruct (n <? o)%nat eqn:E1; [reflexivity|]. destruct (n <? o + 2)%nat eqn:E2; [|reflexivity]. apply Nat.ltb_ge in E1. apply Nat.ltb_lt in E2. lia.
Qed.
Lemma PolyBaseMul_pt r a b : length r = 256%nat -> length a = 256%nat -> length b = 256%nat -> Forall (fun x => Z.abs x <= 4095) a -> Forall (fun x => Z.abs x <= 1664) b ->
  exists c, PolyBaseMulMontgomery r a b = Ok c /\ length c = 256%nat /\ forall j, (j < 128)%nat -> is_prod a b c j.
Proof.
  intros Hr Ha Hb Fa Fb. unfold PolyBaseMulMontgomery.
  match goal with |- exists c, for_up 0 64 ?f r = _ /\ _ =>
    destruct (for_up_inv (fun i c => length c = 256%nat /\ forall j, (j < 2 * i)%nat -> is_prod a b c j) f 0 64 r) as (c & E & Hc & HP) end.
  - split; [exact Hr|]. intros j Hj. lia.
  - intros i c Hi [Hc HP]. assert (Hi' : (i < 64)%nat) by lia. rewrite zeta_ok by lia. cbn [bind]. rewrite !rd2 by lia. cbn [bind].
    pose proof (fun n => bnd_nth 4095 a n Fa ltac:(lia)) as Ba. pose proof (fun n => bnd_nth 1664 b n Fb ltac:(lia)) as Bb.
    pose proof (zn_small (64 + i) ltac:(lia)) as Hz. destruct (gamma_pair i Hi') as [G0 G1].
    destruct (BaseMul_ok _ _ _ _ _ _ (Ba (4 * i)%nat) (Ba (4 * i + 1)%nat) (Bb (4 * i)%nat) (Bb (4 * i + 1)%nat) Hz G0) as (u & v & -> & Nu & Nv).
    destruct (wr2 c (4 * i) u v ltac:(lia)) as (c1 & -> & L1 & Eu & Ev & O1). cbn [bind].
    assert (Hz' : Z.abs (s16 (- zn (64 + i))) <= 1659) by (rewrite s16_id by lia; lia).
    destruct (BaseMul_ok _ _ _ _ _ _ (Ba (4 * i + 2)%nat) (Ba (4 * i + 2 + 1)%nat) (Bb (4 * i + 2)%nat) (Bb (4 * i + 2 + 1)%nat) Hz' G1) as (u' & v' & -> & Nu' & Nv').
    destruct (wr2 c1 (4 * i + 2) u' v' ltac:(lia)) as (c2 & -> & L2 & Eu' & Ev' & O2). exists c2. split; [reflexivity|]. split; [lia|].
    intros j Hj. destruct (Nat.lt_ge_cases j (2 * i)) as [J|J].
    { unfold is_prod. rewrite !O2, !O1 by lia. apply HP. exact J. }
    destruct (Nat.eq_dec j (2 * i)) as [->|J'].
    { unfold is_prod, pm0, pm1. replace (2 * (2 * i))%nat with (4 * i)%nat by lia. rewrite !O2 by lia. rewrite Eu, Ev. split; assumption. }
    replace j with (2 * i + 1)%nat by lia. unfold is_prod, pm0, pm1. replace (2 * (2 * i + 1))%nat with (4 * i + 2)%nat by lia. rewrite Eu', Ev'. split; assumption.
  - exists c. split; [exact E|]. split; [exact Hc|]. intros j Hj. apply HP. lia.
Qed.
Lemma ntt_mul0 j f g : (j < 128)%nat -> nth (2 * j) (ntt (mul f g)) 0 == pm0 (ntt f) (ntt g) j /\ nth (2 * j + 1) (ntt (mul f g)) 0 == pm1 (ntt f) (ntt g) j.
Proof. intros Hj. pose proof (ntt_mul j f g Hj) as H. cbv zeta beta in H. rewrite !Nat.add_0_r in H. exact H. Qed.
Lemma PolyBaseMul_ok r a b s t f g : length r = 256%nat -> Forall (fun x => Z.abs x <= 4095) a -> Forall (fun x => Z.abs x <= 1664) b ->
  cgl a (scale s (ntt f)) -> cgl b (scale t (ntt g)) ->
  exists c, PolyBaseMulMontgomery r a b = Ok c /\ length c = 256%nat /\ nearl 3538 c (scale (169 * (s * t)) (ntt (mul f g))).
Proof.
  intros Hr Fa Fb Ea Eb. assert (La : length a = 256%nat) by (rewrite (cgl_len _ _ Ea), scale_len; apply ntt_len). assert (Lb : length b = 256%nat) by (rewrite (cgl_len _ _ Eb), scale_len; apply ntt_len).
  destruct (PolyBaseMul_pt r a b Hr La Lb Fa Fb) as (c & E & Lc & HP). exists c. split; [exact E|]. split; [exact Lc|].
  apply (F2_mk (near 3538) 0 0); [rewrite scale_len, ntt_len; exact Lc|]. rewrite Lc. intros n Hn. destruct (split2 n Hn) as (j & k & -> & Hj & Hk).
  destruct (HP j Hj) as [P0 P1]. destruct (ntt_mul0 j f g Hj) as [M0 M1]. rewrite nth_scale.
  pose proof (fun n => cgl_nth _ _ n Ea) as Na. pose proof (fun n => cgl_nth _ _ n Eb) as Nb.
  destruct k as [|[|k]]; [| |lia].
  - rewrite Nat.add_0_r. destruct P0 as [P0 B0]. split; [|exact B0]. rewrite P0, M0. unfold pm0. rewrite !Na, !Nb, !nth_scale. apply cg_ex. exists 0. ring.
  - destruct P1 as [P1 B1]. split; [|exact B1]. rewrite P1, M1. unfold pm1. rewrite !Na, !Nb, !nth_scale. apply cg_ex. exists 0. ring.
Qed.
(** a vector of the code (entries at most B) represents s times the transforms of a vector of polynomials *)
Definition reps (B s : Z) (a : list (list Z)) (f : list (list Z)) : Prop := Forall2 (fun a f => nearl B a (scale s (ntt f))) a f.
Lemma acc_loop t : forall a b f g r B p s, reps 4095 s a f -> reps 1664 t b g -> nearl B r (scale (169 * (s * t)) (ntt p)) -> 0 <= B -> B + 3538 * Z.of_nat (length a) <= 32767 ->
  exists c, for_in (combine a b) (fun r p => t <- PolyBaseMulMontgomery (zeros 256) (fst p) (snd p) ;; Ok (PolyAdd r t)) r = Ok c /\
    nearl (B + 3538 * Z.of_nat (length a)) c (scale (169 * (s * t)) (ntt (add p (dot f g)))).
Proof.
  induction a as [|a0 a IH]; intros b f g r B p s Ha Hb Hr HB HL.
  - inversion Ha; subst. cbn [combine for_in dot length]. exists r. split; [reflexivity|]. apply (nearl_le B); [lia|]. eapply nearl_cg; [exact Hr|]. apply cgl_scale.
    apply cgl_pt; [now rewrite !ntt_len|]. rewrite ntt_len. intros n Hn. rewrite nth_ntt_add, nth_ntt_zero by exact Hn. apply cg_ex. exists 0. ring.
  - inversion Ha as [|x1 f0 x3 f1 Ha0 Ha1]; subst. inversion Hb as [|b0 g0 b1 g1 Hb0 Hb1]; subst.
    + cbn [combine for_in dot length]. exists r. split; [reflexivity|]. apply (nearl_le B); [cbn [length] in HL; lia|]. eapply nearl_cg; [exact Hr|]. apply cgl_scale.
      apply cgl_pt; [now rewrite !ntt_len|]. rewrite ntt_len. intros n Hn. rewrite nth_ntt_add, nth_ntt_zero by exact Hn. apply cg_ex. exists 0. ring.
    + cbn [combine for_in dot fst snd]. cbn [length] in *.
      destruct (PolyBaseMul_ok (zeros 256) a0 b0 s t f0 g0 (length_zeros _) (nearl_bnd _ _ _ Ha0) (nearl_bnd _ _ _ Hb0) (nearl_cgl _ _ _ Ha0) (nearl_cgl _ _ _ Hb0)) as (c & -> & Lc & Nc). cbn [bind].
      pose proof (PolyAdd_ok B 3538 r c _ _ ltac:(lia) Hr Nc) as HA.
      assert (HA' : nearl (B + 3538) (PolyAdd r c) (scale (169 * (s * t)) (ntt (add p (mul f0 g0))))).
      { eapply nearl_cg; [exact HA|]. apply cgl_pt; [rewrite sumz_len, !scale_len, !ntt_len; reflexivity|]. rewrite sumz_len, !scale_len, !ntt_len. intros n Hn.
        rewrite nth_sumz by (now rewrite !scale_len, !ntt_len). rewrite !nth_scale, nth_ntt_add by exact Hn. apply cg_ex. exists 0. ring. }
      destruct (IH b1 f1 g1 _ _ _ s Ha1 Hb1 HA' ltac:(lia) ltac:(lia)) as (d & -> & Nd). exists d. split; [reflexivity|]. eapply nearl_cg; [apply (nearl_le (B + 3538 + 3538 * Z.of_nat (length a))); [lia|exact Nd]|].
      apply cgl_scale. apply cgl_pt; [now rewrite !ntt_len|]. rewrite ntt_len. intros n Hn. rewrite !nth_ntt_add by exact Hn. apply cg_ex. exists 0. ring.
Qed.
Lemma Acc_ok r a b f g s t : length r = 256%nat -> reps 4095 s a f -> reps 1664 t b g -> length a = length b -> (0 < length a <= 9)%nat ->
  exists c, PolyVecBaseMulAccMontgomery r a b = Ok c /\ nearl 1664 c (scale (169 * (s * t)) (ntt (dot f g))).
Proof.
  intros Hr Ha Hb HL H0. destruct a as [|a0 a], b as [|b0 b]; cbn [length] in *; try lia. inversion Ha as [|x1 f0 x3 f1 Ha0 Ha1]; subst. inversion Hb as [|x4 g0 x5 g1 Hb0 Hb1]; subst.
  cbn [PolyVecBaseMulAccMontgomery dot].
  destruct (PolyBaseMul_ok r a0 b0 s t f0 g0 Hr (nearl_bnd _ _ _ Ha0) (nearl_bnd _ _ _ Hb0) (nearl_cgl _ _ _ Ha0) (nearl_cgl _ _ _ Hb0)) as (c & -> & Lc & Nc). cbn [bind].
  destruct (acc_loop t a b f1 g1 c 3538 (mul f0 g0) s Ha1 Hb1 Nc ltac:(lia) ltac:(lia)) as (d & -> & Nd). cbn [bind]. eexists. split; [reflexivity|].
  apply PolyReduce_ok; [now apply nearl_cgl in Nd|]. apply nearl_bnd in Nd. eapply bnd_le; [|exact Nd]. lia.
Qed.
Lemma reps_len B s a f : reps B s a f -> length a = length f. Proof. apply F2_len. Qed.

(** * to the transformed domain and back *)
Lemma cgl_scale1 p : cgl p (scale 1 p).
Proof. apply cgl_pt; [now rewrite scale_len|]. intros n _. rewrite nth_scale. apply cg_ex. exists 0. ring. Qed.
Lemma PolyNtt_ok B r p : B <= 15000 -> is_poly p -> nearl B r p -> exists s, PolyNttv2 r = Ok s /\ nearl 1664 s (scale 1 (ntt p)).
Proof.
  intros HB Hp F. destruct (Ntt_ok B r p HB ltac:(rewrite (nearl_len _ _ _ F); exact Hp) F) as (s & E & L & N). unfold PolyNttv2. rewrite E. cbn [bind]. eexists. split; [reflexivity|].
  eapply nearl_cg; [apply PolyReduce_ok; [apply nearl_cgl in N; exact N|]|].
  - apply nearl_bnd in N. eapply bnd_le; [|exact N]. lia.
  - rewrite <- cgl_scale1. now apply FW_ntt.
Qed.
Lemma PolyInv_ok B r p s : B <= 16383 -> is_poly p -> nearl B r (scale s (ntt p)) -> exists c, PolyInvNttToMontgomery r = Ok c /\ nearl 1725 c (scale (65536 * s) p).
Proof.
  intros HB Hp F. assert (Lr : length r = 256%nat) by (rewrite (nearl_len _ _ _ F), scale_len; apply ntt_len).
  assert (F' : nearl B r (scale s (FW p))). { eapply nearl_cg; [exact F|]. apply cgl_scale. symmetry. now apply FW_ntt. }
  destruct (InvNtt_ok B r _ HB Lr F') as (c & E & L & N). unfold PolyInvNttToMontgomery. exists c. split; [exact E|]. eapply nearl_cg; [exact N|].
  rewrite scale_map.
  rewrite (cgl_scale _ _ _ (BW_FW s p (scale s (FW p)) Hp ltac:(rewrite scale_len; now apply FW_len) ltac:(reflexivity))).
  rewrite scale_scale. apply scale_cg. apply cg_ex. exists (9344 * s). unfold Q. ring.
Qed.
