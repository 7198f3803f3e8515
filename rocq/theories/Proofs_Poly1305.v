(** The limb arithmetic of Poly1305. *)
From Verif Require Import BaseLemmas Spec_Common Proofs_Common Spec_Poly1305 Model_IntegerTools Proofs_IntegerTools Model_Modes Model_Absorb Model_Poly1305 Proofs_Donna.
Open Scope Z_scope.

Definition v3 (h : Z * Z * Z) : Z := let '(h0, h1, h2) := h in h0 + 2 ^ 44 * h1 + 2 ^ 88 * h2.
Definition h_ok (h : Z * Z * Z) : Prop := let '(h0, h1, h2) := h in 0 <= h0 < 2 ^ 44 /\ 0 <= h1 < 2 ^ 44 + 2 ^ 16 /\ 0 <= h2 < 2 ^ 42.
Definition r_ok (r : Z * Z * Z) : Prop := let '(r0, r1, r2) := r in 0 <= r0 < 2 ^ 44 /\ 0 <= r1 < 2 ^ 44 /\ 0 <= r2 < 2 ^ 44.
Lemma wshr_div x n : 0 <= n -> wshr x n = x / 2 ^ n. Proof. intros. unfold wshr. now apply Z.shiftr_div_pow2. Qed.
(** the three limbs of a 128-bit integer *)
Lemma limb1 t0 t1 : 0 <= t0 < 2 ^ 64 -> 0 <= t1 < 2 ^ 64 -> Z.lor (wshr t0 44) (wshl 64 t1 20) = (t0 + 2 ^ 64 * t1) / 2 ^ 44 mod 2 ^ 64.
Proof. intros. exact (shr_parts t0 t1 44 ltac:(lia) H H0). Qed.
Lemma words_val inp io : bytes inp -> (io + 16 <= length inp)%nat -> exists t0 t1, LeBytesTo64 inp io = Ok t0 /\ LeBytesTo64 inp (io + 8) = Ok t1 /\ 0 <= t0 < 2 ^ 64 /\ 0 <= t1 < 2 ^ 64 /\ t0 + 2 ^ 64 * t1 = le_val (slice inp io 16).
Proof.
  intros B L. unfold LeBytesTo64. rewrite !LeBytesTo_correct by lia. do 2 eexists. split; [reflexivity|]. split; [reflexivity|].
  assert (R : forall o, (o + 8 <= length inp)%nat -> 0 <= le_val (slice inp o 8) < 2 ^ 64).
  { intros o Ho. pose proof (le_val_range (slice inp o 8) (bytes_slice _ _ _ B)) as Q. rewrite length_slice in Q by lia. exact Q. }
  split; [apply R; lia|]. split; [apply R; lia|]. change 16%nat with (8 + 8)%nat. rewrite slice_app, le_val_app, length_slice by lia. reflexivity.
Qed.
Lemma prod_bound a b : 0 <= a < 2 ^ 46 -> 0 <= b < 2 ^ 49 -> 0 <= a * b < 2 ^ 95.
Proof. intros. split; [apply Z.mul_nonneg_nonneg; lia|]. apply Z.le_lt_trans with ((2 ^ 46 - 1) * (2 ^ 49 - 1)); [apply Z.mul_le_mono_nonneg; lia|reflexivity]. Qed.
Section wide.
Context {W : Type} (X : wide W) (V : W -> Z) (I : W -> Prop) (HX : wide_ok X V I).
Lemma dot_ok a b c x y z : 0 <= a < 2 ^ 46 -> 0 <= b < 2 ^ 46 -> 0 <= c < 2 ^ 46 -> 0 <= x < 2 ^ 49 -> 0 <= y < 2 ^ 49 -> 0 <= z < 2 ^ 49 ->
  let d := w_add X (w_add X (w_mul X (w_of X a) x) (w_mul X (w_of X b) y)) (w_mul X (w_of X c) z) in V d = a * x + b * y + c * z /\ I d.
Proof.
  intros. pose proof (prod_bound a x H H2). pose proof (prod_bound b y H0 H3). pose proof (prod_bound c z H1 H4).
  destruct (wk_mul _ _ _ HX a x ltac:(lia) ltac:(lia)) as [E1 I1]. destruct (wk_mul _ _ _ HX b y ltac:(lia) ltac:(lia)) as [E2 I2]. destruct (wk_mul _ _ _ HX c z ltac:(lia) ltac:(lia)) as [E3 I3].
  destruct (wk_add _ _ _ HX _ _ I1 I2 ltac:(lia)) as [E4 I4]. destruct (wk_add _ _ _ HX _ _ I4 I3 ltac:(lia)) as [E5 I5]. split; [|exact I5]. unfold d. rewrite E5, E4, E1, E2, E3. reflexivity.
Qed.
Lemma block_ok r0 r1 r2 hibit h inp io : r_ok (r0, r1, r2) -> h_ok h -> bytes inp -> (io + 16 <= length inp)%nat -> hibit = 0 \/ hibit = 2 ^ 40 ->
  exists h', poly_block X r0 r1 r2 hibit h inp io = Ok h' /\ h_ok h' /\ v3 h' mod p1305 = ((v3 h + (le_val (slice inp io 16) + 2 ^ 88 * hibit)) * v3 (r0, r1, r2)) mod p1305.
Proof.
  destruct h as [[h0 h1] h2]. intros (R0 & R1 & R2) (H0 & H1 & H2) B L Hh. unfold poly_block. destruct (words_val inp io B L) as (t0 & t1 & -> & -> & T0 & T1 & ET). cbn [bind]. rewrite <- ET. clear ET B L.
  change 0xFFFFFFFFFFF with (2 ^ 44 - 1). change 0x3FFFFFFFFFF with (2 ^ 42 - 1). rewrite limb1 by assumption. rewrite !land_ones_mod by lia. rewrite !wshr_div by lia. unfold u64. cbv zeta.
  rewrite (Z.mod_small (r1 * 20)), (Z.mod_small (r2 * 20)) by lia.
  set (m0 := t0 mod 2 ^ 44). set (m1 := (t0 + 2 ^ 64 * t1) / 2 ^ 44 mod 2 ^ 64 mod 2 ^ 44).
  assert (EM : exists m2, Z.lor (t1 / 2 ^ 24 mod 2 ^ 42) hibit = m2 /\ 0 <= m2 < 2 ^ 41 /\ m0 + 2 ^ 44 * m1 + 2 ^ 88 * m2 = t0 + 2 ^ 64 * t1 + 2 ^ 88 * hibit).
  { destruct Hh as [->| ->].
    - rewrite Z.lor_0_r. eexists. split; [reflexivity|]. subst m0 m1. split; lia.
    - exists (t1 / 2 ^ 24 mod 2 ^ 42 + 2 ^ 40). split; [apply (lor_add_disj _ _ 40); [lia|lia|reflexivity]|]. subst m0 m1. split; lia. }
  destruct EM as (m2 & -> & M2 & ET). assert (M0 : 0 <= m0 < 2 ^ 44) by (apply Z.mod_pos_bound; lia). assert (M1 : 0 <= m1 < 2 ^ 44) by (apply Z.mod_pos_bound; lia). clearbody m0 m1.
  remember (t0 + 2 ^ 64 * t1 + 2 ^ 88 * hibit) as T eqn:ET'. clear ET' T0 T1 Hh t0 t1 hibit.
  rewrite (Z.mod_small (h0 + m0)), (Z.mod_small (h1 + m1)), (Z.mod_small (h2 + m2)) by lia.
  set (a0 := h0 + m0). set (a1 := h1 + m1). set (a2 := h2 + m2).
  assert (A0 : 0 <= a0 < 2 ^ 46) by lia. assert (A1 : 0 <= a1 < 2 ^ 46) by lia. assert (A2 : 0 <= a2 < 2 ^ 46) by lia.
  destruct (dot_ok a0 a1 a2 r0 (r2 * 20) (r1 * 20)) as [D0 I0]; try lia. destruct (dot_ok a0 a1 a2 r1 r0 (r2 * 20)) as [D1 I1]; try lia. destruct (dot_ok a0 a1 a2 r2 r1 r0) as [D2 I2]; try lia.
  set (e0 := w_add X _ _) in D0, I0. set (e1 := w_add X _ _) in D1, I1. set (e2 := w_add X _ _) in D2, I2. fold e0 e1 e2.
  pose proof (prod_bound a0 r0 ltac:(lia) ltac:(lia)) as P1. pose proof (prod_bound a1 (r2 * 20) ltac:(lia) ltac:(lia)) as P2. pose proof (prod_bound a2 (r1 * 20) ltac:(lia) ltac:(lia)) as P3.
  pose proof (prod_bound a0 r1 ltac:(lia) ltac:(lia)) as P4. pose proof (prod_bound a1 r0 ltac:(lia) ltac:(lia)) as P5. pose proof (prod_bound a2 (r2 * 20) ltac:(lia) ltac:(lia)) as P6.
  pose proof (prod_bound a0 r2 ltac:(lia) ltac:(lia)) as P7. pose proof (prod_bound a1 r1 ltac:(lia) ltac:(lia)) as P8. pose proof (prod_bound a2 r0 ltac:(lia) ltac:(lia)) as P9.
  assert (Q : (v3 (h0, h1, h2) + T) * v3 (r0, r1, r2) = V e0 + 2 ^ 44 * V e1 + 2 ^ 88 * V e2 + 4 * (a1 * r2 + a2 * r1 + 2 ^ 44 * (a2 * r2)) * p1305).
  { rewrite D0, D1, D2, <- ET. unfold v3, p1305. subst a0 a1 a2. ring. }
  rewrite Q, Z.mod_add by (unfold p1305; lia). clear Q ET T.
  assert (B0 : 0 <= V e0 < 2 ^ 97) by lia. assert (B1 : 0 <= V e1 < 2 ^ 97) by lia. assert (B2 : 0 <= V e2 < 2 ^ 97) by lia.
  clear D0 D1 D2 P1 P2 P3 P4 P5 P6 P7 P8 P9. clearbody e0 e1 e2. clear A0 A1 A2 M0 M1 M2. clearbody a0 a1 a2. clear a0 a1 a2 m0 m1 m2 H0 H1 H2 h0 h1 h2 R0 R1 R2 r0 r1 r2.
  rewrite (wk_carry _ _ _ HX) by (auto; lia). cbn [bind]. destruct (wk_addw _ _ _ HX e1 (V e0 / 2 ^ 44) I1 ltac:(lia) ltac:(lia)) as [F1 J1]. set (f1 := w_addw X e1 (V e0 / 2 ^ 44)) in *. clearbody f1.
  rewrite (wk_carry _ _ _ HX) by (auto; lia). cbn [bind]. destruct (wk_addw _ _ _ HX e2 (V f1 / 2 ^ 44) I2 ltac:(lia) ltac:(lia)) as [F2 J2]. set (f2 := w_addw X e2 (V f1 / 2 ^ 44)) in *. clearbody f2.
  rewrite (wk_carry _ _ _ HX) by (auto; lia). cbn [bind]. rewrite !(wk_and _ _ _ HX) by (auto; lia). rewrite !wshr_div, !land_ones_mod by lia.
  revert F1 F2 B0 B1 B2. generalize (V e0) (V e1) (V e2) (V f1) (V f2). clear. intros d0 d1 d2 g1 g2 F1 F2 B0 B1 B2.
  set (c0 := d0 / 2 ^ 44) in *. set (c1 := g1 / 2 ^ 44) in *. set (c2 := g2 / 2 ^ 42).
  assert (C0 : 0 <= c0 < 2 ^ 53) by (subst c0; lia). assert (C1 : 0 <= c1 < 2 ^ 54) by (subst c1; lia). assert (C2 : 0 <= c2 < 2 ^ 57) by (subst c2; lia).
  rewrite (Z.mod_small (c2 * 5)) by lia. set (k0 := d0 mod 2 ^ 44). set (k1 := g1 mod 2 ^ 44). set (k2 := g2 mod 2 ^ 42).
  assert (K0 : 0 <= k0 < 2 ^ 44) by (apply Z.mod_pos_bound; lia). assert (K1 : 0 <= k1 < 2 ^ 44) by (apply Z.mod_pos_bound; lia). assert (K2 : 0 <= k2 < 2 ^ 42) by (apply Z.mod_pos_bound; lia).
  assert (E0 : d0 = k0 + 2 ^ 44 * c0) by (subst k0 c0; lia). assert (E1 : g1 = k1 + 2 ^ 44 * c1) by (subst k1 c1; lia). assert (E2 : g2 = k2 + 2 ^ 42 * c2) by (subst k2 c2; lia). clearbody c0 c1 c2 k0 k1 k2.
  rewrite (Z.mod_small (k0 + c2 * 5)) by lia. rewrite (Z.mod_small (k1 + _)) by lia. eexists. split; [reflexivity|]. split; [split; [lia|split; lia]|].
  unfold v3. replace (d0 + 2 ^ 44 * d1 + 2 ^ 88 * d2) with ((k0 + c2 * 5) mod 2 ^ 44 + 2 ^ 44 * (k1 + (k0 + c2 * 5) / 2 ^ 44) + 2 ^ 88 * k2 + c2 * p1305) by (unfold p1305; lia).
  rewrite Z.mod_add by (unfold p1305; lia). reflexivity.
Qed.
End wide.
(** ** the final reduction, in three stages *)
Definition carries (h : Z * Z * Z) : Z * Z * Z :=
  let '(h0, h1, h2) := h in
  let c := wshr h1 44 in
  let h1 := Z.land h1 0xFFFFFFFFFFF in
  let h2 := u64 (h2 + c) in
  let c := wshr h2 42 in
  let h2 := Z.land h2 0x3FFFFFFFFFF in
  let h0 := u64 (h0 + u64 (c * 5)) in
  let c := wshr h0 44 in
  let h0 := Z.land h0 0xFFFFFFFFFFF in
  let h1 := u64 (h1 + c) in
  let c := wshr h1 44 in
  let h1 := Z.land h1 0xFFFFFFFFFFF in
  let h2 := u64 (h2 + c) in
  let c := wshr h2 42 in
  let h2 := Z.land h2 0x3FFFFFFFFFF in
  let h0 := u64 (h0 + u64 (c * 5)) in
  let c := wshr h0 44 in
  let h0 := Z.land h0 0xFFFFFFFFFFF in
  let h1 := u64 (h1 + c) in
  (h0, h1, h2).
Definition select (h : Z * Z * Z) : Z * Z * Z :=
  let '(h0, h1, h2) := h in
  let g0 := u64 (h0 + 5) in
  let c := wshr g0 44 in
  let g0 := Z.land g0 0xFFFFFFFFFFF in
  let g1 := u64 (h1 + c) in
  let c := wshr g1 44 in
  let g1 := Z.land g1 0xFFFFFFFFFFF in
  let g2 := u64 (h2 + u64 (c - 2 ^ 42)) in
  let c := u64 (wshr g2 63 - 1) in
  let g0 := Z.land g0 c in
  let g1 := Z.land g1 c in
  let g2 := Z.land g2 c in
  let c := u64 (-1 - c) in
  let h0 := Z.lor (Z.land h0 c) g0 in
  let h1 := Z.lor (Z.land h1 c) g1 in
  let h2 := Z.lor (Z.land h2 c) g2 in
  (h0, h1, h2).
Definition addpad (h : Z * Z * Z) (pad : Z * Z) : Z * Z :=
  let '(h0, h1, h2) := h in
  let '(t0, t1) := pad in
  let h0 := u64 (h0 + Z.land t0 0xFFFFFFFFFFF) in
  let c := wshr h0 44 in
  let h0 := Z.land h0 0xFFFFFFFFFFF in
  let h1 := u64 (h1 + u64 (Z.land (Z.lor (wshr t0 44) (wshl 64 t1 20)) 0xFFFFFFFFFFF + c)) in
  let c := wshr h1 44 in
  let h1 := Z.land h1 0xFFFFFFFFFFF in
  let h2 := u64 (h2 + u64 (Z.land (wshr t1 24) 0x3FFFFFFFFFF + c)) in
  let h2 := Z.land h2 0x3FFFFFFFFFF in
  (Z.lor h0 (wshl 64 h1 44), Z.lor (wshr h1 20) (wshl 64 h2 24)).
Lemma finish_stages h pad : poly_finish h pad = addpad (select (carries h)) pad.
Proof. destruct h as [[h0 h1] h2], pad as [t0 t1]. reflexivity. Qed.
Definition x_ok (h : Z * Z * Z) : Prop := let '(h0, h1, h2) := h in 0 <= h0 < 2 ^ 44 /\ 0 <= h1 <= 2 ^ 44 /\ 0 <= h2 < 2 ^ 42.
Ltac masks := change 0xFFFFFFFFFFF with (2 ^ 44 - 1); change 0x3FFFFFFFFFF with (2 ^ 42 - 1); unfold u64; rewrite ?wshr_div, ?land_ones_mod by lia.
Lemma carries_ok h : h_ok h -> x_ok (carries h) /\ v3 (carries h) mod p1305 = v3 h mod p1305.
Proof.
  destruct h as [[h0 h1] h2]. intros (H0 & H1 & H2). unfold carries. masks.
  set (c1 := h1 / 2 ^ 44). set (a1 := h1 mod 2 ^ 44). assert (A1 : 0 <= a1 < 2 ^ 44) by (apply Z.mod_pos_bound; lia). assert (C1 : 0 <= c1 <= 1) by (subst c1; lia). assert (E1 : h1 = a1 + 2 ^ 44 * c1) by (subst a1 c1; lia). clearbody c1 a1.
  rewrite (Z.mod_small (h2 + c1)) by lia. set (c2 := (h2 + c1) / 2 ^ 42). set (a2 := (h2 + c1) mod 2 ^ 42). assert (A2 : 0 <= a2 < 2 ^ 42) by (apply Z.mod_pos_bound; lia). assert (C2 : 0 <= c2 <= 1) by (subst c2; lia).
  assert (E2 : h2 + c1 = a2 + 2 ^ 42 * c2) by (subst a2 c2; lia). assert (N2 : c2 = 1 -> a2 = 0) by lia. clearbody c2 a2.
  rewrite (Z.mod_small (c2 * 5)), (Z.mod_small (h0 + c2 * 5)) by lia. set (c3 := (h0 + c2 * 5) / 2 ^ 44). set (a0 := (h0 + c2 * 5) mod 2 ^ 44). assert (A0 : 0 <= a0 < 2 ^ 44) by (apply Z.mod_pos_bound; lia). assert (C3 : 0 <= c3 <= 1) by (subst c3; lia).
  assert (E3 : h0 + c2 * 5 = a0 + 2 ^ 44 * c3) by (subst a0 c3; lia). clearbody c3 a0.
  rewrite (Z.mod_small (a1 + c3)) by lia. set (c4 := (a1 + c3) / 2 ^ 44). set (b1 := (a1 + c3) mod 2 ^ 44). assert (B1 : 0 <= b1 < 2 ^ 44) by (apply Z.mod_pos_bound; lia). assert (C4 : 0 <= c4 <= 1) by (subst c4; lia).
  assert (E4 : a1 + c3 = b1 + 2 ^ 44 * c4) by (subst b1 c4; lia). clearbody c4 b1.
  rewrite (Z.mod_small (a2 + c4)) by lia. set (c5 := (a2 + c4) / 2 ^ 42). set (b2 := (a2 + c4) mod 2 ^ 42). assert (B2 : 0 <= b2 < 2 ^ 42) by (apply Z.mod_pos_bound; lia). assert (C5 : 0 <= c5 <= 1) by (subst c5; lia).
  assert (E5 : a2 + c4 = b2 + 2 ^ 42 * c5) by (subst b2 c5; lia). clearbody c5 b2.
  rewrite (Z.mod_small (c5 * 5)), (Z.mod_small (a0 + c5 * 5)) by lia. set (c6 := (a0 + c5 * 5) / 2 ^ 44). set (b0 := (a0 + c5 * 5) mod 2 ^ 44). assert (B0 : 0 <= b0 < 2 ^ 44) by (apply Z.mod_pos_bound; lia). assert (C6 : 0 <= c6 <= 1) by (subst c6; lia).
  assert (E6 : a0 + c5 * 5 = b0 + 2 ^ 44 * c6) by (subst b0 c6; lia). clearbody c6 b0.
  rewrite (Z.mod_small (b1 + c6)) by lia. split; [split; [lia|split; lia]|]. unfold v3.
  replace (h0 + 2 ^ 44 * h1 + 2 ^ 88 * h2) with (b0 + 2 ^ 44 * (b1 + c6) + 2 ^ 88 * b2 + (c2 + c5) * p1305) by (unfold p1305; lia). rewrite Z.mod_add by (unfold p1305; lia). reflexivity.
Qed.
Lemma land_all x : 0 <= x < 2 ^ 64 -> Z.land x (2 ^ 64 - 1) = x.
Proof. intros. rewrite land_ones_mod by lia. now apply Z.mod_small. Qed.
Lemma select_ok h : x_ok h -> let s := select h in let '(s0, s1, s2) := s in 0 <= s0 < 2 ^ 44 /\ 0 <= s1 <= 2 ^ 44 /\ 0 <= s2 < 2 ^ 42 /\ v3 s = v3 h mod p1305.
Proof.
  destruct h as [[h0 h1] h2]. intros (H0 & H1 & H2). unfold select. masks.
  rewrite (Z.mod_small (h0 + 5)) by lia. set (c1 := (h0 + 5) / 2 ^ 44). set (g0 := (h0 + 5) mod 2 ^ 44). assert (A0 : 0 <= g0 < 2 ^ 44) by (apply Z.mod_pos_bound; lia). assert (C1 : 0 <= c1 <= 1) by (subst c1; lia).
  assert (E1 : h0 + 5 = g0 + 2 ^ 44 * c1) by (subst g0 c1; lia). clearbody c1 g0.
  rewrite (Z.mod_small (h1 + c1)) by lia. set (c2 := (h1 + c1) / 2 ^ 44). set (g1 := (h1 + c1) mod 2 ^ 44). assert (A1 : 0 <= g1 < 2 ^ 44) by (apply Z.mod_pos_bound; lia). assert (C2 : 0 <= c2 <= 1) by (subst c2; lia).
  assert (E2 : h1 + c1 = g1 + 2 ^ 44 * c2) by (subst g1 c2; lia). clearbody c2 g1.
  destruct (Z_lt_le_dec (h2 + c2) (2 ^ 42)) as [L|L].
  - assert (G : (h2 + (c2 - 2 ^ 42) mod 2 ^ 64) mod 2 ^ 64 = h2 + c2 - 2 ^ 42 + 2 ^ 64) by lia. rewrite G. replace ((h2 + c2 - 2 ^ 42 + 2 ^ 64) / 2 ^ 63) with 1 by lia. change ((1 - 1) mod 2 ^ 64) with 0. change ((-1 - 0) mod 2 ^ 64) with (2 ^ 64 - 1).
    rewrite !Z.land_0_r, !Z.lor_0_r. rewrite !land_all by lia. split; [lia|]. split; [lia|]. split; [lia|]. unfold v3. symmetry. apply Z.mod_small. unfold p1305. lia.
  - assert (G : (h2 + (c2 - 2 ^ 42) mod 2 ^ 64) mod 2 ^ 64 = 0) by lia. rewrite G. change ((0 / 2 ^ 63 - 1) mod 2 ^ 64) with (2 ^ 64 - 1). change ((-1 - (2 ^ 64 - 1)) mod 2 ^ 64) with 0.
    rewrite !Z.land_0_r, !Z.lor_0_l. rewrite !land_all by lia. split; [lia|]. split; [lia|]. split; [lia|]. unfold v3.
    rewrite <- (Z.mod_add _ (-1)) by (unfold p1305; lia). rewrite Z.mod_small; unfold p1305; lia.
Qed.
Lemma addpad_ok s t0 t1 : 0 <= t0 < 2 ^ 64 -> 0 <= t1 < 2 ^ 64 -> (let '(s0, s1, s2) := s in 0 <= s0 < 2 ^ 44 /\ 0 <= s1 <= 2 ^ 44 /\ 0 <= s2 < 2 ^ 42) ->
  let w := addpad s (t0, t1) in 0 <= fst w < 2 ^ 64 /\ 0 <= snd w < 2 ^ 64 /\ fst w + 2 ^ 64 * snd w = (v3 s + (t0 + 2 ^ 64 * t1)) mod 2 ^ 128.
Proof.
  destruct s as [[s0 s1] s2]. intros T0 T1 (S0 & S1 & S2). unfold addpad. rewrite limb1 by assumption. masks.
  set (m0 := t0 mod 2 ^ 44). set (m1 := (t0 + 2 ^ 64 * t1) / 2 ^ 44 mod 2 ^ 64 mod 2 ^ 44). set (m2 := t1 / 2 ^ 24 mod 2 ^ 42).
  assert (ET : t0 + 2 ^ 64 * t1 = m0 + 2 ^ 44 * m1 + 2 ^ 88 * m2) by (subst m0 m1 m2; lia). rewrite ET.
  assert (M0 : 0 <= m0 < 2 ^ 44) by (apply Z.mod_pos_bound; lia). assert (M1 : 0 <= m1 < 2 ^ 44) by (apply Z.mod_pos_bound; lia). assert (M2 : 0 <= m2 < 2 ^ 40) by (subst m2; lia). clearbody m0 m1 m2. clear ET T0 T1 t0 t1.
  rewrite (Z.mod_small (s0 + m0)) by lia. set (c0 := (s0 + m0) / 2 ^ 44). set (a0 := (s0 + m0) mod 2 ^ 44). assert (A0 : 0 <= a0 < 2 ^ 44) by (apply Z.mod_pos_bound; lia). assert (C0 : 0 <= c0 <= 1) by (subst c0; lia).
  assert (E0 : s0 + m0 = a0 + 2 ^ 44 * c0) by (subst a0 c0; lia). clearbody c0 a0.
  rewrite (Z.mod_small (m1 + c0)), (Z.mod_small (s1 + (m1 + c0))) by lia. set (c1 := (s1 + (m1 + c0)) / 2 ^ 44). set (a1 := (s1 + (m1 + c0)) mod 2 ^ 44). assert (A1 : 0 <= a1 < 2 ^ 44) by (apply Z.mod_pos_bound; lia). assert (C1 : 0 <= c1 <= 2) by (subst c1; lia).
  assert (E1 : s1 + (m1 + c0) = a1 + 2 ^ 44 * c1) by (subst a1 c1; lia). clearbody c1 a1.
  rewrite (Z.mod_small (m2 + c1)), (Z.mod_small (s2 + (m2 + c1))) by lia. set (c2 := (s2 + (m2 + c1)) / 2 ^ 42). set (a2 := (s2 + (m2 + c1)) mod 2 ^ 42). assert (A2 : 0 <= a2 < 2 ^ 42) by (apply Z.mod_pos_bound; lia).
  assert (E2 : s2 + (m2 + c1) = a2 + 2 ^ 42 * c2) by (subst a2 c2; lia). clearbody c2 a2.
  cbn [fst snd]. unfold wshl. rewrite !Z.shiftl_mul_pow2 by lia. rewrite (lor_add_disj a0 _ 44) by lia. rewrite (lor_add_disj (a1 / 2 ^ 20) _ 24) by lia.
  unfold v3. replace (s0 + 2 ^ 44 * s1 + 2 ^ 88 * s2 + (m0 + 2 ^ 44 * m1 + 2 ^ 88 * m2)) with (a0 + 2 ^ 44 * a1 + 2 ^ 88 * (a2 + 2 ^ 42 * c2)) by lia. clear - A0 A1 A2. lia.
Qed.
Lemma finish_ok h t0 t1 : h_ok h -> 0 <= t0 < 2 ^ 64 -> 0 <= t1 < 2 ^ 64 ->
  let w := poly_finish h (t0, t1) in 0 <= fst w < 2 ^ 64 /\ 0 <= snd w < 2 ^ 64 /\ fst w + 2 ^ 64 * snd w = (v3 h mod p1305 + (t0 + 2 ^ 64 * t1)) mod 2 ^ 128.
Proof.
  intros Hh T0 T1. rewrite finish_stages. destruct (carries_ok h Hh) as [X1 X2]. pose proof (select_ok _ X1) as Y. cbv zeta in Y. destruct (select (carries h)) as [[s0 s1] s2] eqn:E. destruct Y as (Y0 & Y1 & Y2 & Y3).
  rewrite <- X2, <- Y3. apply addpad_ok; auto.
Qed.
