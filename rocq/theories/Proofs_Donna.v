(** 128-bit arithmetic in two halves. *)
From Verif Require Import BaseLemmas Model_Poly1305 Session_Poly.
Open Scope Z_scope.

Lemma land_ones_mod x n : 0 <= n -> Z.land x (2 ^ n - 1) = x mod 2 ^ n.
Proof. intros. rewrite <- Z.land_ones by lia. now rewrite Z.ones_equiv, <- Z.sub_1_r. Qed.
Lemma lor_add_disj a b n : 0 <= n -> 0 <= a < 2 ^ n -> b mod 2 ^ n = 0 -> Z.lor a b = a + b.
Proof.
  intros Hn Ha Hb. rewrite (Z.div_mod b (2 ^ n)) by lia. rewrite Hb, Z.add_0_r, Z.mul_comm. rewrite <- Z.shiftl_mul_pow2 by lia.
  rewrite lor_shiftl_add by lia. rewrite Z.shiftl_mul_pow2 by lia. lia.
Qed.
Lemma mul_parts ah al bh bl : 0 <= ah < 2 ^ 32 -> 0 <= al < 2 ^ 32 -> 0 <= bh < 2 ^ 32 -> 0 <= bl < 2 ^ 32 ->
  exists p0 p1 p2 p3, p0 = ah * bh /\ p1 = al * bh /\ p2 = ah * bl /\ p3 = al * bl /\ (al + 2 ^ 32 * ah) * (bl + 2 ^ 32 * bh) = p3 + 2 ^ 32 * (p1 + p2) + 2 ^ 64 * p0 /\
    0 <= p0 <= (2 ^ 32 - 1) * (2 ^ 32 - 1) /\ 0 <= p1 <= (2 ^ 32 - 1) * (2 ^ 32 - 1) /\ 0 <= p2 <= (2 ^ 32 - 1) * (2 ^ 32 - 1) /\ 0 <= p3 <= (2 ^ 32 - 1) * (2 ^ 32 - 1).
Proof.
  intros. exists (ah * bh), (al * bh), (ah * bl), (al * bl). repeat (split; [reflexivity|]).
  assert (E : forall x y, 0 <= x < 2 ^ 32 -> 0 <= y < 2 ^ 32 -> 0 <= x * y <= (2 ^ 32 - 1) * (2 ^ 32 - 1)) by (intros; split; [apply Z.mul_nonneg_nonneg; lia|apply Z.mul_le_mono_nonneg; lia]).
  split; [ring|]. auto.
Qed.
Lemma mul_ok x y : 0 <= x < 2 ^ 64 -> 0 <= y < 2 ^ 64 -> d_val (Mul64x64To128 x y) = x * y /\ d_ok (Mul64x64To128 x y).
Proof.
  intros Hx Hy. unfold Mul64x64To128. change 0xFFFFFFFF with (2 ^ 32 - 1). rewrite !land_ones_mod by lia. unfold u32, u64, wshr, wshl. rewrite !Z.shiftr_div_pow2, !Z.shiftl_mul_pow2 by lia.
  set (ah := x / 2 ^ 32 mod 2 ^ 32). set (al := x mod 2 ^ 32 mod 2 ^ 32). set (bh := y / 2 ^ 32 mod 2 ^ 32). set (bl := y mod 2 ^ 32 mod 2 ^ 32).
  assert (Ex : x = al + 2 ^ 32 * ah) by (subst ah al; lia). assert (Ey : y = bl + 2 ^ 32 * bh) by (subst bh bl; lia).
  destruct (mul_parts ah al bh bl (Z.mod_pos_bound _ (2 ^ 32) eq_refl) (Z.mod_pos_bound _ (2 ^ 32) eq_refl) (Z.mod_pos_bound _ (2 ^ 32) eq_refl) (Z.mod_pos_bound _ (2 ^ 32) eq_refl)) as (p0 & p1 & p2 & p3 & E0 & E1 & E2 & E3 & E & B0 & B1 & B2 & B3).
  rewrite Ex, Ey, E. rewrite <- E0, <- E1, <- E2, <- E3. clearbody ah al bh bl. clear E0 E1 E2 E3 E Ex Ey Hx Hy x y ah al bh bl.
  rewrite (Z.mod_small p0), (Z.mod_small p1), (Z.mod_small p2), (Z.mod_small p3) by lia. rewrite (Z.mod_small (p2 + p3 / 2 ^ 32)) by lia.
  unfold d_val, d_ok. cbn [d_low d_high].
  destruct (Z.ltb_spec ((p2 + p3 / 2 ^ 32 + p1) mod 2 ^ 64) p1) as [L|L].
  - assert (EQ : (p2 + p3 / 2 ^ 32 + p1) mod 2 ^ 64 = p2 + p3 / 2 ^ 32 + p1 - 2 ^ 64) by lia. rewrite EQ. split; lia.
  - assert (EQ : (p2 + p3 / 2 ^ 32 + p1) mod 2 ^ 64 = p2 + p3 / 2 ^ 32 + p1) by lia. rewrite EQ. split; lia.
Qed.
Lemma add_ok x y : d_ok x -> d_ok y -> d_val (donna_add x y) = (d_val x + d_val y) mod 2 ^ 128 /\ d_ok (donna_add x y).
Proof.
  destruct x as [a b], y as [c d]. unfold d_ok, d_val, donna_add, u64. cbn [d_low d_high]. intros [A B] [C D]. destruct (Z.ltb_spec ((a + c) mod 2 ^ 64) c); split; lia.
Qed.
Lemma addw_ok x y : d_ok x -> 0 <= y < 2 ^ 64 -> d_val (donna_addw x y) = (d_val x + y) mod 2 ^ 128 /\ d_ok (donna_addw x y).
Proof.
  destruct x as [a b]. unfold d_ok, d_val, donna_addw, u64. cbn [d_low d_high]. intros [A B] C. destruct (Z.ltb_spec ((a + y) mod 2 ^ 64) y); split; lia.
Qed.
Lemma shr_parts a b n : 0 < n < 64 -> 0 <= a < 2 ^ 64 -> 0 <= b < 2 ^ 64 -> Z.lor (wshr a n) (wshl 64 b (64 - n)) = (a + 2 ^ 64 * b) / 2 ^ n mod 2 ^ 64.
Proof.
  intros Hn Ha Hb. apply Z.bits_inj'. intros i Hi. unfold wshr, wshl. rewrite Z.lor_spec, Z.shiftr_spec, testbit_mod by lia. rewrite testbit_mod by lia. rewrite Z.shiftl_spec by lia. rewrite <- Z.shiftr_div_pow2 by lia. rewrite Z.shiftr_spec by lia.
  replace (a + 2 ^ 64 * b) with (Z.lor a (Z.shiftl b 64)) by (apply lor_shiftl_add; lia). rewrite Z.lor_spec, Z.shiftl_spec by lia.
  destruct (Z.ltb_spec i 64); cbn [andb].
  - f_equal. f_equal. lia.
  - rewrite (Z.bits_above_log2 a (i + n)); [reflexivity|lia|]. destruct (Z.eq_dec a 0) as [->|]; [cbn; lia|]. apply Z.log2_lt_pow2; [lia|]. apply Z.lt_le_trans with (2 ^ 64); [lia|apply Z.pow_le_mono_r; lia].
Qed.
Lemma carry_ok x n : d_ok x -> 0 < n < 64 -> donna_carry x n = Ok (d_val x / 2 ^ n mod 2 ^ 64).
Proof.
  destruct x as [a b]. unfold d_ok, d_val, donna_carry, donna_shr. cbn [d_low d_high]. intros [A B] Hn. replace (n =? 0) with false by (symmetry; apply Z.eqb_neq; lia).
  replace ((0 <? 64 - n) && (64 - n <? 64)) with true by (symmetry; apply andb_true_intro; split; apply Z.ltb_lt; lia). cbn [safe bind d_low]. now rewrite shr_parts.
Qed.
(** the operators themselves exchange the halves *)
Lemma shr_swapped x n : d_ok x -> 0 < n < 64 -> exists z, donna_shr x n = Ok z /\ d_val z = (d_high x + 2 ^ 64 * d_low x) / 2 ^ n.
Proof.
  destruct x as [a b]. unfold d_ok, donna_shr. cbn [d_low d_high]. intros [A B] Hn. replace (n =? 0) with false by (symmetry; apply Z.eqb_neq; lia).
  replace ((0 <? 64 - n) && (64 - n <? 64)) with true by (symmetry; apply andb_true_intro; split; apply Z.ltb_lt; lia). cbn [safe bind]. eexists. split; [reflexivity|]. unfold d_val. cbn [d_low d_high].
  rewrite shr_parts by lia. unfold wshr. rewrite Z.shiftr_div_pow2 by lia. assert (P : 0 < 2 ^ n) by (apply Z.pow_pos_nonneg; lia).
  assert (Q : a / 2 ^ n = (b + 2 ^ 64 * a) / 2 ^ n / 2 ^ 64).
  { rewrite Z.div_div, (Z.mul_comm (2 ^ n)), <- Z.div_div by lia. rewrite Z.mul_comm, Z.div_add by lia. now rewrite (Z.div_small b), Z.add_0_l by lia. }
  rewrite Q. generalize ((b + 2 ^ 64 * a) / 2 ^ n). intros z. lia.
Qed.

(** ** the two forms of the arithmetic *)
Record wide_ok {W} (X : wide W) (V : W -> Z) (I : W -> Prop) : Prop := {
  wk_of : forall x, 0 <= x < 2 ^ 64 -> V (w_of X x) = x /\ I (w_of X x);
  wk_mul : forall x y, 0 <= x < 2 ^ 64 -> 0 <= y < 2 ^ 64 -> V (w_mul X (w_of X x) y) = x * y /\ I (w_mul X (w_of X x) y);
  wk_add : forall a b, I a -> I b -> V a + V b < 2 ^ 128 -> V (w_add X a b) = V a + V b /\ I (w_add X a b);
  wk_addw : forall a y, I a -> 0 <= y < 2 ^ 64 -> V a + y < 2 ^ 128 -> V (w_addw X a y) = V a + y /\ I (w_addw X a y);
  wk_and : forall a n, I a -> 0 <= n <= 64 -> w_and X a (2 ^ n - 1) = V a mod 2 ^ n;
  wk_carry : forall a n, I a -> 0 < n < 64 -> V a / 2 ^ n < 2 ^ 64 -> w_carry X a n = Ok (V a / 2 ^ n);
  wk_pos : forall a, I a -> 0 <= V a }.
Lemma native_ok : wide_ok native (fun x => x) (fun x => 0 <= x < 2 ^ 128).
Proof.
  constructor; cbn [native w_of w_mul w_add w_addw w_and w_carry]; intros.
  - split; lia.
  - assert (0 <= x * y < 2 ^ 128) by nia. split; [apply Z.mod_small; lia|apply Z.mod_pos_bound; lia].
  - split; [apply Z.mod_small; lia|apply Z.mod_pos_bound; lia].
  - split; [apply Z.mod_small; lia|apply Z.mod_pos_bound; lia].
  - rewrite land_ones_mod by lia. unfold u64. apply Z.mod_small. assert (0 < 2 ^ n) by (apply Z.pow_pos_nonneg; lia). assert (2 ^ n <= 2 ^ 64) by (apply Z.pow_le_mono_r; lia). pose proof (Z.mod_pos_bound a (2 ^ n)). lia.
  - unfold u64, wshr. rewrite Z.shiftr_div_pow2 by lia. rewrite Z.mod_small; [reflexivity|]. split; [apply Z.div_pos; [lia|apply Z.pow_pos_nonneg; lia]|lia].
  - lia.
Qed.
Lemma donna128_ok : wide_ok donna128 d_val d_ok.
Proof.
  constructor; cbn [donna128 w_of w_mul w_add w_addw w_and w_carry]; intros.
  - unfold d_val, d_ok. cbn. lia.
  - unfold donna_mul. cbn [d_low]. now apply mul_ok.
  - destruct (add_ok a b) as [E1 E2]; auto. rewrite E1. split; [apply Z.mod_small|exact E2]. unfold d_val, d_ok in *. lia.
  - destruct (addw_ok a y) as [E1 E2]; auto. rewrite E1. split; [apply Z.mod_small|exact E2]. unfold d_val, d_ok in *. lia.
  - unfold donna_and. rewrite land_ones_mod by lia. unfold d_val. replace (2 ^ 64) with (2 ^ (64 - n) * 2 ^ n) by (rewrite <- Z.pow_add_r by lia; f_equal; lia).
    rewrite (Z.mul_comm (2 ^ (64 - n))), <- Z.mul_assoc, Z.mul_comm, Z.mod_add; [reflexivity|]. apply Z.pow_nonzero; lia.
  - rewrite carry_ok by auto. rewrite Z.mod_small; [reflexivity|]. split; [|lia]. apply Z.div_pos; [unfold d_val, d_ok in *; lia|apply Z.pow_pos_nonneg; lia].
  - unfold d_val, d_ok in *. lia.
Qed.
