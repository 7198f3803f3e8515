(** Noise: the bits of a byte string as centred binomial coefficients. *)
From Verif Require Import BaseLemmas Proofs_IntegerTools Spec_Keccak Model_Keccak Spec_Kyber Model_Kyber Model_Modes Proofs_Windows Proofs_Keccak Proofs_SHA3 Proofs_XOF Proofs_Kyber Proofs_Kyber5 Proofs_Kyber9 Proofs_Kyber10.
Open Scope Z_scope.

(** * sums of masked shifts, digit by digit *)
Fixpoint MK (W m : Z) (k : nat) : Z := match k with O => 0 | S k => m + W * MK W m k end.
Fixpoint EE (W m s : Z) (k : nat) (t : Z) : Z := match k with O => 0 | S k => Z.land (t mod W / 2 ^ s) m + W * EE W m s k (t / W) end.
Lemma land_split w x m M : 0 <= w -> 0 <= m < 2 ^ w -> Z.land x (m + 2 ^ w * M) = Z.land (x mod 2 ^ w) m + 2 ^ w * Z.land (x / 2 ^ w) M.
Proof.
  intros Hw Hm. apply Z.bits_inj'. intros i Hi. rewrite Z.land_spec.
  assert (Hl : 0 <= Z.land (x mod 2 ^ w) m < 2 ^ w).
  { split; [apply Z.land_nonneg; right; lia|]. replace m with (m mod 2 ^ w) by (apply Z.mod_small; lia). rewrite <- !Z.land_ones, <- Z.land_assoc, (Z.land_comm (Z.ones w)), <- !Z.land_assoc, Z.land_diag, !Z.land_assoc, Z.land_ones by lia. apply Z.mod_pos_bound. lia. }
  assert (T : forall a b, 0 <= a < 2 ^ w -> Z.testbit (a + 2 ^ w * b) i = if i <? w then Z.testbit a i else Z.testbit b (i - w)).
  { intros a b Ha. destruct (Z.ltb_spec i w).
    - rewrite <- (Z.mod_pow2_bits_low (a + 2 ^ w * b) w i) by lia. rewrite Z.mul_comm, Z_mod_plus_full, Z.mod_small by exact Ha. reflexivity.
    - rewrite <- (Z.sub_add w i) at 1. rewrite <- Z.div_pow2_bits by lia. rewrite Z.mul_comm, Z.div_add, Z.div_small by lia. f_equal. }
  rewrite !T by assumption. destruct (Z.ltb_spec i w).
  - rewrite Z.land_spec, Z.mod_pow2_bits_low by lia. reflexivity.
  - rewrite Z.land_spec, Z.div_pow2_bits by lia. now rewrite Z.sub_add.
Qed.
Lemma EE_eq w m s k : forall t, 0 <= s -> s <= w -> 0 <= m < 2 ^ (w - s) -> 0 <= t -> Z.land (Z.shiftr t s) (MK (2 ^ w) m k) = EE (2 ^ w) m s k t.
Proof.
  induction k as [|k IH]; intros t H1 H2 H3 Ht; cbn [MK EE]; [apply Z.land_0_r|].
  assert (P1 : 0 < 2 ^ s) by lia. assert (P2 : 0 < 2 ^ (w - s)) by lia. assert (PW : 2 ^ w = 2 ^ (w - s) * 2 ^ s) by (rewrite <- Z.pow_add_r by lia; f_equal; lia).
  rewrite land_split by nia. rewrite <- IH by (try assumption; apply Z.div_pos; lia). rewrite !Z.shiftr_div_pow2 by exact H1. f_equal.
  - apply Z.bits_inj'. intros i Hi. rewrite !Z.land_spec. destruct (Z.ltb_spec i (w - s)).
    + rewrite Z.mod_pow2_bits_low, !Z.div_pow2_bits, Z.mod_pow2_bits_low by lia. reflexivity.
    + replace (Z.testbit m i) with false; [now rewrite !andb_false_r|]. symmetry. replace m with (m mod 2 ^ (w - s)) by (apply Z.mod_small; lia). apply Z.mod_pow2_bits_high. lia.
  - do 2 f_equal. rewrite !Z.div_div by lia. f_equal. lia.
Qed.
Lemma div_step w j y : 0 < w -> y / 2 ^ (w * Z.of_nat (S j)) = y / 2 ^ w / 2 ^ (w * Z.of_nat j).
Proof.
  intros Hw. assert (H : 0 <= w * Z.of_nat j) by (apply Z.mul_nonneg_nonneg; lia). replace (w * Z.of_nat (S j)) with (w + w * Z.of_nat j) by (rewrite Nat2Z.inj_succ; ring). revert H. generalize (w * Z.of_nat j). intros v H.
  rewrite Z.pow_add_r by lia. rewrite Z.div_div; [reflexivity| |]; [apply Z.pow_nonzero; lia|apply Z.pow_pos_nonneg; lia].
Qed.
Section Digits.
  Variables (w : Z) (g : Z -> Z) (G : nat -> Z -> Z).
  Hypothesis Hw : 0 < w.
  Hypothesis G0 : forall t, G 0 t = 0.
  Hypothesis GS : forall k t, G (S k) t = g (t mod 2 ^ w) + 2 ^ w * G k (t / 2 ^ w).
  Hypothesis Hg : forall a, 0 <= a < 2 ^ w -> 0 <= g a < 2 ^ w.
  Lemma dig_range k : forall t, 0 <= G k t < (2 ^ w) ^ Z.of_nat k.
  Proof using G0 GS Hg Hw.
    induction k as [|k IH]; intros t; [rewrite G0; cbn; lia|]. rewrite GS. pose proof (Hg (t mod 2 ^ w) ltac:(apply Z.mod_pos_bound; lia)). specialize (IH (t / 2 ^ w)).
    rewrite Nat2Z.inj_succ, Z.pow_succ_r by lia. nia.
  Qed.
  Lemma dig_at j : forall k t, (j < k)%nat -> (G k t / 2 ^ (w * Z.of_nat j)) mod 2 ^ w = g ((t / 2 ^ (w * Z.of_nat j)) mod 2 ^ w).
  Proof using G0 GS Hg Hw.
    induction j as [|j IH]; intros k t H; (destruct k as [|k]; [lia|]); rewrite GS; pose proof (Hg (t mod 2 ^ w) ltac:(apply Z.mod_pos_bound; lia)) as R.
    - rewrite Z.mul_0_r, Z.pow_0_r, !Z.div_1_r. rewrite Z.mul_comm, Z_mod_plus_full. now rewrite (Z.mod_small (g _)).
    - rewrite !div_step by exact Hw. rewrite <- IH with (k := k) by lia. do 2 f_equal. rewrite Z.mul_comm, Z.div_add by (apply Z.pow_nonzero; clear - Hw; lia). rewrite Z.div_small by exact R. apply Z.add_0_l.
  Qed.
End Digits.

(** * bits of byte strings *)
Lemma bit_val b : bytes b -> forall i, (i < 8 * length b)%nat -> bit_at b i = (le_val b / 2 ^ Z.of_nat i) mod 2.
Proof.
  induction b as [|x b IH]; intros Hb i Hi; cbn [length] in Hi; [lia|]. inversion Hb as [|? ? Hx Hb']; subst. unfold is_byte in Hx. unfold bit_at. cbn [le_val].
  destruct (lt_dec i 8) as [L|L].
  - rewrite (Nat.div_small i 8), (Nat.mod_small i 8) by lia. cbn [nth]. replace 256 with (2 ^ Z.of_nat i * (2 * 2 ^ (7 - Z.of_nat i))).
    2:{ rewrite <- Z.pow_succ_r, <- Z.pow_add_r by lia. replace (Z.of_nat i + Z.succ (7 - Z.of_nat i)) with 8 by lia. reflexivity. }
    replace (x + 2 ^ Z.of_nat i * (2 * 2 ^ (7 - Z.of_nat i)) * le_val b) with (x + (2 ^ (7 - Z.of_nat i) * le_val b * 2) * 2 ^ Z.of_nat i) by ring. rewrite Z.div_add by lia. now rewrite Z_mod_plus_full.
  - specialize (IH Hb' (i - 8)%nat ltac:(lia)). unfold bit_at in IH. replace i with (i - 8 + 1 * 8)%nat at 1 2 by lia. rewrite Nat.div_add, Nat.mod_add by lia. rewrite Nat.add_1_r. cbn [nth]. rewrite IH.
    f_equal. replace (2 ^ Z.of_nat i) with (2 ^ 8 * 2 ^ Z.of_nat (i - 8)) by (rewrite <- Z.pow_add_r by lia; f_equal; lia). rewrite <- Z.div_div by lia. f_equal. change (2 ^ 8) with 256. rewrite Z.mul_comm, Z.div_add, Z.div_small by lia. lia.
Qed.
Lemma bit_slice b o n i : (o + n <= length b)%nat -> (i < 8 * n)%nat -> bit_at (slice b o n) i = bit_at b (8 * o + i).
Proof.
  intros Ho Hi. unfold bit_at. assert (i / 8 < n)%nat by (apply Nat.div_lt_upper_bound; lia). rewrite BaseLemmas.nth_slice by lia. replace (8 * o + i)%nat with (i + o * 8)%nat by lia. rewrite Nat.div_add, Nat.mod_add by lia. now rewrite (Nat.add_comm (i / 8) o).
Qed.
Lemma dig_bit w t j k : 0 < w -> 0 <= t -> (Z.of_nat k < w) -> ((t / 2 ^ (w * Z.of_nat j)) mod 2 ^ w / 2 ^ Z.of_nat k) mod 2 = (t / 2 ^ (w * Z.of_nat j + Z.of_nat k)) mod 2.
Proof.
  intros Hw Ht Hk. rewrite <- !Z.bit0_mod, !Z.div_pow2_bits by lia. rewrite Z.mod_pow2_bits_low by lia. rewrite Z.div_pow2_bits by lia. now f_equal; f_equal; lia.
Qed.
Definition g2 (a : Z) : Z := Z.land (a / 2 ^ 0) 5 + Z.land (a / 2 ^ 1) 5.
Definition g3 (a : Z) : Z := Z.land (a / 2 ^ 0) 9 + Z.land (a / 2 ^ 1) 9 + Z.land (a / 2 ^ 2) 9.
Lemma fin_check n (f : Z -> bool) a : forallb f (map Z.of_nat (seq 0 n)) = true -> 0 <= a < Z.of_nat n -> f a = true.
Proof. intros H Ha. rewrite forallb_forall in H. apply H. rewrite <- (Z2Nat.id a) by lia. apply in_map, in_seq. lia. Qed.
Lemma g2_range a : 0 <= a < 2 ^ 4 -> 0 <= g2 a < 2 ^ 4.
Proof. intros H. assert (C := fin_check 16 (fun a => (0 <=? g2 a) && (g2 a <? 2 ^ 4)) a ltac:(vm_compute; reflexivity) H). cbv beta in C. apply andb_prop in C. destruct C as [C1 C2]. apply Z.leb_le in C1. apply Z.ltb_lt in C2. lia. Qed.
Lemma g3_range a : 0 <= a < 2 ^ 6 -> 0 <= g3 a < 2 ^ 6.
Proof. intros H. assert (C := fin_check 64 (fun a => (0 <=? g3 a) && (g3 a <? 2 ^ 6)) a ltac:(vm_compute; reflexivity) H). cbv beta in C. apply andb_prop in C. destruct C as [C1 C2]. apply Z.leb_le in C1. apply Z.ltb_lt in C2. lia. Qed.
Lemma g2_val a : 0 <= a < 2 ^ 4 -> Z.land (g2 a) 3 - Z.land (g2 a / 2 ^ 2) 3 = zsum 2 (fun k => (a / 2 ^ Z.of_nat k) mod 2) - zsum 2 (fun k => (a / 2 ^ Z.of_nat (2 + k)) mod 2).
Proof. intros H. assert (C := fin_check 16 (fun a => Z.land (g2 a) 3 - Z.land (g2 a / 2 ^ 2) 3 =? zsum 2 (fun k => (a / 2 ^ Z.of_nat k) mod 2) - zsum 2 (fun k => (a / 2 ^ Z.of_nat (2 + k)) mod 2)) a ltac:(vm_compute; reflexivity) H). now apply Z.eqb_eq in C. Qed.
Lemma g3_val a : 0 <= a < 2 ^ 6 -> Z.land (g3 a) 7 - Z.land (g3 a / 2 ^ 3) 7 = zsum 3 (fun k => (a / 2 ^ Z.of_nat k) mod 2) - zsum 3 (fun k => (a / 2 ^ Z.of_nat (3 + k)) mod 2).
Proof. intros H. assert (C := fin_check 64 (fun a => Z.land (g3 a) 7 - Z.land (g3 a / 2 ^ 3) 7 =? zsum 3 (fun k => (a / 2 ^ Z.of_nat k) mod 2) - zsum 3 (fun k => (a / 2 ^ Z.of_nat (3 + k)) mod 2)) a ltac:(vm_compute; reflexivity) H). now apply Z.eqb_eq in C. Qed.
Definition G2 (k : nat) (t : Z) : Z := EE (2 ^ 4) 5 0 k t + EE (2 ^ 4) 5 1 k t.
Definition G3 (k : nat) (t : Z) : Z := EE (2 ^ 6) 9 0 k t + EE (2 ^ 6) 9 1 k t + EE (2 ^ 6) 9 2 k t.
Lemma G2_S k t : G2 (S k) t = g2 (t mod 2 ^ 4) + 2 ^ 4 * G2 k (t / 2 ^ 4). Proof. unfold G2, g2. cbn [EE]. ring. Qed.
Lemma G3_S k t : G3 (S k) t = g3 (t mod 2 ^ 6) + 2 ^ 6 * G3 k (t / 2 ^ 6). Proof. unfold G3, g3. cbn [EE]. ring. Qed.
Lemma land_field w d o f : 0 <= o -> 0 <= f -> o + f <= w -> Z.land (Z.shiftr d o) (Z.ones f) = Z.land (d mod 2 ^ w / 2 ^ o) (Z.ones f).
Proof.
  intros Ho Hf Hw. apply Z.bits_inj'. intros i Hi. rewrite !Z.land_spec, Z.shiftr_spec, Z.div_pow2_bits by lia. destruct (Z.ltb_spec i f).
  - now rewrite Z.mod_pow2_bits_low by lia.
  - rewrite Z.ones_spec_high by lia. now rewrite !andb_false_r.
Qed.
Definition cbd_at (eta : nat) (b : list Z) (i : nat) : Z := zsum eta (fun k => bit_at b (2 * eta * i + k)) - zsum eta (fun k => bit_at b (2 * eta * i + eta + k)).
Lemma zsum_ext n f g : (forall k, (k < n)%nat -> f k = g k) -> zsum n f = zsum n g.
Proof. induction n as [|n IH]; intros H; [reflexivity|]. cbn [zsum]. rewrite H by lia. rewrite IH; [reflexivity|]. intros k Hk. apply H. lia. Qed.
Lemma cbd2_at b j : bytes b -> length b = 4%nat -> (j < 8)%nat -> nth j (cbd2_group b) 0 = cbd_at 2 b j.
Proof.
  intros Hb L Hj. set (t := le_val b). pose proof (le_val_range b Hb) as Ht. fold t in Ht.
  assert (E : cbd2_group b = map (fun j => Z.land (Z.shiftr (G2 8 t) (4 * j)) 3 - Z.land (Z.shiftr (G2 8 t) (4 * j + 2)) 3) [0; 1; 2; 3; 4; 5; 6; 7]).
  { unfold cbd2_group. fold t. cbv zeta. f_equal.
    assert (E1 : Z.land t 0x55555555 = EE (2 ^ 4) 5 0 8 t) by (rewrite <- (EE_eq 4 5 0 8 t) by lia; rewrite Z.shiftr_0_r; reflexivity).
    assert (E2 : Z.land (Z.shiftr t 1) 0x55555555 = EE (2 ^ 4) 5 1 8 t) by (rewrite <- (EE_eq 4 5 1 8 t) by lia; reflexivity).
    rewrite E1, E2. unfold u32. fold (G2 8 t). pose proof (dig_range 4 g2 G2 ltac:(lia) (fun _ => eq_refl) G2_S g2_range 8 t) as R. rewrite Z.mod_small; [reflexivity|]. change (2 ^ 32) with ((2 ^ 4) ^ Z.of_nat 8). exact R. }
  rewrite E. clear E.
  assert (N : forall f : Z -> Z, nth j (map f [0; 1; 2; 3; 4; 5; 6; 7]) 0 = f (Z.of_nat j)) by (intros f; do 8 (destruct j as [|j]; [reflexivity|]); lia). rewrite N. clear N.
  assert (D := dig_at 4 g2 G2 ltac:(lia) (fun _ => eq_refl) G2_S g2_range j 8 t Hj).
  set (a := (t / 2 ^ (4 * Z.of_nat j)) mod 2 ^ 4) in *. assert (Ha : 0 <= a < 2 ^ 4) by (apply Z.mod_pos_bound; lia).
  replace (Z.land (Z.shiftr (G2 8 t) (4 * Z.of_nat j)) 3) with (Z.land (g2 a) 3).
  2:{ rewrite <- D. change 3 with (Z.ones 2). rewrite <- (Z.div_1_r (_ mod _)). change 1 with (2 ^ 0) at 1. rewrite <- (land_field 4 _ 0 2) by lia. rewrite Z.shiftr_0_r. now rewrite Z.shiftr_div_pow2 by lia. }
  replace (Z.land (Z.shiftr (G2 8 t) (4 * Z.of_nat j + 2)) 3) with (Z.land (g2 a / 2 ^ 2) 3).
  2:{ rewrite <- D. change 3 with (Z.ones 2). rewrite <- (land_field 4 _ 2 2) by lia. rewrite <- Z.shiftr_shiftr by lia. now rewrite (Z.shiftr_div_pow2 _ (4 * Z.of_nat j)) by lia. }
  rewrite g2_val by exact Ha. unfold cbd_at. f_equal; apply zsum_ext; intros k Hk; rewrite bit_val by (auto; lia); fold t; unfold a; rewrite dig_bit by lia; do 3 f_equal; lia.
Qed.
Lemma cbd3_at b j : bytes b -> length b = 3%nat -> (j < 4)%nat -> nth j (cbd3_group b) 0 = cbd_at 3 b j.
Proof.
  intros Hb L Hj. set (t := le_val b). pose proof (le_val_range b Hb) as Ht. fold t in Ht.
  assert (E : cbd3_group b = map (fun j => Z.land (Z.shiftr (G3 4 t) (6 * j + 0)) 7 - Z.land (Z.shiftr (G3 4 t) (6 * j + 3)) 7) [0; 1; 2; 3]).
  { unfold cbd3_group. fold t. cbv zeta. f_equal.
    assert (E1 : Z.land t 0x00249249 = EE (2 ^ 6) 9 0 4 t) by (rewrite <- (EE_eq 6 9 0 4 t) by lia; rewrite Z.shiftr_0_r; reflexivity).
    assert (E2 : Z.land (Z.shiftr t 1) 0x00249249 = EE (2 ^ 6) 9 1 4 t) by (rewrite <- (EE_eq 6 9 1 4 t) by lia; reflexivity).
    assert (E3 : Z.land (Z.shiftr t 2) 0x00249249 = EE (2 ^ 6) 9 2 4 t) by (rewrite <- (EE_eq 6 9 2 4 t) by lia; reflexivity).
    assert (P : 0 <= EE (2 ^ 6) 9 2 4 t) by (rewrite <- E3; apply Z.land_nonneg; right; lia). assert (P0 : 0 <= EE (2 ^ 6) 9 0 4 t + EE (2 ^ 6) 9 1 4 t) by (rewrite <- E1, <- E2; apply Z.add_nonneg_nonneg; apply Z.land_nonneg; right; lia).
    pose proof (dig_range 6 g3 G3 ltac:(lia) (fun _ => eq_refl) G3_S g3_range 4 t) as R. change ((2 ^ 6) ^ Z.of_nat 4) with (2 ^ 24) in R.
    rewrite E1, E2, E3. unfold u32. unfold G3 in *. rewrite (Z.mod_small (_ + EE (2 ^ 6) 9 1 4 t)) by lia. rewrite Z.mod_small by lia. reflexivity. }
  rewrite E. clear E.
  assert (N : forall f : Z -> Z, nth j (map f [0; 1; 2; 3]) 0 = f (Z.of_nat j)) by (intros f; do 4 (destruct j as [|j]; [reflexivity|]); lia). rewrite N. clear N.
  assert (D := dig_at 6 g3 G3 ltac:(lia) (fun _ => eq_refl) G3_S g3_range j 4 t Hj).
  set (a := (t / 2 ^ (6 * Z.of_nat j)) mod 2 ^ 6) in *. assert (Ha : 0 <= a < 2 ^ 6) by (apply Z.mod_pos_bound; lia).
  replace (Z.land (Z.shiftr (G3 4 t) (6 * Z.of_nat j + 0)) 7) with (Z.land (g3 a) 7).
  2:{ rewrite <- D, Z.add_0_r. change 7 with (Z.ones 3). rewrite <- (Z.div_1_r (_ mod _)). change 1 with (2 ^ 0) at 1. rewrite <- (land_field 6 _ 0 3) by lia. rewrite Z.shiftr_0_r. now rewrite Z.shiftr_div_pow2 by lia. }
  replace (Z.land (Z.shiftr (G3 4 t) (6 * Z.of_nat j + 3)) 7) with (Z.land (g3 a / 2 ^ 3) 7).
  2:{ rewrite <- D. change 7 with (Z.ones 3). rewrite <- (land_field 6 _ 3 3) by lia. rewrite <- Z.shiftr_shiftr by lia. now rewrite (Z.shiftr_div_pow2 _ (6 * Z.of_nat j)) by lia. }
  rewrite g3_val by exact Ha. unfold cbd_at. f_equal; apply zsum_ext; intros k Hk; rewrite bit_val by (auto; lia); fold t; unfold a; rewrite dig_bit by lia; do 3 f_equal; lia.
Qed.
