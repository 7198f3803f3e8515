(** Every Keccak permutation is invertible: theta, rho, pi, chi and iota have finite order. *)
From Verif Require Import BaseLemmas Spec_Keccak Proofs_Keccak.
Open Scope Z_scope.

Definition bit (A : list Z) (x y : nat) (z : Z) : bool := Z.testbit (lane A x y) (z mod 64).
Lemma lane_nth A i : (i < 25)%nat -> lane A (i mod 5) (i / 5) = nth i A 0.
Proof.
  intros Hi. unfold lane. f_equal. rewrite Nat.mod_mod by lia. rewrite (Nat.mod_small (i / 5)) by (apply Nat.div_lt_upper_bound; lia).
  pose proof (Nat.div_mod i 5). lia.
Qed.
Lemma bit_ext A B : st_ok A -> st_ok B -> (forall x y z, bit A x y z = bit B x y z) -> A = B.
Proof.
  intros HA HB H. apply (list_ext 0); [now rewrite (proj1 HA), (proj1 HB)|]. intros i Hi. rewrite (proj1 HA) in Hi.
  rewrite <- !lane_nth by auto. pose proof (lane_in A (i mod 5) (i / 5) HA) as R1. pose proof (lane_in B (i mod 5) (i / 5) HB) as R2.
  apply Z.bits_inj'. intros z Hz. destruct (Z_lt_le_dec z 64) as [Hl|Hl].
  - specialize (H (i mod 5)%nat (i / 5)%nat z). unfold bit in H. now rewrite Z.mod_small in H by lia.
  - rewrite !(testbit_high 64) by (unfold lane_ok in *; lia). reflexivity.
Qed.
Lemma lane_lanes f x y : lane (lanes f) x y = f (x mod 5)%nat (y mod 5)%nat.
Proof.
  pose proof (Nat.mod_upper_bound x 5 ltac:(lia)) as Hx. pose proof (Nat.mod_upper_bound y 5 ltac:(lia)) as Hy.
  unfold lane, lanes. set (i := (x mod 5 + 5 * (y mod 5))%nat).
  rewrite nth_indep with (d' := f (0 mod 5)%nat (0 / 5)%nat) by (rewrite map_length, seq_length; lia).
  rewrite (map_nth (fun i => f (i mod 5)%nat (i / 5)%nat)). rewrite seq_nth by lia. cbn [Nat.add]. unfold i.
  rewrite (Nat.mul_comm 5), Nat.mod_add, Nat.div_add by lia. rewrite Nat.mod_mod by lia. f_equal. rewrite Nat.div_small by lia. lia.
Qed.
Lemma lane_mod A x y : lane A (x mod 5) (y mod 5) = lane A x y.
Proof. unfold lane. now rewrite !Nat.mod_mod by lia. Qed.
Lemma lane_modx A x y : lane A (x mod 5) y = lane A x y.
Proof. unfold lane. now rewrite !Nat.mod_mod by lia. Qed.
Lemma lane_eqx A x x' y : (x mod 5 = x' mod 5)%nat -> lane A x y = lane A x' y.
Proof. unfold lane. now intros ->. Qed.
Lemma lane_mody A x y : lane A x (y mod 5) = lane A x y.
Proof. unfold lane. now rewrite !Nat.mod_mod by lia. Qed.
Lemma rotl_bit n x z : 0 <= n < 64 -> lane_ok x -> Z.testbit (rotl64 n x) (z mod 64) = Z.testbit x ((z - n) mod 64).
Proof.
  intros Hn Hx. pose proof (Z.mod_pos_bound z 64 ltac:(lia)) as Hz. unfold rotl64. rewrite Z.lor_spec.
  rewrite Z.mod_pow2_bits_low by lia. rewrite Z.shiftl_spec, Z.shiftr_spec by lia.
  set (t := z mod 64) in *. assert (Ht : (z - n) mod 64 = if t <? n then t - n + 64 else t - n).
  { destruct (t <? n) eqn:E; subst t; lia. }
  rewrite Ht. destruct (t <? n) eqn:E.
  - rewrite (Z.testbit_neg_r _ (t - n)) by lia. cbn [orb]. f_equal. lia.
  - rewrite (testbit_high 64 x (t + (64 - n))) by (unfold lane_ok in *; lia). apply orb_false_r.
Qed.

(** * iterates *)
Lemma iter_ok (F : list Z -> list Z) n A : (forall A, st_ok A -> st_ok (F A)) -> st_ok A -> st_ok (Nat.iter n F A).
Proof. intros HF HA. induction n; cbn [Nat.iter nat_rect]; auto. Qed.
Lemma it_add {T} n m (F : T -> T) x : Nat.iter (n + m) F x = Nat.iter n F (Nat.iter m F x).
Proof. induction n as [|n IH]; [reflexivity|]. change (F (Nat.iter (n + m) F x) = F (Nat.iter n F (Nat.iter m F x))). now rewrite IH. Qed.
Lemma it_succ_r {T} n (F : T -> T) x : Nat.iter (S n) F x = Nat.iter n F (F x).
Proof. rewrite <- Nat.add_1_r. apply (it_add n 1). Qed.
Lemma iter_S {T} n (F : T -> T) x : Nat.iter (S n) F x = F (Nat.iter n F x). Proof. reflexivity. Qed.

(** * theta *)
Definition cbit (A : list Z) (x : nat) (z : Z) : bool := Z.testbit (column A x) (z mod 64).
Definition col (A : list Z) (x z : Z) : bool := cbit A (Z.to_nat (x mod 5)) z.
Definition Gs (s : Z) (f : Z -> Z -> bool) (x z : Z) : bool := xorb (f x z) (xorb (f (x - s) z) (f (x + s) (z - s))).
Lemma column_mod A x : column A (x mod 5) = column A x.
Proof. unfold column. now rewrite !lane_modx. Qed.
Lemma cbit_eq A x : forall z, cbit A x z = xorb (xorb (xorb (xorb (bit A x 0 z) (bit A x 1 z)) (bit A x 2 z)) (bit A x 3 z)) (bit A x 4 z).
Proof. intros. unfold cbit, column, bit. now rewrite !Z.lxor_spec. Qed.
Lemma theta_bit A x y z : st_ok A -> bit (theta A) x y z = xorb (bit A x y z) (xorb (cbit A (x + 4) z) (cbit A (x + 1) (z - 1))).
Proof.
  intros H. unfold bit, theta. rewrite lane_lanes, lane_mod. rewrite !Z.lxor_spec. rewrite rotl_bit by (try lia; now apply column_ok).
  unfold cbit. rewrite <- (column_mod A (x mod 5 + 4)), <- (column_mod A (x mod 5 + 1)).
  rewrite !Nat.add_mod_idemp_l by lia. rewrite !column_mod. reflexivity.
Qed.
Lemma col_nat A x z : cbit A x z = col A (Z.of_nat x) z.
Proof.
  unfold col, cbit. rewrite <- (column_mod A x). replace (Z.to_nat (Z.of_nat x mod 5)) with (x mod 5)%nat; [reflexivity|].
  change 5 with (Z.of_nat 5). rewrite <- (Nat2Z.inj_mod x 5). now rewrite Nat2Z.id.
Qed.
Lemma col_eqx A x x' z : x mod 5 = x' mod 5 -> col A x z = col A x' z. Proof. unfold col. now intros ->. Qed.
Lemma theta_bit' A x y z : st_ok A -> bit (theta A) x y z = xorb (bit A x y z) (xorb (col A (Z.of_nat x - 1) z) (col A (Z.of_nat x + 1) (z - 1))).
Proof.
  intros H. rewrite theta_bit by auto. rewrite !col_nat. rewrite (col_eqx A (Z.of_nat (x + 4)) (Z.of_nat x - 1)) by lia.
  rewrite (col_eqx A (Z.of_nat (x + 1)) (Z.of_nat x + 1)) by lia. reflexivity.
Qed.
Lemma col_theta A x z : st_ok A -> col (theta A) x z = Gs 1 (col A) x z.
Proof.
  intros H. unfold Gs. unfold col at 1. set (n := Z.to_nat (x mod 5)). assert (Hn : Z.of_nat n = x mod 5) by (unfold n; lia).
  rewrite cbit_eq, !theta_bit' by auto. rewrite Hn.
  rewrite (col_eqx A (x mod 5 - 1) (x - 1)), (col_eqx A (x mod 5 + 1) (x + 1)) by lia.
  replace (col A x z) with (cbit A n z) by reflexivity. rewrite cbit_eq.
  generalize (bit A n 0 z), (bit A n 1 z), (bit A n 2 z), (bit A n 3 z), (bit A n 4 z), (col A (x - 1) z), (col A (x + 1) (z - 1)).
  now intros [] [] [] [] [] [] [].
Qed.
Lemma Gs_ext s f g : (forall x z, f x z = g x z) -> forall x z, Gs s f x z = Gs s g x z.
Proof. intros H x z. unfold Gs. now rewrite !H. Qed.
Lemma Gs_twice s f x z : Gs s (Gs s f) x z = Gs (2 * s) f x z.
Proof.
  unfold Gs. replace (x - s - s) with (x - 2 * s) by lia. replace (x - s + s) with x by lia. replace (x + s - s) with x by lia.
  replace (x + s + s) with (x + 2 * s) by lia. replace (z - s - s) with (z - 2 * s) by lia.
  generalize (f x z), (f (x - s) z), (f (x + s) (z - s)), (f (x - 2 * s) z), (f x (z - s)), (f (x + 2 * s) (z - 2 * s)).
  now intros [] [] [] [] [] [].
Qed.
Lemma iter_ext n s f g : (forall x z, f x z = g x z) -> forall x z, Nat.iter n (Gs s) f x z = Nat.iter n (Gs s) g x z.
Proof. intros H. induction n as [|n IH]; [exact H|]. intros x z. cbn [Nat.iter nat_rect]. now apply Gs_ext. Qed.
Lemma iter_pow k : forall f x z, Nat.iter (2 ^ k) (Gs 1) f x z = Gs (2 ^ Z.of_nat k) f x z.
Proof.
  induction k as [|k IH]; intros f x z; [reflexivity|]. rewrite Nat.pow_succ_r'. replace (2 * 2 ^ k)%nat with (2 ^ k + 2 ^ k)%nat by lia.
  rewrite it_add. rewrite (IH _ x z). rewrite Nat2Z.inj_succ, Z.pow_succ_r by lia. rewrite <- Gs_twice. now apply Gs_ext.
Qed.
Lemma iter_col n A x z : st_ok A -> col (Nat.iter n theta A) x z = Nat.iter n (Gs 1) (col A) x z.
Proof.
  intros H. revert x z. induction n as [|n IH]; [reflexivity|]. intros x z. rewrite !iter_S.
  rewrite col_theta by (apply iter_ok; auto using theta_ok). now apply Gs_ext.
Qed.
Lemma iter_bit n A x y z : st_ok A -> bit (Nat.iter n theta A) x y z = xorb (bit A x y z) (xorb (col (Nat.iter n theta A) (Z.of_nat x) z) (col A (Z.of_nat x) z)).
Proof.
  intros H. induction n as [|n IH].
  - cbn [Nat.iter nat_rect]. rewrite xorb_nilpotent. now destruct (bit A x y z).
  - rewrite !iter_S. assert (HS : st_ok (Nat.iter n theta A)) by (apply iter_ok; auto using theta_ok).
    rewrite theta_bit', col_theta by auto. rewrite IH. unfold Gs.
    set (B := Nat.iter n theta A). generalize (bit A x y z), (col B (Z.of_nat x) z), (col A (Z.of_nat x) z), (col B (Z.of_nat x - 1) z), (col B (Z.of_nat x + 1) (z - 1)).
    now intros [] [] [] [] [].
Qed.
Lemma col_eqz A x z z' : z mod 64 = z' mod 64 -> col A x z = col A x z'. Proof. unfold col, cbit. now intros ->. Qed.
Lemma theta_order A : st_ok A -> Nat.iter 192 theta A = A.
Proof.
  intros H. apply bit_ext; auto; [apply iter_ok; auto using theta_ok|]. intros x y z. rewrite iter_bit by auto.
  assert (E : col (Nat.iter 192 theta A) (Z.of_nat x) z = col A (Z.of_nat x) z).
  2:{ rewrite E, xorb_nilpotent. apply xorb_false_r. }
  rewrite iter_col by auto. change 192%nat with (2 ^ 6 + (2 ^ 6 + 2 ^ 6))%nat. rewrite !it_add.
  assert (P : forall f, (forall x x' z, x mod 5 = x' mod 5 -> f x z = f x' z) -> (forall x z z', z mod 64 = z' mod 64 -> f x z = f x z') ->
              forall x z, Nat.iter (2 ^ 6) (Gs 1) f x z = xorb (f x z) (xorb (f (x + 1) z) (f (x - 1) z))).
  { intros f F1 F2 a b. rewrite iter_pow. change (2 ^ Z.of_nat 6) with 64. unfold Gs. f_equal. f_equal.
    - apply F1. lia.
    - rewrite (F1 _ (a - 1)) by lia. apply F2. lia. }
  set (X := Z.of_nat x). set (f := col A).
  set (g := fun x z => xorb (f x z) (xorb (f (x + 1) z) (f (x - 1) z))).
  set (h := fun x z => xorb (g x z) (xorb (g (x + 1) z) (g (x - 1) z))).
  assert (f1 : forall x x' z, x mod 5 = x' mod 5 -> f x z = f x' z) by (intros; now apply col_eqx).
  assert (f2 : forall x z z', z mod 64 = z' mod 64 -> f x z = f x z') by (intros; now apply col_eqz).
  assert (g1 : forall x x' z, x mod 5 = x' mod 5 -> g x z = g x' z).
  { intros a b c Hab. unfold g. rewrite (f1 a b), (f1 (a + 1) (b + 1)), (f1 (a - 1) (b - 1)); auto; lia. }
  assert (g2 : forall x z z', z mod 64 = z' mod 64 -> g x z = g x z').
  { intros a b c Hab. unfold g. rewrite (f2 _ b c), (f2 _ b c), (f2 _ b c); auto. }
  assert (h1 : forall x x' z, x mod 5 = x' mod 5 -> h x z = h x' z).
  { intros a b c Hab. unfold h. rewrite (g1 a b), (g1 (a + 1) (b + 1)), (g1 (a - 1) (b - 1)); auto; lia. }
  assert (h2 : forall x z z', z mod 64 = z' mod 64 -> h x z = h x z').
  { intros a b c Hab. unfold h. rewrite (g2 _ b c), (g2 _ b c), (g2 _ b c); auto. }
  assert (Eg : forall x z, Nat.iter (2 ^ 6) (Gs 1) f x z = g x z) by (intros; now apply P).
  assert (Eh : forall x z, Nat.iter (2 ^ 6) (Gs 1) (Nat.iter (2 ^ 6) (Gs 1) f) x z = h x z).
  { intros a b. rewrite (iter_ext _ _ _ g Eg). now apply P. }
  rewrite (iter_ext _ _ _ h Eh). rewrite P by auto. unfold h, g.
  replace (X + 1 - 1) with X by lia. replace (X - 1 + 1) with X by lia.
  rewrite (f1 (X + 1 + 1 + 1) (X - 1 - 1)) by lia. rewrite (f1 (X - 1 - 1 - 1) (X + 1 + 1)) by lia.
  replace (X + 1 + 1 - 1) with (X + 1) by lia. replace (X - 1 - 1 + 1) with (X - 1) by lia.
  generalize (f X z), (f (X + 1) z), (f (X - 1) z), (f (X + 1 + 1) z), (f (X - 1 - 1) z).
  now intros [] [] [] [] [].
Qed.

(** * rho *)
Lemma rho_bit A x y z : st_ok A -> bit (rho A) x y z = bit A x y (z - Z.of_nat (rho_offset (x mod 5) (y mod 5))).
Proof.
  intros H. unfold bit, rho. rewrite lane_lanes, lane_mod. pose proof (rho_offset_lt (x mod 5) (y mod 5)).
  rewrite rotl_bit; [reflexivity|lia|now apply lane_in].
Qed.
Lemma rho_iter n A x y z : st_ok A -> bit (Nat.iter n rho A) x y z = bit A x y (z - Z.of_nat n * Z.of_nat (rho_offset (x mod 5) (y mod 5))).
Proof.
  intros H. revert z. induction n as [|n IH]; intros z; [f_equal; lia|]. rewrite iter_S, rho_bit by (apply iter_ok; auto using rho_ok).
  rewrite IH. f_equal. lia.
Qed.
Lemma rho_order A : st_ok A -> Nat.iter 64 rho A = A.
Proof.
  intros H. apply bit_ext; auto; [apply iter_ok; auto using rho_ok|]. intros x y z. rewrite rho_iter by auto.
  unfold bit. f_equal. change (Z.of_nat 64) with 64. lia.
Qed.

(** * pi *)
Lemma pi_order A : st_ok A -> Nat.iter 24 pi A = A.
Proof. intros (H & _). d25 A H. reflexivity. Qed.

(** * chi *)
Lemma not64_bit x z : lane_ok x -> Z.testbit (not64 x) (z mod 64) = negb (Z.testbit x (z mod 64)).
Proof.
  intros Hx. unfold not64. pose proof (Z.mod_pos_bound z 64 ltac:(lia)). rewrite Z.mod_pow2_bits_low by lia.
  replace (- x - 1) with (Z.lnot x) by (unfold Z.lnot; lia). now rewrite Z.lnot_spec by lia.
Qed.
Lemma chi_bit A x y z : st_ok A -> bit (chi A) x y z = xorb (bit A x y z) (negb (bit A (x + 1) y z) && bit A (x + 2) y z).
Proof.
  intros H. unfold bit, chi. rewrite lane_lanes, lane_mod, Z.lxor_spec, Z.land_spec, not64_bit by now apply lane_in.
  rewrite !lane_mody. rewrite (lane_eqx A (x mod 5 + 1) (x + 1)), (lane_eqx A (x mod 5 + 2) (x + 2)) by (now rewrite Nat.add_mod_idemp_l by lia). reflexivity.
Qed.
Lemma bit_eqx A x x' y z : (x mod 5 = x' mod 5)%nat -> bit A x y z = bit A x' y z.
Proof. intros E. unfold bit. now rewrite (lane_eqx A x x' y E). Qed.
Lemma bit5 A x y z : bit A (x + 5) y z = bit A x y z.
Proof. apply bit_eqx. rewrite <- (Nat.mul_1_l 5) at 1. now rewrite Nat.mod_add by lia. Qed.
Definition crow (r : bool * bool * bool * bool * bool) : bool * bool * bool * bool * bool :=
  let '(a, b, c, d, e) := r in
  (xorb a (negb b && c), xorb b (negb c && d), xorb c (negb d && e), xorb d (negb e && a), xorb e (negb a && b)).
Definition row (A : list Z) (x y : nat) (z : Z) := (bit A x y z, bit A (x + 1) y z, bit A (x + 2) y z, bit A (x + 3) y z, bit A (x + 4) y z).
Lemma chi_row A x y z : st_ok A -> row (chi A) x y z = crow (row A x y z).
Proof.
  intros H. unfold row, crow. rewrite !chi_bit by auto.
  replace (x + 1 + 1)%nat with (x + 2)%nat by lia. replace (x + 1 + 2)%nat with (x + 3)%nat by lia.
  replace (x + 2 + 1)%nat with (x + 3)%nat by lia. replace (x + 2 + 2)%nat with (x + 4)%nat by lia.
  replace (x + 3 + 1)%nat with (x + 4)%nat by lia. replace (x + 3 + 2)%nat with (x + 5)%nat by lia.
  replace (x + 4 + 1)%nat with (x + 5)%nat by lia. replace (x + 4 + 2)%nat with (x + 1 + 5)%nat by lia. now rewrite !bit5.
Qed.
Lemma crow_order r : crow (crow (crow (crow r))) = r.
Proof. destruct r as [[[[[] []] []] []] []]; reflexivity. Qed.
Lemma chi_order A : st_ok A -> Nat.iter 4 chi A = A.
Proof.
  intros H. apply bit_ext; auto; [apply iter_ok; auto using chi_ok|]. intros x y z.
  assert (E : row (Nat.iter 4 chi A) x y z = row A x y z).
  { cbn [Nat.iter nat_rect]. rewrite !chi_row by (auto using chi_ok). apply crow_order. }
  unfold row in E. now injection E.
Qed.
(** * iota *)
Lemma iota_twice c A : lane_ok c -> st_ok A -> iota c (iota c A) = A.
Proof.
  intros Hc H. destruct H as (H & _). d25 A H. unfold iota, lanes, lane. cbn [map seq Nat.add Nat.mul Nat.eqb nth Nat.modulo Nat.div Nat.divmod fst snd Nat.sub].
  rewrite Z.lxor_assoc, Z.lxor_nilpotent, Z.lxor_0_r. reflexivity.
Qed.

(** * the inverse permutation *)
Definition inv_of (n : nat) (F : list Z -> list Z) (A : list Z) : list Z := Nat.iter (n - 1) F A.
Lemma inv_l n F A : (0 < n)%nat -> Nat.iter n F A = A -> inv_of n F (F A) = A.
Proof. intros Hn H. unfold inv_of. rewrite <- it_succ_r. now replace (S (n - 1)) with n by lia. Qed.
Lemma inv_r n F A : (0 < n)%nat -> Nat.iter n F A = A -> F (inv_of n F A) = A.
Proof. intros Hn H. unfold inv_of. rewrite <- iter_S. now replace (S (n - 1)) with n by lia. Qed.
Definition round_inv (A : list Z) (i : nat) : list Z := inv_of 192 theta (inv_of 64 rho (inv_of 24 pi (inv_of 4 chi (iota (RC i) A)))).
Lemma round_inv_ok A i : st_ok A -> st_ok (round_inv A i).
Proof.
  intros H. unfold round_inv, inv_of. do 4 (apply iter_ok; [intros; auto using theta_ok, rho_ok, pi_ok, chi_ok|]).
  apply iota_ok; [apply RC_range|auto].
Qed.
Lemma round_inv_l A i : st_ok A -> round_inv (keccak_round A i) i = A.
Proof.
  intros H. unfold round_inv, keccak_round. assert (H1 := theta_ok A H). assert (H2 := rho_ok _ H1). assert (H3 := pi_ok _ H2).
  rewrite iota_twice by (first [apply RC_range|now apply chi_ok]).
  rewrite (inv_l 4) by (first [lia|now apply chi_order]). rewrite (inv_l 24) by (first [lia|now apply pi_order]).
  rewrite (inv_l 64) by (first [lia|now apply rho_order]). now rewrite (inv_l 192) by (first [lia|now apply theta_order]).
Qed.
Lemma round_inv_r A i : st_ok A -> keccak_round (round_inv A i) i = A.
Proof.
  intros H. unfold round_inv, keccak_round.
  set (B1 := iota (RC i) A). assert (H1 : st_ok B1) by (apply iota_ok; [apply RC_range|auto]).
  set (B2 := inv_of 4 chi B1). assert (H2 : st_ok B2) by (apply iter_ok; auto using chi_ok).
  set (B3 := inv_of 24 pi B2). assert (H3 : st_ok B3) by (apply iter_ok; auto using pi_ok).
  set (B4 := inv_of 64 rho B3). assert (H4 : st_ok B4) by (apply iter_ok; auto using rho_ok).
  rewrite (inv_r 192) by (first [lia|now apply theta_order]). unfold B4. rewrite (inv_r 64) by (first [lia|now apply rho_order]).
  unfold B3. rewrite (inv_r 24) by (first [lia|now apply pi_order]). unfold B2. rewrite (inv_r 4) by (first [lia|now apply chi_order]).
  apply iota_twice; [apply RC_range|auto].
Qed.
Definition keccak_inv (n : nat) (A : list Z) : list Z := fold_left round_inv (rev (seq 0 n)) A.
Lemma keccak_inv_ok n A : st_ok A -> st_ok (keccak_inv n A).
Proof. unfold keccak_inv. revert A. induction (rev (seq 0 n)) as [|k l IH]; cbn [fold_left]; intros A H; auto. apply IH. now apply round_inv_ok. Qed.
Lemma fold_inv_l (ok : list Z -> Prop) (f g : list Z -> nat -> list Z) : (forall A i, ok A -> ok (f A i)) -> (forall A i, ok A -> g (f A i) i = A) ->
  forall l A, ok A -> fold_left g (rev l) (fold_left f l A) = A.
Proof.
  intros Hf Hg. induction l as [|k l IH]; intros A H; [reflexivity|]. cbn [rev fold_left]. rewrite fold_left_app. cbn [fold_left].
  rewrite IH by now apply Hf. now apply Hg.
Qed.
Lemma keccak_inv_l n A : st_ok A -> keccak_inv n (keccak n A) = A.
Proof. exact (fold_inv_l st_ok keccak_round round_inv round_ok round_inv_l (seq 0 n) A). Qed.
Lemma keccak_inv_r n A : st_ok A -> keccak n (keccak_inv n A) = A.
Proof.
  intros H. pose proof (fold_inv_l st_ok round_inv keccak_round round_inv_ok round_inv_r (rev (seq 0 n)) A H) as Q.
  rewrite rev_involutive in Q. exact Q.
Qed.
