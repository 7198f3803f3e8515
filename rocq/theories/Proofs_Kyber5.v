(** The exact layers compute the transform; the transform turns the product of the ring into products modulo X^2 - gamma. *)
From Verif Require Import BaseLemmas Spec_Kyber Model_Kyber Proofs_Kyber Proofs_Kyber2 Proofs_Kyber3 Proofs_Kyber4.
From Coq Require Import Setoid Morphisms.
Open Scope Z_scope.

(** * entries of a layer *)
Lemma L0_app z c0 c1 : length c0 = length c1 -> L0 z (c0 ++ c1) = zw (fun x y => x + z * y) c0 c1 ++ zw (fun x y => x - z * y) c0 c1.
Proof. apply bf_app. Qed.
Lemma nth_L0 z len c i : length c = (2 * len)%nat -> (i < len)%nat ->
  nth i (L0 z c) 0 = nth i c 0 + z * nth (i + len) c 0 /\ nth (i + len) (L0 z c) 0 = nth i c 0 - z * nth (i + len) c 0.
Proof.
  intros H Hi. destruct (split_half c len H) as (c0 & c1 & -> & E0 & E1). rewrite L0_app by lia.
  rewrite !(app_nth1 c0) by lia. rewrite !(app_nth2 c0) by lia.
  rewrite app_nth1 by (rewrite zw_len; lia). rewrite app_nth2 by (rewrite zw_len; lia). rewrite zw_len, E0, E1, Nat.min_id.
  replace (i + len - len)%nat with i by lia. rewrite !nth_zw by lia. split; reflexivity.
Qed.
Lemma nth_lay L w : (forall z c, length c = w -> length (L z c) = w) -> forall zs r b i, length r = (length zs * w)%nat -> (b < length zs)%nat -> (i < w)%nat ->
  nth (b * w + i) (lay L zs w r) 0 = nth i (L (nth b zs 0) (slice r (b * w) w)) 0.
Proof.
  intros HL. induction zs as [|z zs IH]; intros r b i Hr Hb Hi; [cbn in Hb; lia|]. cbn [length] in Hr, Hb.
  destruct (split_at r w (length zs * w)%nat) as (c & t & -> & Lc & Lt); [lia|]. rewrite lay_cons by exact Lc.
  destruct b as [|b].
  - cbn [Nat.mul Nat.add nth]. rewrite app_nth1 by (rewrite HL; lia). unfold slice. cbn [skipn]. rewrite firstn_app, Lc, Nat.sub_diag, firstn_all2 by lia. cbn [firstn]. now rewrite app_nil_r.
  - rewrite app_nth2 by (rewrite HL by lia; lia). rewrite HL by exact Lc. replace (S b * w + i - w)%nat with (b * w + i)%nat by lia. rewrite IH by lia.
    cbn [nth]. f_equal. f_equal. unfold slice. rewrite skipn_app. rewrite (skipn_all2 c) by (rewrite Lc; lia). cbn [app]. rewrite Lc. now replace (S b * w - w)%nat with (b * w)%nat by lia.
Qed.
Lemma nth_layer zs len r b i : length r = (length zs * (2 * len))%nat -> (b < length zs)%nat -> (i < len)%nat ->
  nth (b * (2 * len) + i) (lay L0 zs (2 * len) r) 0 = nth (b * (2 * len) + i) r 0 + nth b zs 0 * nth (b * (2 * len) + len + i) r 0 /\
  nth (b * (2 * len) + len + i) (lay L0 zs (2 * len) r) 0 = nth (b * (2 * len) + i) r 0 - nth b zs 0 * nth (b * (2 * len) + len + i) r 0.
Proof.
  intros Hr Hb Hi. assert (HL : forall z c, length c = (2 * len)%nat -> length (L0 z c) = (2 * len)%nat) by (intros; now apply L0_len).
  assert (HS : (b * (2 * len) + 2 * len <= length r)%nat).
  { rewrite Hr. clear - Hb. revert Hb. generalize (length zs), (2 * len)%nat. intros n w Hb. replace (b * w + w)%nat with (S b * w)%nat by lia. apply Nat.mul_le_mono_r. lia. }
  assert (Ls : length (slice r (b * (2 * len)) (2 * len)) = (2 * len)%nat) by (rewrite length_slice; lia).
  rewrite <- Nat.add_assoc. rewrite !(nth_lay _ _ HL) by lia. rewrite (Nat.add_comm len i).
  destruct (nth_L0 (nth b zs 0) len _ i Ls Hi) as [-> ->]. rewrite !BaseLemmas.nth_slice by lia. split; reflexivity.
Qed.

(** * values at gamma *)
Definition EV (g : Z) (n : nat) (r : list Z) (o k : nat) : Z := zsum n (fun i => nth (o + 2 * i + k) r 0 * g ^ Z.of_nat i).
Lemma EV_step g zs h r b (s : bool) k : length r = (length zs * (2 * (2 * h)))%nat -> (b < length zs)%nat -> (k < 2)%nat ->
  g ^ Z.of_nat h == (if s then -1 else 1) * nth b zs 0 ->
  EV g h (lay L0 zs (2 * (2 * h)) r) (b * (2 * (2 * h)) + (if s then 2 * h else 0)) k == EV g (2 * h) r (b * (2 * (2 * h))) k.
Proof.
  intros Hr Hb Hk Hg. unfold EV. replace (zsum (2 * h)) with (zsum (h + h)) by (f_equal; lia). rewrite zsum_app, <- zsum_add. apply zsum_cg. intros i Hi.
  assert (Hi' : (2 * i + k < 2 * h)%nat) by lia.
  destruct (nth_layer zs (2 * h) r b (2 * i + k) Hr Hb Hi') as [E0 E1].
  rewrite Nat2Z.inj_add, Z.pow_add_r by lia.
  replace (b * (2 * (2 * h)) + 2 * (h + i) + k)%nat with (b * (2 * (2 * h)) + 2 * h + (2 * i + k))%nat by lia.
  rewrite <- (Nat.add_assoc (b * (2 * (2 * h))) (2 * i) k).
  destruct s.
  - rewrite <- (Nat.add_assoc _ (2 * i) k). rewrite E1. rewrite Hg. apply cg_ex. exists 0. ring.
  - rewrite Nat.add_0_r, <- (Nat.add_assoc _ (2 * i) k). rewrite E0. rewrite Hg. apply cg_ex. exists 0. ring.
Qed.

(** * the table of powers of 17 *)
Fixpoint pw (n : nat) : Z := match n with O => 1 | S k => (pw k * 17) mod Q end.
Lemma pw_ok n : 17 ^ Z.of_nat n == pw n.
Proof.
  induction n as [|n IH]; [reflexivity|]. rewrite Nat2Z.inj_succ, Z.pow_succ_r by lia. cbn [pw]. rewrite Z.mul_comm, IH. apply cg_mod. now rewrite Z.mod_mod by (unfold Q; lia).
Qed.
Definition gtab : list Z := map (fun j => pw (2 * rev_bits 7 j + 1)) (seq 0 128).
Lemma nth_map_seq {A} (f : nat -> A) n i d : (i < n)%nat -> nth i (map f (seq 0 n)) d = f i.
Proof. intros H. rewrite (nth_indep _ _ (f 0%nat)) by (now rewrite map_length, seq_length). rewrite map_nth, seq_nth by exact H. reflexivity. Qed.
Lemma gamma_tab j : (j < 128)%nat -> gamma j == nth j gtab 0.
Proof. intros H. unfold gtab. rewrite nth_map_seq by exact H. apply pw_ok. Qed.
Fixpoint mpow (x : Z) (n : nat) : Z := match n with O => 1 | S k => (mpow x k * x) mod Q end.
Lemma mpow_ok x n : x ^ Z.of_nat n == mpow x n.
Proof.
  induction n as [|n IH]; [reflexivity|]. rewrite Nat2Z.inj_succ, Z.pow_succ_r by lia. cbn [mpow]. rewrite Z.mul_comm, IH. apply cg_mod. now rewrite Z.mod_mod by (unfold Q; lia).
Qed.
(** the literal table, to be computed only once *)
Definition glit : list Z := Eval vm_compute in gtab.
Lemma glit_ok : gtab = glit. Proof. vm_cast_no_check (eq_refl glit). Qed.
Lemma layers_check : forallb (fun nh => forallb (fun j =>
   (mpow (nth j glit 0) (snd nh) - (if Nat.odd (j / snd nh) then -1 else 1) * (169 * zn (fst nh + j / (2 * snd nh)))) mod Q =? 0) (seq 0 128))
  [(1, 64); (2, 32); (4, 16); (8, 8); (16, 4); (32, 2); (64, 1)]%nat = true.
Proof. vm_cast_no_check (eq_refl true). Qed.
Lemma in_128 j : (j < 128)%nat -> In j (seq 0 128). Proof. intros H. apply in_seq. lia. Qed.
Lemma cg_sub0 a b : (a - b) mod Q = 0 -> a == b.
Proof. intros H. apply cg_ex. exists ((a - b) / Q). pose proof (Z.div_mod (a - b) Q ltac:(unfold Q; lia)). lia. Qed.
Lemma gamma_layer nb h j : In (nb, h) [(1, 64); (2, 32); (4, 16); (8, 8); (16, 4); (32, 2); (64, 1)]%nat -> (j < 128)%nat ->
  gamma j ^ Z.of_nat h == (if Nat.odd (j / h) then -1 else 1) * (169 * zn (nb + j / (2 * h))).
Proof.
  intros HI Hj. pose proof layers_check as C. rewrite forallb_forall in C. specialize (C _ HI). cbn [fst snd] in C. rewrite forallb_forall in C.
  specialize (C j (in_128 j Hj)). apply Z.eqb_eq in C. apply cg_sub0 in C. rewrite <- C, <- mpow_ok. apply cg_pow. rewrite <- glit_ok. now apply gamma_tab.
Qed.
Lemma minus_check : forallb (fun j => (mpow (nth j glit 0) 128 + 1) mod Q =? 0) (seq 0 128) = true.
Proof. vm_cast_no_check (eq_refl true). Qed.
Lemma gamma_128 j : (j < 128)%nat -> gamma j ^ 128 == -1.
Proof.
  intros Hj. pose proof minus_check as C. rewrite forallb_forall in C. specialize (C j (in_128 j Hj)). apply Z.eqb_eq in C.
  change 128 with (Z.of_nat 128). rewrite (cg_pow _ _ 128 (gamma_tab j Hj)), glit_ok, mpow_ok. apply cg_sub0. exact C.
Qed.

(** * FW is the transform *)
Lemma nth_zrs nb b : (b < nb)%nat -> nth b (zrs nb nb) 0 = 169 * zn (nb + b).
Proof.
  intros H. unfold zrs, zns. rewrite map_map. rewrite (nth_indep _ _ ((fun x => 169 * zn x) 0%nat)) by (now rewrite map_length, seq_length).
  rewrite (map_nth (fun x => 169 * zn x)). now rewrite seq_nth.
Qed.
Lemma FW_layer nb h r j k : In (nb, h) [(1, 64); (2, 32); (4, 16); (8, 8); (16, 4); (32, 2); (64, 1)]%nat -> (nb * (2 * (2 * h)) = 256)%nat -> (0 < h)%nat ->
  length r = 256%nat -> (j < 128)%nat -> (k < 2)%nat ->
  EV (gamma j) h (lay L0 (zrs nb nb) (2 * (2 * h)) r) ((j / h) * (2 * h)) k == EV (gamma j) (2 * h) r ((j / (2 * h)) * (2 * (2 * h))) k.
Proof.
  intros HI HW Hh Hr Hj Hk.
  assert (Hb : (j / (2 * h) < nb)%nat) by (apply Nat.div_lt_upper_bound; [lia|]; lia).
  replace ((j / h) * (2 * h))%nat with (j / (2 * h) * (2 * (2 * h)) + (if Nat.odd (j / h) then 2 * h else 0))%nat.
  2:{ rewrite (Nat.mul_comm 2 h) at 1. rewrite <- Nat.div_div by lia. pose proof (Nat.div2_odd (j / h)) as E. rewrite Nat.div2_div in E.
      set (q := (j / h)%nat) in *. clearbody q. set (d := (q / 2)%nat) in *. clearbody d. destruct (Nat.odd q); cbn [Nat.b2n] in E; rewrite E; lia. }
  apply EV_step; [now rewrite zrs_len, HW|now rewrite zrs_len|exact Hk|]. rewrite nth_zrs by exact Hb. now apply gamma_layer.
Qed.
Lemma nth_poly_of f n : (n < 256)%nat -> nth n (poly_of f) 0 = f n.
Proof. apply nth_map_seq. Qed.
Lemma poly_of_len f : length (poly_of f) = 256%nat.
Proof. unfold poly_of. now rewrite map_length, seq_length. Qed.
Opaque lay zrs zis L0 I0 scale poly_of.
Lemma FW_nth p j k : length p = 256%nat -> (j < 128)%nat -> (k < 2)%nat -> nth (2 * j + k) (FW p) 0 == EV (gamma j) 128 p 0 k.
Proof.
  intros Hp Hj Hk. pose proof (FW_len p Hp) as HF. unfold FW in *.
  set (r1 := lay L0 (zrs 1 1) (2 * 128) p) in *. set (r2 := lay L0 (zrs 2 2) (2 * 64) r1) in *. set (r3 := lay L0 (zrs 4 4) (2 * 32) r2) in *.
  set (r4 := lay L0 (zrs 8 8) (2 * 16) r3) in *. set (r5 := lay L0 (zrs 16 16) (2 * 8) r4) in *. set (r6 := lay L0 (zrs 32 32) (2 * 4) r5) in *. set (r7 := lay L0 (zrs 64 64) (2 * 2) r6) in *.
  assert (H1 : length r1 = 256%nat) by (unfold r1; lens). assert (H2 : length r2 = 256%nat) by (unfold r2; lens). assert (H3 : length r3 = 256%nat) by (unfold r3; lens).
  assert (H4 : length r4 = 256%nat) by (unfold r4; lens). assert (H5 : length r5 = 256%nat) by (unfold r5; lens). assert (H6 : length r6 = 256%nat) by (unfold r6; lens).
  pose proof (FW_layer 64 1 r6 j k ltac:(inb) eq_refl ltac:(lia) H6 Hj Hk) as E7.
  pose proof (FW_layer 32 2 r5 j k ltac:(inb) eq_refl ltac:(lia) H5 Hj Hk) as E6.
  pose proof (FW_layer 16 4 r4 j k ltac:(inb) eq_refl ltac:(lia) H4 Hj Hk) as E5.
  pose proof (FW_layer 8 8 r3 j k ltac:(inb) eq_refl ltac:(lia) H3 Hj Hk) as E4.
  pose proof (FW_layer 4 16 r2 j k ltac:(inb) eq_refl ltac:(lia) H2 Hj Hk) as E3.
  pose proof (FW_layer 2 32 r1 j k ltac:(inb) eq_refl ltac:(lia) H1 Hj Hk) as E2.
  pose proof (FW_layer 1 64 p j k ltac:(inb) eq_refl ltac:(lia) Hp Hj Hk) as E1.
  change (2 * (2 * 1))%nat with (2 * 2)%nat in E7. change (2 * (2 * 2))%nat with (2 * 4)%nat in E6. change (2 * (2 * 4))%nat with (2 * 8)%nat in E5.
  change (2 * (2 * 8))%nat with (2 * 16)%nat in E4. change (2 * (2 * 16))%nat with (2 * 32)%nat in E3. change (2 * (2 * 32))%nat with (2 * 64)%nat in E2. change (2 * (2 * 64))%nat with (2 * 128)%nat in E1.
  fold r7 in E7. fold r6 in E6. fold r5 in E5. fold r4 in E4. fold r3 in E3. fold r2 in E2. fold r1 in E1.
  change (2 * 1)%nat with 2%nat in E7. change (2 * 2)%nat with 4%nat in E7, E6. change (2 * 4)%nat with 8%nat in E6, E5.
  change (2 * 8)%nat with 16%nat in E5, E4. change (2 * 16)%nat with 32%nat in E4, E3. change (2 * 32)%nat with 64%nat in E3, E2. change (2 * 64)%nat with 128%nat in E2, E1.
  change (2 * 128)%nat with 256%nat in E1.
  rewrite E6, E5, E4, E3, E2, E1 in E7. rewrite (Nat.div_small j 128) in E7 by lia. rewrite Nat.mul_0_l in E7. rewrite <- E7.
  unfold EV. cbn [zsum]. rewrite Nat.div_1_r. replace (j * 2 + 2 * 0 + k)%nat with (2 * j + k)%nat by lia. apply cg_ex. exists 0. cbn [Z.of_nat]. ring.
Qed.
Lemma ntt_nth p j k : (j < 128)%nat -> (k < 2)%nat -> nth (2 * j + k) (ntt p) 0 = EV (gamma j) 128 p 0 k.
Proof.
  intros Hj Hk. unfold ntt. rewrite nth_poly_of by lia. replace ((2 * j + k) mod 2)%nat with k.
  2:{ rewrite Nat.add_comm, Nat.mul_comm, Nat.mod_add by lia. now rewrite Nat.mod_small. }
  replace ((2 * j + k) / 2)%nat with j. 2:{ rewrite Nat.add_comm, Nat.mul_comm, Nat.div_add by lia. now rewrite Nat.div_small. }
  unfold EV. apply zsum_ext. intros i Hi. reflexivity.
Qed.
Lemma split2 n : (n < 256)%nat -> exists j k, n = (2 * j + k)%nat /\ (j < 128)%nat /\ (k < 2)%nat.
Proof. intros H. exists (n / 2)%nat, (n mod 2)%nat. pose proof (Nat.div_mod n 2 ltac:(lia)). pose proof (Nat.mod_upper_bound n 2 ltac:(lia)). lia. Qed.
Lemma ntt_len p : length (ntt p) = 256%nat. Proof. apply poly_of_len. Qed.
Lemma FW_ntt p : length p = 256%nat -> cgl (FW p) (ntt p).
Proof.
  intros H. apply (F2_mk cg 0 0); [now rewrite FW_len, ntt_len|]. rewrite FW_len by exact H. intros n Hn. destruct (split2 n Hn) as (j & k & -> & Hj & Hk).
  rewrite FW_nth, ntt_nth by assumption. reflexivity.
Qed.

(** * products *)
Section Values.
Variables (g : Z) (M : nat).
Hypothesis Hg : g ^ Z.of_nat M == -1.
(** X^n modulo X^2 - g: the coefficients of 1 and of X *)
Definition x0 (n : nat) : Z := if Nat.even n then g ^ Z.of_nat (n / 2) else 0.
Definition x1 (n : nat) : Z := if Nat.even n then 0 else g ^ Z.of_nat (n / 2).
Lemma x_even i : x0 (2 * i) = g ^ Z.of_nat i /\ x1 (2 * i) = 0.
Proof using M g. unfold x0, x1. rewrite Nat.even_mul. cbn [Nat.even orb]. rewrite Nat.mul_comm, Nat.div_mul by lia. split; reflexivity. Qed.
Lemma x_odd i : x0 (2 * i + 1) = 0 /\ x1 (2 * i + 1) = g ^ Z.of_nat i.
Proof using M g.
  unfold x0, x1. rewrite Nat.even_add, Nat.even_mul. cbn [Nat.even orb Bool.eqb]. replace ((2 * i + 1) / 2)%nat with i; [split; reflexivity|].
  rewrite Nat.add_comm, Nat.mul_comm, Nat.div_add by lia. reflexivity.
Qed.
Lemma parity n : exists i, n = (2 * i)%nat \/ n = (2 * i + 1)%nat.
Proof using M g. exists (n / 2)%nat. pose proof (Nat.div_mod n 2 ltac:(lia)). pose proof (Nat.mod_upper_bound n 2 ltac:(lia)). lia. Qed.
Lemma x_add m n : x0 (m + n) = x0 m * x0 n + g * (x1 m * x1 n) /\ x1 (m + n) = x0 m * x1 n + x1 m * x0 n.
Proof using M g.
  destruct (parity m) as [i [-> | ->]], (parity n) as [j [-> | ->]].
  - replace (2 * i + 2 * j)%nat with (2 * (i + j))%nat by lia. destruct (x_even i) as [-> ->], (x_even j) as [-> ->], (x_even (i + j)) as [-> ->].
    rewrite Nat2Z.inj_add, Z.pow_add_r by lia. split; ring.
  - replace (2 * i + (2 * j + 1))%nat with (2 * (i + j) + 1)%nat by lia. destruct (x_even i) as [-> ->], (x_odd j) as [-> ->], (x_odd (i + j)) as [-> ->].
    rewrite Nat2Z.inj_add, Z.pow_add_r by lia. split; ring.
  - replace (2 * i + 1 + 2 * j)%nat with (2 * (i + j) + 1)%nat by lia. destruct (x_odd i) as [-> ->], (x_even j) as [-> ->], (x_odd (i + j)) as [-> ->].
    rewrite Nat2Z.inj_add, Z.pow_add_r by lia. split; ring.
  - replace (2 * i + 1 + (2 * j + 1))%nat with (2 * S (i + j))%nat by lia. destruct (x_odd i) as [-> ->], (x_odd j) as [-> ->], (x_even (S (i + j))) as [-> ->].
    rewrite Nat2Z.inj_succ, Z.pow_succ_r, Nat2Z.inj_add, Z.pow_add_r by lia. split; ring.
Qed.
Lemma x_wrap n : x0 (2 * M + n) == - x0 n /\ x1 (2 * M + n) == - x1 n.
Proof using Hg.
  destruct (x_add (2 * M) n) as [-> ->]. destruct (x_even M) as [-> ->]. split; rewrite Hg; apply cg_ex; exists 0; ring.
Qed.
Lemma ring_sum (X : nat -> Z) N (F G : nat -> Z) : (forall n, X (N + n)%nat == - X n) ->
  zsum N (fun n => zsum N (fun i => F i * (if (i <=? n)%nat then G (n - i)%nat else - G (N + n - i)%nat)) * X n) == zsum N (fun i => F i * zsum N (fun m => G m * X (i + m)%nat)).
Proof using M g.
  intros HX. rewrite (zsum_ext N _ (fun n => zsum N (fun i => F i * (if (i <=? n)%nat then G (n - i)%nat else - G (N + n - i)%nat) * X n))) by (intros; now rewrite <- zsum_mulr).
  rewrite zsum_swap. apply zsum_cg. intros i Hi. rewrite <- zsum_mul.
  replace (zsum N (fun n => F i * (if (i <=? n)%nat then G (n - i)%nat else - G (N + n - i)%nat) * X n)) with
    (zsum (i + (N - i)) (fun n => F i * (if (i <=? n)%nat then G (n - i)%nat else - G (N + n - i)%nat) * X n)) by (f_equal; lia).
  replace (zsum N (fun m => F i * (G m * X (i + m)%nat))) with (zsum ((N - i) + i) (fun m => F i * (G m * X (i + m)%nat))) by (f_equal; lia).
  rewrite !zsum_app. rewrite Z.add_comm. apply cg_add; apply zsum_cg; intros m Hm.
  - replace (i <=? i + m)%nat with true by (symmetry; apply Nat.leb_le; lia). replace (i + m - i)%nat with m by lia. apply cg_ex. exists 0. ring.
  - replace (i <=? m)%nat with false by (symmetry; apply Nat.leb_gt; lia). replace (i + (N - i + m))%nat with (N + m)%nat by lia. rewrite HX.
    replace (N + m - i)%nat with (N - i + m)%nat by lia. apply cg_ex. exists 0. ring.
Qed.
Lemma split_sum N (G : nat -> Z) i : 
  zsum N (fun m => G m * x0 (i + m)) = x0 i * zsum N (fun m => G m * x0 m) + g * (x1 i * zsum N (fun m => G m * x1 m)) /\
  zsum N (fun m => G m * x1 (i + m)) = x0 i * zsum N (fun m => G m * x1 m) + x1 i * zsum N (fun m => G m * x0 m).
Proof using M g.
  rewrite <- !zsum_mul. rewrite <- !zsum_add. split; apply zsum_ext; intros m Hm; destruct (x_add i m) as [E0 E1]; rewrite ?E0, ?E1; ring.
Qed.
Lemma prod_sum (F G : nat -> Z) : let N := (2 * M)%nat in
  let V := fun X H => zsum N (fun n => H n * X n) in
  let P := fun n => zsum N (fun i => F i * (if (i <=? n)%nat then G (n - i)%nat else - G (N + n - i)%nat)) in
  V x0 P == V x0 F * V x0 G + g * (V x1 F * V x1 G) /\ V x1 P == V x0 F * V x1 G + V x1 F * V x0 G.
Proof using Hg.
  intros N V P. unfold V, P. split.
  - rewrite (ring_sum x0) by (intros; apply x_wrap).
    rewrite (zsum_ext N _ (fun i => (F i * x0 i) * V x0 G + (F i * x1 i) * (g * V x1 G))) by (intros i Hi; destruct (split_sum N G i) as [-> _]; unfold V; ring).
    rewrite zsum_add, !zsum_mulr. fold (V x0 G) (V x1 G). apply cg_ex. exists 0. unfold V. ring.
  - rewrite (ring_sum x1) by (intros; apply x_wrap).
    rewrite (zsum_ext N _ (fun i => (F i * x0 i) * V x1 G + (F i * x1 i) * V x0 G)) by (intros i Hi; destruct (split_sum N G i) as [_ ->]; unfold V; ring).
    rewrite zsum_add, !zsum_mulr. apply cg_ex. exists 0. unfold V. ring.
Qed.
Lemma EV_sum p : EV g M p 0 0 = zsum (2 * M) (fun n => nth n p 0 * x0 n) /\ EV g M p 0 1 = zsum (2 * M) (fun n => nth n p 0 * x1 n).
Proof using M g.
  unfold EV. rewrite !zsum_pairs. split; apply zsum_ext; intros i Hi; destruct (x_even i) as [Q1 Q2], (x_odd i) as [Q3 Q4]; rewrite ?Q1, ?Q2, ?Q3, ?Q4, Nat.add_0_l, ?Nat.add_0_r; ring.
Qed.
End Values.

Lemma ntt_mul j f g : (j < 128)%nat ->
  let e := fun p k => nth (2 * j + k) (ntt p) 0 in
  e (mul f g) 0%nat == e f 0%nat * e g 0%nat + gamma j * (e f 1%nat * e g 1%nat) /\ e (mul f g) 1%nat == e f 0%nat * e g 1%nat + e f 1%nat * e g 0%nat.
Proof.
  intros Hj e. unfold e. rewrite !ntt_nth by (exact Hj || lia).
  destruct (EV_sum (gamma j) 128 f) as [-> ->], (EV_sum (gamma j) 128 g) as [-> ->], (EV_sum (gamma j) 128 (mul f g)) as [-> ->].
  pose proof (prod_sum (gamma j) 128 (gamma_128 j Hj) (fun i => nth i f 0) (fun i => nth i g 0)) as [E0 E1].
  change (2 * 128)%nat with 256%nat in *.
  assert (HM : forall X, zsum 256 (fun n => nth n (mul f g) 0 * X n) = zsum 256 (fun n => zsum 256 (fun i => nth i f 0 * (if (i <=? n)%nat then nth (n - i) g 0 else - nth (256 + n - i) g 0)) * X n)).
  { intros X. apply zsum_ext. intros n Hn. unfold mul. rewrite nth_poly_of by exact Hn. reflexivity. }
  rewrite !HM. split; assumption.
Qed.
