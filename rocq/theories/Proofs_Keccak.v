(** The unrolled and the compact Keccak permutations equal FIPS 202. *)
From Verif Require Import BaseLemmas Model_Straight Model_KeccakGen Model_Keccak Spec_Keccak.
Open Scope Z_scope.

(** * the text of one round *)
(** the lanes of row y after rho and pi: (source lane, rotation) *)
Definition rows : list (list (nat * nat)) :=
  [[(0, 0); (6, 44); (12, 43); (18, 21); (24, 14)];
   [(3, 28); (9, 20); (10, 3); (16, 45); (22, 61)];
   [(1, 1); (7, 6); (13, 25); (19, 8); (20, 18)];
   [(4, 27); (5, 36); (11, 10); (17, 15); (23, 56)];
   [(2, 62); (8, 55); (14, 39); (15, 41); (21, 2)]]%nat.
Definition rotx (e : sx) (n : nat) : sx := match n with O => e | _ => RLo e (Z.of_nat n) end.
Definition row_in (a : nat) (r : list (nat * nat)) : prog :=
  concat (map (fun p => let '(k, (l, n)) := p in
    [((a + l)%nat, Xo (R (a + l)) (R (30 + l mod 5))); ((25 + k)%nat, rotx (R (a + l)) n)]) (combine (seq 0 5) r)).
Definition chix (x : nat) : sx := Xo (R (25 + x)) (An (No (R (25 + (x + 1) mod 5))) (R (25 + (x + 2) mod 5))).
Definition row_out (e : nat) (y : nat) (c : sx) : prog :=
  concat (map (fun x => ((e + 5 * y + x)%nat, chix x) :: (if (x + 5 * y =? 0)%nat then [(e, Xo (R e) c)] else [])) (seq 0 5)).
(** one round from the registers at [a] to the registers at [e] *)
Definition tround (a e : nat) (c : sx) : prog :=
  map (fun x => ((25 + x)%nat, Xo (Xo (Xo (Xo (R (a + x)) (R (a + x + 5))) (R (a + x + 10))) (R (a + x + 15))) (R (a + x + 20)))) (seq 0 5) ++
  map (fun x => ((30 + x)%nat, Xo (R (25 + (x + 4) mod 5)) (RLo (R (25 + (x + 1) mod 5)) 1))) (seq 0 5) ++
  concat (map (fun p => row_in a (snd p) ++ row_out e (fst p) c) (combine (seq 0 5) rows)).
Definition tpair (c d : sx) : prog := tround 0 35 c ++ tround 35 0 d.
Definition kload : prog := map (fun i => (i, R (60 + i))) (seq 0 25).
Definition kstore : prog := map (fun i => ((60 + i)%nat, R i)) (seq 0 25).
Definition rcx (k : nat) : sx := K (nth k KECCAK_RC48 0).
Definition kpair (k : nat) : prog := tpair (rcx (2 * k)) (rcx (2 * k + 1)).
Lemma text24 : keccak24_U = kload ++ concat (map kpair (seq 0 12)) ++ kstore. Proof. vm_compute. reflexivity. Qed.
Lemma text48 : keccak48_U = kload ++ concat (map kpair (seq 0 24)) ++ kstore. Proof. vm_compute. reflexivity. Qed.
Lemma textC : keccak_C = tpair (R 60) (R 61). Proof. vm_compute. reflexivity. Qed.
Lemma RC_ok : KECCAK_RC48 = map RC (seq 0 48). Proof. vm_compute. reflexivity. Qed.
Lemma RC_nth k : (k < 48)%nat -> nth k KECCAK_RC48 0 = RC k.
Proof.
  intros H. rewrite RC_ok. rewrite nth_indep with (d' := RC 0) by (now rewrite map_length, seq_length).
  rewrite map_nth, seq_nth by auto. reflexivity.
Qed.

(** * one round on registers *)
(** the specification's round with the rotation offsets as numbers and lane (0,0) not rotated *)
Definition OFF : list nat := [0; 1; 62; 28; 27; 36; 44; 6; 55; 20; 3; 10; 43; 25; 39; 41; 45; 15; 21; 8; 18; 2; 61; 56; 14]%nat.
Lemma OFF_ok : forallb (fun i => Nat.eqb (rho_offset (i mod 5) (i / 5)) (nth i OFF 0%nat)) (seq 0 25) = true.
Proof. vm_compute. reflexivity. Qed.
Definition rot' (n : nat) (x : Z) : Z := match n with O => x | _ => wrotl 64 x (Z.of_nat n) end.
Definition rho' (A : list Z) : list Z := map (fun i => rot' (nth i OFF 0%nat) (nth i A 0)) (seq 0 25).
Definition kround' (A : list Z) (c : Z) : list Z := iota c (chi (pi (rho' (theta A)))).

Definition lane_ok (x : Z) : Prop := 0 <= x < 2 ^ 64.
Definition st_ok (A : list Z) : Prop := length A = 25%nat /\ Forall lane_ok A.
Lemma lxor_lane a b : lane_ok a -> lane_ok b -> lane_ok (Z.lxor a b).
Proof. apply lxor_range; lia. Qed.

Ltac symk := cbv beta iota zeta delta [exec fold_left exec1 tround rows rotx row_in chix row_out ev upd nth map combine concat app seq
  Nat.add Nat.mul Nat.sub Nat.modulo Nat.div Nat.divmod fst snd Nat.eqb Z.of_nat Pos.of_succ_nat Pos.succ
  kround' iota chi pi rho' rot' OFF theta column lane lanes not64 rotl64 wnot wrotl wshl wshr].
Lemma destr25 (A : list Z) : length A = 25%nat -> exists a0 a1 a2 a3 a4 a5 a6 a7 a8 a9 a10 a11 a12 a13 a14 a15 a16 a17 a18 a19 a20 a21 a22 a23 a24,
  A = [a0; a1; a2; a3; a4; a5; a6; a7; a8; a9; a10; a11; a12; a13; a14; a15; a16; a17; a18; a19; a20; a21; a22; a23; a24].
Proof.
  intros H. do 25 (destruct A as [|? A]; [discriminate H|]). destruct A; [|discriminate H]. repeat eexists.
Qed.
Lemma destr5 (A : list Z) : length A = 5%nat -> exists a0 a1 a2 a3 a4, A = [a0; a1; a2; a3; a4].
Proof.
  intros H. do 5 (destruct A as [|? A]; [discriminate H|]). destruct A; [|discriminate H]. repeat eexists.
Qed.
Ltac d25 A H := destruct (destr25 A H) as (? & ? & ? & ? & ? & ? & ? & ? & ? & ? & ? & ? & ? & ? & ? & ? & ? & ? & ? & ? & ? & ? & ? & ? & ? & ->).
Ltac d5 A H := destruct (destr5 A H) as (? & ? & ? & ? & ? & ->).
Definition up_ok (x : sx) (c : Z) (rest : list Z) : Prop := forall A C D E, length A = 25%nat -> length C = 5%nat -> length D = 5%nat -> length E = 25%nat ->
  exists A' C' D', length A' = 25%nat /\ length C' = 5%nat /\ length D' = 5%nat /\
    exec 64 (tround 0 35 x) (A ++ C ++ D ++ E ++ rest) = A' ++ C' ++ D' ++ kround' A c ++ rest.
Definition down_ok (x : sx) (c : Z) (rest : list Z) : Prop := forall A C D E, length A = 25%nat -> length C = 5%nat -> length D = 5%nat -> length E = 25%nat ->
  exists C' D' E', length C' = 5%nat /\ length D' = 5%nat /\ length E' = 25%nat /\
    exec 64 (tround 35 0 x) (A ++ C ++ D ++ E ++ rest) = kround' E c ++ C' ++ D' ++ E' ++ rest.
Ltac fill := match goal with |- exists A' C' D', _ /\ _ /\ _ /\ ?a0 :: ?a1 :: ?a2 :: ?a3 :: ?a4 :: ?a5 :: ?a6 :: ?a7 :: ?a8 :: ?a9 :: ?a10 :: ?a11 :: ?a12 :: ?a13 :: ?a14 :: ?a15 :: ?a16 :: ?a17 :: ?a18 :: ?a19 :: ?a20 :: ?a21 :: ?a22 :: ?a23 :: ?a24 :: ?c0 :: ?c1 :: ?c2 :: ?c3 :: ?c4 :: ?d0 :: ?d1 :: ?d2 :: ?d3 :: ?d4 :: _ = _ =>
  exists [a0; a1; a2; a3; a4; a5; a6; a7; a8; a9; a10; a11; a12; a13; a14; a15; a16; a17; a18; a19; a20; a21; a22; a23; a24], [c0; c1; c2; c3; c4], [d0; d1; d2; d3; d4] end.
Ltac fill2 := match goal with |- exists C' D' E', _ /\ _ /\ _ /\ _ :: _ :: _ :: _ :: _ :: _ :: _ :: _ :: _ :: _ :: _ :: _ :: _ :: _ :: _ :: _ :: _ :: _ :: _ :: _ :: _ :: _ :: _ :: _ :: _ :: ?c0 :: ?c1 :: ?c2 :: ?c3 :: ?c4 :: ?d0 :: ?d1 :: ?d2 :: ?d3 :: ?d4 :: ?a0 :: ?a1 :: ?a2 :: ?a3 :: ?a4 :: ?a5 :: ?a6 :: ?a7 :: ?a8 :: ?a9 :: ?a10 :: ?a11 :: ?a12 :: ?a13 :: ?a14 :: ?a15 :: ?a16 :: ?a17 :: ?a18 :: ?a19 :: ?a20 :: ?a21 :: ?a22 :: ?a23 :: ?a24 :: _ = _ =>
  exists [c0; c1; c2; c3; c4], [d0; d1; d2; d3; d4], [a0; a1; a2; a3; a4; a5; a6; a7; a8; a9; a10; a11; a12; a13; a14; a15; a16; a17; a18; a19; a20; a21; a22; a23; a24] end.
Ltac round_in := intros A C D E HA HC HD HE; d25 A HA; d25 E HE; d5 C HC; d5 D HD; clear; symk.
Ltac round_out := split; [reflexivity|split; [reflexivity|split; [reflexivity|reflexivity]]].
Lemma up_K c rest : up_ok (K c) c rest. Proof. round_in. fill. round_out. Qed.
Lemma down_K c rest : down_ok (K c) c rest. Proof. round_in. fill2. round_out. Qed.
Lemma up_R c d : up_ok (R 60) c [c; d]. Proof. round_in. fill. round_out. Qed.
Lemma down_R c d : down_ok (R 61) d [c; d]. Proof. round_in. fill2. round_out. Qed.

(** * ranges, and the round of the specification *)
Lemma lanes_ext f g : (forall x y, (x < 5)%nat -> (y < 5)%nat -> f x y = g x y) -> lanes f = lanes g.
Proof.
  intros H. unfold lanes. apply map_ext_in. intros i Hi. apply in_seq in Hi. apply H.
  - apply Nat.mod_upper_bound. lia.
  - apply Nat.div_lt_upper_bound; lia.
Qed.
Lemma lanes_ok f : (forall x y, lane_ok (f x y)) -> st_ok (lanes f).
Proof. intros H. split; [reflexivity|]. unfold lanes. apply Forall_map. apply Forall_forall. intros; apply H. Qed.
Lemma lane_in A x y : st_ok A -> lane_ok (lane A x y).
Proof.
  intros (Hl & H). unfold lane. rewrite Forall_forall in H. apply H. apply nth_In. rewrite Hl.
  pose proof (Nat.mod_upper_bound x 5). pose proof (Nat.mod_upper_bound y 5). lia.
Qed.
Lemma rotl_ok n x : 0 <= n <= 64 -> lane_ok x -> lane_ok (rotl64 n x).
Proof.
  intros Hn Hx. unfold rotl64, lane_ok in *. apply lor_range; [lia| |].
  - apply Z.mod_pos_bound. lia.
  - rewrite Z.shiftr_div_pow2 by lia. split; [apply Z.div_pos; lia|]. apply Z.div_lt_upper_bound; [apply Z.pow_pos_nonneg; lia|].
    pose proof (Z.pow_pos_nonneg 2 (64 - n)). nia.
Qed.
Lemma rotl_0 x : lane_ok x -> rotl64 0 x = x.
Proof.
  intros Hx. unfold rotl64. rewrite Z.shiftl_0_r. change (64 - 0) with 64. rewrite Z.shiftr_div_pow2 by lia.
  unfold lane_ok in Hx. rewrite Z.mod_small, Z.div_small by lia. apply Z.lor_0_r.
Qed.
Lemma not_ok x : lane_ok (not64 x). Proof. unfold lane_ok, not64. apply Z.mod_pos_bound. lia. Qed.
Lemma land_lane a b : lane_ok a -> lane_ok b -> lane_ok (Z.land a b).
Proof. unfold lane_ok. intros. apply land_range; lia. Qed.
Lemma column_ok A x : st_ok A -> lane_ok (column A x).
Proof. intros H. unfold column. repeat apply lxor_lane; now apply lane_in. Qed.
Lemma theta_ok A : st_ok A -> st_ok (theta A).
Proof.
  intros H. apply lanes_ok. intros. apply lxor_lane; [now apply lane_in|]. apply lxor_lane; [now apply column_ok|].
  apply rotl_ok; [lia|now apply column_ok].
Qed.
Lemma rho_offset_lt x y : (rho_offset x y < 64)%nat.
Proof.
  unfold rho_offset. destruct (find _ _) eqn:E; [|lia]. apply find_some in E. destruct E as (E & _).
  assert (H : forallb (fun e => Nat.ltb (snd e) 64) (rho_walk 24 0 1 0) = true) by (vm_compute; reflexivity).
  rewrite forallb_forall in H. apply H in E. now apply Nat.ltb_lt in E.
Qed.
Lemma rho_ok A : st_ok A -> st_ok (rho A).
Proof. intros H. apply lanes_ok. intros. apply rotl_ok; [pose proof (rho_offset_lt x y); lia|now apply lane_in]. Qed.
Lemma pi_ok A : st_ok A -> st_ok (pi A). Proof. intros H. apply lanes_ok. intros. now apply lane_in. Qed.
Lemma chi_ok A : st_ok A -> st_ok (chi A).
Proof. intros H. apply lanes_ok. intros. apply lxor_lane; [now apply lane_in|]. apply land_lane; [apply not_ok|now apply lane_in]. Qed.
Lemma iota_ok c A : lane_ok c -> st_ok A -> st_ok (iota c A).
Proof. intros Hc H. apply lanes_ok. intros. destruct (_ =? _)%nat; [apply lxor_lane; auto|]; now apply lane_in. Qed.
Lemma RC_range i : lane_ok (RC i).
Proof.
  unfold RC. cbn [seq map fold_right].
  assert (H : forall (b : bool) v, 0 <= v -> 0 <= (if b then v else 0) <= v) by (intros []; lia).
  match goal with |- lane_ok (?a + (?b + (?c + (?d + (?e + (?f + (?g + 0))))))) =>
    assert (0 <= a <= 1) by (apply (H (rc _) 1); lia);
    assert (0 <= b <= 2) by (apply (H (rc _) 2); lia);
    assert (0 <= c <= 8) by (apply (H (rc _) 8); lia);
    assert (0 <= d <= 128) by (apply (H (rc _) 128); lia);
    assert (0 <= e <= 2 ^ 15) by (apply (H (rc _) (2 ^ 15)); lia);
    assert (0 <= f <= 2 ^ 31) by (apply (H (rc _) (2 ^ 31)); lia);
    assert (0 <= g <= 2 ^ 63) by (apply (H (rc _) (2 ^ 63)); lia) end.
  unfold lane_ok. lia.
Qed.
Lemma round_ok A i : st_ok A -> st_ok (keccak_round A i).
Proof. intros H. unfold keccak_round. apply iota_ok; [apply RC_range|]. now apply chi_ok, pi_ok, rho_ok, theta_ok. Qed.
Lemma rho_eq A : st_ok A -> rho A = rho' A.
Proof.
  intros H. unfold rho, rho', lanes. apply map_ext_in. intros i Hi. pose proof OFF_ok as Ho. rewrite forallb_forall in Ho.
  specialize (Ho i Hi). apply Nat.eqb_eq in Ho. rewrite Ho. apply in_seq in Hi.
  assert (Hl : lane A (i mod 5) (i / 5) = nth i A 0).
  { unfold lane. f_equal. rewrite Nat.mod_mod by lia. rewrite (Nat.mod_small (i / 5)) by (apply Nat.div_lt_upper_bound; lia).
    pose proof (Nat.div_mod i 5). lia. }
  rewrite Hl. assert (lane_ok (nth i A 0)) by (rewrite <- Hl; now apply lane_in).
  destruct (nth i OFF 0%nat); [now apply rotl_0|]. reflexivity.
Qed.
Lemma round_eq A i : st_ok A -> kround' A (RC i) = keccak_round A i.
Proof. intros H. unfold kround', keccak_round. rewrite <- rho_eq by now apply theta_ok. reflexivity. Qed.
Lemma keccak_ok n A : st_ok A -> st_ok (keccak n A).
Proof. unfold keccak. revert A. induction (seq 0 n) as [|k l IH]; cbn [fold_left]; intros A H; auto. apply IH. now apply round_ok. Qed.

(** * two rounds, all rounds *)
Lemma exec_app w p q s : exec w (p ++ q) s = exec w q (exec w p s). Proof. apply fold_left_app. Qed.
Lemma pair_ok x y k rest A C D E : up_ok x (RC (2 * k)) rest -> down_ok y (RC (2 * k + 1)) rest -> st_ok A ->
  length C = 5%nat -> length D = 5%nat -> length E = 25%nat ->
  exists C' D' E', length C' = 5%nat /\ length D' = 5%nat /\ length E' = 25%nat /\
    exec 64 (tpair x y) (A ++ C ++ D ++ E ++ rest) = keccak_round (keccak_round A (2 * k)) (2 * k + 1) ++ C' ++ D' ++ E' ++ rest.
Proof.
  intros U V HA HC HD HE. unfold tpair. rewrite exec_app.
  destruct (U A C D E (proj1 HA) HC HD HE) as (A1 & C1 & D1 & a1 & c1 & d1 & ->). rewrite round_eq by auto.
  pose proof (round_ok A (2 * k) HA) as HR.
  destruct (V A1 C1 D1 _ a1 c1 d1 (proj1 HR)) as (C2 & D2 & E2 & c2 & d2 & e2 & ->). rewrite round_eq by auto.
  exists C2, D2, E2. auto.
Qed.
Definition two (A : list Z) (k : nat) : list Z := keccak_round (keccak_round A (2 * k)) (2 * k + 1).
Lemma two_ok A k : st_ok A -> st_ok (two A k). Proof. intros. now apply round_ok, round_ok. Qed.
Lemma keccak_two n A : keccak (2 * n) A = fold_left two (seq 0 n) A.
Proof.
  unfold keccak. induction n as [|n IH]; [reflexivity|]. replace (2 * S n)%nat with (2 * n + 2)%nat by lia.
  rewrite seq_app, fold_left_app, IH, (seq_S n), fold_left_app. cbn [seq fold_left]. unfold two at 2. rewrite Nat.add_1_r, !Nat.add_0_l. reflexivity.
Qed.
Lemma pairs_ok n rest A C D E : (n <= 24)%nat -> st_ok A -> length C = 5%nat -> length D = 5%nat -> length E = 25%nat ->
  exists C' D' E', length C' = 5%nat /\ length D' = 5%nat /\ length E' = 25%nat /\
    exec 64 (concat (map kpair (seq 0 n))) (A ++ C ++ D ++ E ++ rest) = keccak (2 * n) A ++ C' ++ D' ++ E' ++ rest.
Proof.
  intros Hn HA HC HD HE. rewrite keccak_two. induction n as [|n IH].
  - exists C, D, E. auto.
  - rewrite seq_S, map_app, concat_app, exec_app. destruct IH as (C1 & D1 & E1 & c1 & d1 & e1 & ->); [lia|].
    cbn [map concat Nat.add]. rewrite app_nil_r. unfold kpair, rcx. rewrite !RC_nth by lia.
    rewrite fold_left_app. cbn [fold_left]. apply pair_ok; auto; [apply up_K|apply down_K|].
    rewrite <- keccak_two. now apply keccak_ok.
Qed.
Lemma load_ok A C D E st : length A = 25%nat -> length C = 5%nat -> length D = 5%nat -> length E = 25%nat -> length st = 25%nat ->
  exec 64 kload (A ++ C ++ D ++ E ++ st) = st ++ C ++ D ++ E ++ st.
Proof. intros HA HC HD HE HS. d25 A HA; d25 E HE; d5 C HC; d5 D HD; d25 st HS. reflexivity. Qed.
Lemma store_ok A C D E st : length A = 25%nat -> length C = 5%nat -> length D = 5%nat -> length E = 25%nat -> length st = 25%nat ->
  slice (exec 64 kstore (A ++ C ++ D ++ E ++ st)) 60 25 = A.
Proof. intros HA HC HD HE HS. d25 A HA; d25 E HE; d5 C HC; d5 D HD; d25 st HS. reflexivity. Qed.
Lemma U_ok n st : (n <= 24)%nat -> st_ok st ->
  slice (exec 64 (kload ++ concat (map kpair (seq 0 n)) ++ kstore) (zeros 60 ++ st)) 60 25 = keccak (2 * n) st.
Proof.
  intros Hn H. rewrite !exec_app. change (zeros 60 ++ st) with (zeros 25 ++ zeros 5 ++ zeros 5 ++ zeros 25 ++ st).
  rewrite load_ok by first [reflexivity|apply (proj1 H)].
  destruct (pairs_ok n st st (zeros 5) (zeros 5) (zeros 25) Hn H eq_refl eq_refl eq_refl) as (C1 & D1 & E1 & c1 & d1 & e1 & ->).
  apply store_ok; auto; [|apply (proj1 H)]. apply keccak_ok, H.
Qed.
Lemma R24_ok st : st_ok st -> PermuteR24P1600U st = keccak 24 st.
Proof. intros H. unfold PermuteR24P1600U. rewrite text24. apply (U_ok 12); auto. lia. Qed.
Lemma R48_ok st : st_ok st -> PermuteR48P1600U st = keccak 48 st.
Proof. intros H. unfold PermuteR48P1600U. rewrite text48. apply (U_ok 24); auto. Qed.
Lemma loop_ok n A : (n <= 24)%nat -> st_ok A ->
  exists J, length J = 35%nat /\ fold_left Permute_loop (seq 0 n) (A ++ zeros 35) = fold_left two (seq 0 n) A ++ J.
Proof.
  intros Hn HA. induction n as [|n IH].
  - exists (zeros 35). split; reflexivity.
  - rewrite seq_S, !fold_left_app. destruct IH as (J & HJ & ->); [lia|]. cbn [fold_left Nat.add].
    assert (HS : st_ok (fold_left two (seq 0 n) A)) by (rewrite <- keccak_two; now apply keccak_ok).
    set (B := fold_left two (seq 0 n) A) in *. clearbody B. unfold Permute_loop. rewrite textC, !RC_nth by lia.
    rewrite <- (firstn_skipn 5 J). rewrite <- (firstn_skipn 5 (skipn 5 J)). rewrite <- !app_assoc.
    destruct (pair_ok (R 60) (R 61) n [RC (2 * n); RC (2 * n + 1)] B (firstn 5 J) (firstn 5 (skipn 5 J)) (skipn 5 (skipn 5 J)))
      as (C1 & D1 & E1 & c1 & d1 & e1 & Q); auto; [apply up_R|apply down_R| | | |];
      rewrite ?skipn_length, ?firstn_length, ?skipn_length, ?HJ; try reflexivity.
    exists (C1 ++ D1 ++ E1). split; [rewrite !app_length; lia|]. etransitivity; [apply (f_equal (firstn 60) Q)|].
    pose proof (proj1 (two_ok B n HS)) as HT. unfold two in HT |- *. rewrite !app_assoc.
    rewrite firstn_app, firstn_all2 by (rewrite !app_length; lia). rewrite !app_length, HT, c1, d1, e1. cbn [firstn]. apply app_nil_r.
Qed.
Lemma Permute_ok n st : (n <= 24)%nat -> st_ok st -> Permute (2 * n) st = keccak (2 * n) st.
Proof.
  intros Hn H. unfold Permute. replace ((2 * n + 1) / 2)%nat with n by (rewrite (Nat.mul_comm 2), Nat.div_add_l by lia; cbn; lia).
  destruct (loop_ok n st Hn H) as (J & HJ & ->). rewrite <- keccak_two.
  pose proof (proj1 (keccak_ok (2 * n) st H)) as Hk. rewrite firstn_app, Hk. rewrite firstn_all2 by lia. now rewrite app_nil_r.
Qed.
