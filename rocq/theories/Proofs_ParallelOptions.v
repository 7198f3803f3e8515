From Verif Require Import Base BaseLemmas Spec_Modes Model_ParallelOptions Model_Modes Session_ParallelOptions.
Open Scope Z_scope.

(** everything but the relation between parallel block size and minimum *)
Definition pre (k : Z) (o : popt) : Prop :=
  0 < p_blk o /\ p_auto o = false /\ size (p_pblk o) /\ 0 <= p_deg o /\ 0 < p_proc o /\
  p_deg o * (p_blk o * (if p_simd o then k else 1)) < 2 ^ 64 /\
  p_proc o * (p_blk o * (if p_simd o then k else 1)) < 2 ^ 64.
Definition inv (k : Z) (o : popt) : Prop :=
  pre k o /\ 0 < p_deg o /\ p_min o = p_deg o * (p_blk o * (if p_simd o then k else 1)) /\ 0 < p_min o /\ p_pblk o mod p_min o = 0.
Definition same (o o' : popt) : Prop :=
  p_blk o' = p_blk o /\ p_simd o' = p_simd o /\ p_proc o' = p_proc o /\ p_virt o' = p_virt o /\ p_phys o' = p_phys o.
Definition wide (o : popt) : Prop := p_par o = true -> p_min o <= p_pblk o.

Lemma u64_id x : 0 <= x < 2 ^ 64 -> u64 x = x.
Proof. intro H. unfold u64. apply Z.mod_small, H. Qed.
Lemma u64_size x : size (u64 x).
Proof. unfold size, u64. apply Z.mod_pos_bound. reflexivity. Qed.

Lemma round x m : 0 < m -> 0 <= x -> 0 <= x - x mod m <= x /\ (x - x mod m) mod m = 0 /\ (m <= x -> m <= x - x mod m).
Proof.
  intros Hm Hx. pose proof (Z.div_mod x m ltac:(lia)) as D. pose proof (Z.mod_pos_bound x m Hm) as B.
  assert (E : x - x mod m = (x / m) * m) by lia. rewrite E. rewrite Z_mod_mult.
  assert (0 <= x / m) by (apply Z.div_pos; lia).
  repeat split; try nia. intro. assert (1 <= x / m) by (apply Z.div_le_lower_bound; lia). nia.
Qed.
Lemma mins k o : 1 <= k -> 0 < p_blk o -> 0 <= p_deg o -> p_deg o * (p_blk o * (if p_simd o then k else 1)) < 2 ^ 64 ->
  u64 (p_deg o * p_blk o) = p_deg o * p_blk o /\
  (p_simd o = true -> u64 (p_deg o * p_blk o * k) = p_deg o * (p_blk o * k)).
Proof.
  intros Hk Hb Hd H. destruct (p_simd o).
  - assert (0 <= p_deg o * p_blk o) by nia. assert (p_deg o * (p_blk o * k) = p_deg o * p_blk o * k) by ring.
    split; [apply u64_id; split; [lia|] | intros _; rewrite <- H1 in *; apply u64_id; split; nia].
    apply Z.le_lt_trans with (p_deg o * (p_blk o * k)); [|exact H]. rewrite H1. nia.
  - split; [|discriminate]. apply u64_id. rewrite Z.mul_1_r in H. split; nia.
Qed.

Lemma calc_ok k o : 1 <= k -> pre k o -> exists o', Calculate k o = Ok o' /\ inv k o' /\ wide o' /\ same o o' /\ p_par o' = p_par o.
Proof.
  intros Hk (Hb & Ha & Hp & Hd & Hn & Hdg & Hng). unfold Calculate.
  set (o1 := if ((p_proc o <? p_deg o) && negb (p_ovr o)) || (p_deg o =? 0) then set_deg o (p_proc o) else o).
  assert (F : p_blk o1 = p_blk o /\ p_auto o1 = false /\ p_pblk o1 = p_pblk o /\ 0 < p_deg o1 /\ p_proc o1 = p_proc o /\ p_simd o1 = p_simd o /\
    p_par o1 = p_par o /\ p_virt o1 = p_virt o /\ p_phys o1 = p_phys o /\ p_deg o1 * (p_blk o1 * (if p_simd o1 then k else 1)) < 2 ^ 64).
  { unfold o1. destruct (((p_proc o <? p_deg o) && negb (p_ovr o)) || (p_deg o =? 0)) eqn:E.
    - cbn [set_deg p_blk p_auto p_pblk p_deg p_proc p_simd p_par p_virt p_phys]. tauto.
    - apply Bool.orb_false_iff in E. destruct E as [_ E]. apply Z.eqb_neq in E. repeat split; auto. lia. }
  clearbody o1. destruct F as (Fb & Fa & Fp & Fd & Fn & Fs & Fr & Fv & Fy & Fm).
  destruct (mins k o1 Hk ltac:(lia) ltac:(lia) Fm) as (M1 & M2).
  set (o2 := if p_simd (set_min o1 (u64 (p_deg o1 * p_blk o1))) then _ else _).
  assert (G : p_blk o2 = p_blk o /\ p_auto o2 = false /\ p_pblk o2 = p_pblk o /\ p_deg o2 = p_deg o1 /\ p_proc o2 = p_proc o /\ p_simd o2 = p_simd o /\
    p_par o2 = p_par o /\ p_virt o2 = p_virt o /\ p_phys o2 = p_phys o /\ p_min o2 = p_deg o1 * (p_blk o * (if p_simd o then k else 1))).
  { unfold o2. cbn [set_min p_simd]. destruct (p_simd o1) eqn:S; cbn [set_min p_blk p_auto p_pblk p_deg p_proc p_simd p_par p_virt p_phys p_min].
    - rewrite M1, M2 by reflexivity. rewrite <- Fs, <- Fb. repeat split; auto.
    - rewrite M1. rewrite <- Fs, <- Fb. repeat split; auto. lia. }
  clearbody o2. destruct G as (Gb & Ga & Gp & Gd & Gn & Gs & Gr & Gv & Gy & Gm).
  rewrite Ga.
  assert (Gk : 1 <= (if p_simd o then k else 1)) by (destruct (p_simd o); lia).
  rewrite Fb, Fs in Fm.
  set (kk := if p_simd o then k else 1) in *.
  assert (Mp : 0 < p_min o2). { rewrite Gm. assert (0 < p_blk o * kk) by nia. nia. }
  set (o3 := if p_par o2 then _ else _).
  assert (K : p_blk o3 = p_blk o /\ p_auto o3 = false /\ size (p_pblk o3) /\ p_deg o3 = p_deg o1 /\ p_proc o3 = p_proc o /\ p_simd o3 = p_simd o /\
    p_par o3 = p_par o /\ p_virt o3 = p_virt o /\ p_phys o3 = p_phys o /\ p_min o3 = p_min o2 /\ wide o3).
  { unfold o3, wide. destruct (p_par o2) eqn:P; [|rewrite P, Gp; repeat split; auto; try apply Hp; discriminate].
    set (o4 := if p_pblk o2 =? 0 then _ else _).
    assert (W : o4 = set_pblk o2 (p_pblk o4) /\ size (p_pblk o4)).
    { unfold o4. destruct (p_pblk o2 =? 0); [split; [reflexivity | apply u64_size]|]. split; [destruct o2; reflexivity | rewrite Gp; exact Hp]. }
    destruct W as [W1 W2]. generalize dependent (p_pblk o4). intros z W1 W2. rewrite W1. cbn [set_pblk p_pblk p_min].
    destruct (z <? p_min o2) eqn:L; cbn [set_pblk p_blk p_auto p_pblk p_deg p_proc p_simd p_par p_virt p_phys p_min].
    - assert (size (p_min o2)) by (unfold size; rewrite Gm; lia). rewrite Gr in P. repeat split; auto; try (apply H). lia.
    - apply Z.ltb_ge in L. rewrite Gr in P. repeat split; auto; try apply W2. }
  clearbody o3. destruct K as (Kb & Ka & Kp & Kd & Kn & Ks & Kr & Kv & Ky & Km & Kw).
  assert (Inv : forall x, 0 <= x <= p_pblk o3 -> x mod p_min o3 = 0 -> (p_min o3 <= p_pblk o3 -> p_min o3 <= x) ->
     inv k (set_pblk o3 x) /\ wide (set_pblk o3 x) /\ same o (set_pblk o3 x) /\ p_par (set_pblk o3 x) = p_par o).
  { intros x X1 X2 X3. unfold inv, pre, wide, same, size in *. cbn [set_pblk p_blk p_auto p_pblk p_deg p_proc p_simd p_par p_virt p_phys p_min].
    rewrite Kb, Ka, Kd, Kn, Ks, Kr, Kv, Ky, Km in *. fold kk. repeat split; auto; try lia. }
  destruct (p_pblk o3 =? 0) eqn:Z0; cbn [negb].
  - apply Z.eqb_eq in Z0. exists o3. split; [reflexivity|].
    assert (S : set_pblk o3 0 = o3) by (destruct o3; cbn in Z0; subst; reflexivity).
    rewrite <- S. apply Inv; rewrite ?Z0; try lia. apply Z.mod_0_l. lia.
  - rewrite Km. replace (p_min o2 =? 0) with false by (symmetry; apply Z.eqb_neq; lia).
    eexists. split; [reflexivity|]. rewrite <- Km. destruct (round (p_pblk o3) (p_min o3) ltac:(lia) (proj1 Kp)) as (R1 & R2 & R3).
    apply Inv; auto.
Qed.

Lemma detect_proc c o : cpu_ok c -> let n := p_proc (Detect c o) in 0 < n <= Z.max (phys c) (virt c).
Proof.
  intros (_ & _ & _ & H). cbn [Detect p_proc]. destruct (phys c <? virt c) eqn:E; [apply Z.ltb_lt in E | apply Z.ltb_ge in E];
  destruct ((1 <? _) && _) eqn:F; try apply andb_prop in F; try (destruct F as [F _]; apply Z.ltb_lt in F); lia.
Qed.
Lemma detect_deg c o : 0 <= p_deg o -> cpu_ok c -> 0 <= p_deg (Detect c o) <= p_proc (Detect c o).
Proof.
  intros H Hc. pose proof (detect_proc c o Hc) as P. cbv zeta in P. revert P. cbn [Detect p_proc p_deg].
  set (n := if (1 <? _) && _ then _ else _). intro P. destruct (n <? p_deg o) eqn:E; [|apply Z.ltb_ge in E]; lia.
Qed.

(** the automatic first calculation *)
Lemma calc_auto k o : 1 <= k -> p_auto o = true -> pre k (set_auto o false) -> exists o', Calculate k o = Ok o' /\ inv k o' /\ same o o' /\ p_par o' = (1 <? p_proc o).
Proof.
  intros Hk Ha Hp.
  pose (x := (if p_split o then u64 (p_tot o - p_res o) / 2 else u64 (p_tot o - p_res o))).
  assert (Sx : size x). { unfold x. pose proof (u64_size (p_tot o - p_res o)) as U. unfold size in *. destruct (p_split o); [|exact U]. split; [apply Z.div_pos; lia|]. apply Z.div_lt_upper_bound; lia. }
  pose (o0 := set_pblk (set_par (set_auto o false) false) x).
  assert (P0 : pre k o0). { unfold o0, pre in *. cbn [set_pblk set_par set_auto p_blk p_auto p_pblk p_deg p_proc p_simd] in *. tauto. }
  destruct (calc_ok k o0 Hk P0) as (o' & E & I & W & S & R).
  exists (set_par o' (1 <? p_proc o)). split.
  - revert E. unfold Calculate, o0. destruct o as [au b pr rs tt ov pb d mn ph pc sm sp vr].
    cbn [set_pblk set_par set_auto set_deg set_min p_auto p_blk p_par p_res p_tot p_ovr p_pblk p_deg p_min p_phys p_proc p_simd p_split p_virt] in *.
    rewrite Ha.
    destruct (((pc <? d) && negb ov) || (d =? 0)); destruct sm; destruct sp; subst x;
    cbn [set_pblk set_par set_auto set_deg set_min p_auto p_blk p_par p_res p_tot p_ovr p_pblk p_deg p_min p_phys p_proc p_simd p_split p_virt];
    destruct (negb _); try (destruct (_ =? 0)); intro E; try discriminate E; injection E as <-; reflexivity.
  - unfold inv, pre, same, o0 in *. cbn [set_pblk set_par set_auto p_auto p_blk p_par p_res p_tot p_ovr p_pblk p_deg p_min p_phys p_proc p_simd p_split p_virt] in *. tauto.
Qed.

Definition at_ctor (n : ctor) (c : cpu) (o : popt) : Prop :=
  p_blk o = blk_of n /\ p_simd o = simd_of n /\ p_virt o = virt c /\ p_phys o = phys c.

Lemma construct_ok k c n : 1 <= k -> cpu_ok c -> ctor_ok n -> no_overflow k c n -> blk_of n <> 0 -> blk_of n mod 2 = 0 ->
  exists o, construct k c n = Ok o /\ inv k o /\ at_ctor n c o /\ (match n with NewSized _ _ _ _ _ _ _ => wide o | _ => True end).
Proof.
  intros Hk Hc Hn Ho Hb He. unfold no_overflow, grain in Ho.
  assert (G : negb (blk_of n =? 0) && (blk_of n mod 2 =? 0) = true).
  { rewrite He. replace (blk_of n =? 0) with false by (symmetry; apply Z.eqb_neq; exact Hb). reflexivity. }
  assert (P : forall o, 0 <= p_deg o -> p_blk o = blk_of n -> p_simd o = simd_of n -> size (p_pblk o) -> pre k (set_auto (Detect c o) false)).
  { intros o Hd E1 E2 E3. pose proof (detect_proc c o Hc) as D. cbv zeta in D. pose proof (detect_deg c o Hd Hc) as Q.
    unfold pre. cbn [set_auto p_blk p_auto p_pblk p_deg p_proc p_simd].
    assert (B : p_blk (Detect c o) = blk_of n) by exact E1. assert (S : p_simd (Detect c o) = simd_of n) by exact E2.
    rewrite B, S. change (p_pblk (Detect c o)) with (p_pblk o).
    assert (0 < blk_of n) by (destruct Hn as [[? ?] _]; lia).
    assert (0 < blk_of n * (if simd_of n then k else 1)) by (destruct (simd_of n); nia).
    repeat split; auto; try apply E3; try lia; nia. }
  destruct n as [b sm r sp d | b pr sm r sp d | b pr pb d sm r sp]; cbn [construct blk_of simd_of] in *.
  - unfold New_auto. rewrite G. destruct Hn as [_ [Hr Hd]].
    destruct (calc_auto k (Detect c (POpt true b false r 0 false 0 d 0 0 0 sm sp 0)) Hk eq_refl) as (o & E & I & S & R).
    { apply P; auto; [apply Hd | split; reflexivity]. }
    exists o. split; [exact E|]. split; [exact I|]. split; [|exact Logic.I]. unfold at_ctor, same in *. cbn [blk_of simd_of]. destruct S as (S1 & S2 & S3 & S4 & S5). rewrite S1, S2, S4, S5. repeat split.
  - unfold New_flag. rewrite G. destruct Hn as [_ [Hr Hd]].
    destruct (calc_auto k (Detect c (POpt true b pr r 0 false 0 d 0 0 0 sm sp 0)) Hk eq_refl) as (o & E & I & S & R).
    { apply P; auto; [apply Hd | split; reflexivity]. }
    rewrite E. cbn [bind]. eexists. split; [reflexivity|]. split; [exact I|]. split; [|exact Logic.I]. unfold at_ctor, same in *. cbn [blk_of simd_of set_par p_blk p_simd p_virt p_phys]. destruct S as (S1 & S2 & S3 & S4 & S5). rewrite S1, S2, S4, S5. repeat split.
  - unfold New_sized. rewrite G. destruct Hn as [_ (Hp & Hd & Hr)].
    destruct (calc_ok k (Detect c (POpt false b pr r 0 false pb d 0 0 0 sm sp 0)) Hk) as (o & E & I & W & S & R).
    { apply (P (POpt false b pr r 0 false pb d 0 0 0 sm sp 0)); auto. apply Hd. }
    exists o. split; [exact E|]. split; [exact I|]. split; [|exact W]. unfold at_ctor, same in *. cbn [blk_of simd_of]. destruct S as (S1 & S2 & S3 & S4 & S5). rewrite S1, S2, S4, S5. repeat split.
Qed.

Lemma same_refl o : same o o.
Proof. repeat split. Qed.
Lemma step_ok k c n o a : 1 <= k -> inv k o -> at_ctor n c o -> pcall_ok (grain k n) a ->
  exists o' e, pstep k o a = Ok (o', e) /\ inv k o' /\ at_ctor n c o' /\ (turned_on a = false -> wide o -> wide o').
Proof.
  intros Hk I A Ha.
  assert (G : grain k n = p_blk o * (if p_simd o then k else 1)) by (destruct A as (-> & -> & _); reflexivity).
  rewrite G in Ha. clear G.
  assert (C : forall x, pre k x -> same o x -> exists o', Calculate k x = Ok o' /\ inv k o' /\ at_ctor n c o' /\ wide o').
  { intros x Px Sx. destruct (calc_ok k x Hk Px) as (o' & E & I' & W & S & _). exists o'. repeat split; auto; try apply I';
    unfold same, at_ctor in *; destruct A as (A1 & A2 & A3 & A4); destruct S as (S1 & S2 & S3 & S4 & S5); destruct Sx as (X1 & X2 & X3 & X4 & X5); congruence. }
  pose proof I as ((Hb & Hau & Hp & Hd & Hn & Hdg & Hng) & Hd' & Hm & Hm' & Hr).
  assert (Deg : forall d, size d -> d * (p_blk o * (if p_simd o then k else 1)) < 2 ^ 64 -> d <> 0 ->
    exists o' e, kept o (SetMaxDegree k o d) = Ok (o', e) /\ inv k o' /\ at_ctor n c o' /\ wide o').
  { intros d Hs Hdd Hz. unfold SetMaxDegree. apply Z.eqb_neq in Hz. rewrite Hz.
    destruct (C (set_deg (set_ovr o true) d)) as (o' & E & R); [| repeat split | rewrite E; exists o', None; auto].
    unfold pre. cbn [set_deg set_ovr p_blk p_auto p_pblk p_deg p_proc p_simd]. destruct Hs. tauto. }
  destruct a as [m|d|d|b m d|b]; cbn [pstep pcall_ok turned_on] in *.
  - unfold SetBlockSize. destruct (m <? p_min o); [exists o, (Some InvalidParam); split; [reflexivity|]; split; [exact I|]; split; [exact A|]; intros _ Hw; exact Hw|].
    destruct (C (set_pblk o m)) as (o' & E & R1 & R2 & R3); [| repeat split | rewrite E; exists o', None; auto].
    unfold pre. cbn [set_pblk p_blk p_auto p_pblk p_deg p_proc p_simd]. tauto.
  - destruct (Z.eq_dec d 0) as [->|Hz]; [exists o, (Some InvalidParam); split; [reflexivity|]; split; [exact I|]; split; [exact A|]; intros _ Hw; exact Hw|].
    destruct (Deg d (proj1 Ha) (proj2 Ha) Hz) as (o' & e & E & R1 & R2 & R3). exists o', e. auto.
  - unfold Mode_MaxDegree. destruct (_ || _ || _) eqn:T; [exists o, (Some InvalidParam); split; [reflexivity|]; split; [exact I|]; split; [exact A|]; intros _ Hw; exact Hw|].
    assert (Hz : d <> 0). { intros ->. discriminate T. }
    destruct (Deg d (proj1 Ha) (proj2 Ha) Hz) as (o' & e & E & R1 & R2 & R3). exists o', e. auto.
  - unfold CalculateWith. destruct Ha as (Sm & Sd & Hdd).
    match goal with |- context [Calculate k ?x] => destruct (C x) as (o' & E & R1 & R2 & R3) end.
    + unfold pre. destruct (negb (m =? 0)), (negb (d =? 0)); cbn [set_par set_pblk set_deg p_blk p_auto p_pblk p_deg p_proc p_simd]; destruct Sd; tauto.
    + unfold same. destruct (negb (m =? 0)), (negb (d =? 0)); cbn [set_par set_pblk set_deg p_blk p_simd p_proc p_virt p_phys]; repeat split.
    + rewrite E. exists o', None. auto.
  - exists (set_par o b), None. split; [reflexivity|]. split; [exact I|]. split; [exact A|]. intros Hf _. destruct b; [discriminate|]. unfold wide. cbn. discriminate.
Qed.

Lemma life_ok k c n cs : 1 <= k -> forall o, inv k o -> at_ctor n c o -> (forall a, In a cs -> pcall_ok (grain k n) a) ->
  exists o', plife k o cs = Ok o' /\ inv k o' /\ at_ctor n c o' /\ ((forall a, In a cs -> turned_on a = false) -> wide o -> wide o').
Proof.
  intros Hk. induction cs as [|a t IH]; intros o I A H.
  - exists o. cbn [plife]. split; [reflexivity|]. split; [exact I|]. split; [exact A|]. intros _ Hw; exact Hw.
  - destruct (step_ok k c n o a Hk I A (H a (or_introl eq_refl))) as (o1 & e & E & I1 & A1 & W1).
    destruct (IH o1 I1 A1 (fun x Hx => H x (or_intror Hx))) as (o2 & E2 & I2 & A2 & W2).
    exists o2. cbn [plife]. rewrite E. cbn [bind fst]. split; [exact E2|]. split; [exact I2|]. split; [exact A2|].
    intros F W. apply W2; [intros x Hx; apply F; right; exact Hx|]. apply W1; [apply F; left; reflexivity | exact W].
Qed.

Lemma inv_sizes k c n o : inv k o -> at_ctor n c o -> 0 < p_deg o /\ p_min o = p_deg o * grain k n /\ (p_min o | p_pblk o) /\ 0 <= p_pblk o.
Proof.
  intros (P & D & M & M' & R) (A1 & A2 & _). repeat split; auto.
  - rewrite M. unfold grain. rewrite A1, A2. reflexivity.
  - apply Z.mod_divide; lia.
  - apply P.
Qed.
Lemma inv_good k c n o : 1 <= k -> blk_of n = 16 -> inv k o -> at_ctor n c o -> wide o -> p_par o = true -> good_profile (deg (seen_by_modes o)) (pblk (seen_by_modes o)).
Proof.
  intros Hk Hb I A W P. pose proof (W P) as Hw. destruct (inv_sizes k c n o I A) as (D & M & [q Q] & P0). destruct I as (_ & _ & _ & M' & _).
  unfold grain in M. rewrite Hb in M. set (kk := if simd_of n then k else 1) in *. assert (1 <= kk) by (unfold kk; destruct (simd_of n); lia).
  assert (Q0 : 0 < q) by nia.
  exists (Z.to_nat (q * kk)). cbn [seen_by_modes deg pblk]. repeat split; try (assert (0 < q * kk) by nia; lia).
Qed.

Lemma c64_sizes k c n cs : 1 <= k -> cpu_ok c -> ctor_ok n -> no_overflow k c n -> blk_of n <> 0 -> blk_of n mod 2 = 0 ->
  (forall a, In a cs -> pcall_ok (grain k n) a) ->
  exists o, bind (construct k c n) (fun o => plife k o cs) = Ok o /\
    0 < p_deg o /\ p_min o = p_deg o * grain k n /\ (p_min o | p_pblk o) /\ 0 <= p_pblk o.
Proof.
  intros Hk Hc Hn Ho Hb He Ha. destruct (construct_ok k c n Hk Hc Hn Ho Hb He) as (o & E & I & A & _).
  destruct (life_ok k c n cs Hk o I A Ha) as (o' & E' & I' & A' & _).
  exists o'. rewrite E. cbn [bind]. split; [exact E'|]. exact (inv_sizes k c n o' I' A').
Qed.
Lemma check_wide o : Mode_check o = Ok tt -> wide o.
Proof.
  unfold Mode_check, wide. destruct (p_par o); [|discriminate]. destruct (p_pblk o <? p_min o) eqn:E; [discriminate|]. apply Z.ltb_ge in E. intros _ _. exact E.
Qed.
Lemma c64_modes k c n before after : 1 <= k -> cpu_ok c -> ctor_ok n -> no_overflow k c n -> blk_of n = 16 ->
  (forall a, In a (before ++ after) -> pcall_ok (grain k n) a) ->
  (forall a, In a after -> turned_on a = false) ->
  exists o, bind (construct k c n) (fun o => plife k o before) = Ok o /\
    (Mode_check o = Ok tt -> exists o', plife k o after = Ok o' /\
       (par (seen_by_modes o') = true -> good_profile (deg (seen_by_modes o')) (pblk (seen_by_modes o')))).
Proof.
  intros Hk Hc Hn Ho Hb Ha Ht. destruct (construct_ok k c n Hk Hc Hn Ho) as (o & E & I & A & _); [lia | rewrite Hb; reflexivity |].
  destruct (life_ok k c n before Hk o I A) as (o1 & E1 & I1 & A1 & _); [intros a Hin; apply Ha, in_or_app; auto|].
  exists o1. rewrite E. cbn [bind]. split; [exact E1|]. intro M.
  destruct (life_ok k c n after Hk o1 I1 A1) as (o2 & E2 & I2 & A2 & W2); [intros a Hin; apply Ha, in_or_app; auto|].
  exists o2. split; [exact E2|]. intro P. exact (inv_good k c n o2 Hk Hb I2 A2 (W2 Ht (check_wide o1 M)) P).
Qed.
Lemma c64_sized k c blk pb d simd r sp cs : 1 <= k -> cpu_ok c -> let n := NewSized blk true pb d simd r sp in
  ctor_ok n -> no_overflow k c n -> blk = 16 -> (forall a, In a cs -> pcall_ok (grain k n) a) -> (forall a, In a cs -> turned_on a = false) ->
  exists o, bind (construct k c n) (fun o => plife k o cs) = Ok o /\
    (par (seen_by_modes o) = true -> good_profile (deg (seen_by_modes o)) (pblk (seen_by_modes o))).
Proof.
  intros Hk Hc n Hn Ho Hb Ha Ht. destruct (construct_ok k c n Hk Hc Hn Ho) as (o & E & I & A & W); [cbn; lia | cbn [n blk_of]; rewrite Hb; reflexivity |].
  destruct (life_ok k c n cs Hk o I A Ha) as (o2 & E2 & I2 & A2 & W2).
  exists o2. rewrite E. cbn [bind]. split; [exact E2|]. intro P. exact (inv_good k c n o2 Hk Hb I2 A2 (W2 Ht W) P).
Qed.
Lemma c64_refused k o : 
  (forall n, n < p_min o -> pstep k o (PBlock n) = Ok (o, Some InvalidParam)) /\
  pstep k o (PDegree 0) = Ok (o, Some InvalidParam) /\
  (forall d, d = 0 \/ d mod 2 <> 0 \/ ProcessorCount o < d -> pstep k o (PMode d) = Ok (o, Some InvalidParam)).
Proof.
  split; [|split].
  - intros n H. cbn [pstep]. unfold SetBlockSize. rewrite (proj2 (Z.ltb_lt _ _) H). reflexivity.
  - reflexivity.
  - intros d H. cbn [pstep]. unfold Mode_MaxDegree.
    replace ((d =? 0) || negb (d mod 2 =? 0) || (ProcessorCount o <? d)) with true; [reflexivity|]. symmetry.
    destruct H as [->|[H|H]]; [reflexivity | |].
    + apply Z.eqb_neq in H. rewrite H. destruct (d =? 0); reflexivity.
    + apply Z.ltb_lt in H. rewrite H. apply Bool.orb_true_r.
Qed.
Lemma c64_block k c n : blk_of n = 0 \/ blk_of n mod 2 <> 0 -> construct k c n = Throw InvalidParam.
Proof.
  intro H. assert (G : negb (blk_of n =? 0) && (blk_of n mod 2 =? 0) = false).
  { destruct H as [->|H]; [reflexivity|]. apply Z.eqb_neq in H. rewrite H. apply Bool.andb_false_r. }
  destruct n; cbn [construct blk_of] in *; unfold New_auto, New_flag, New_sized; rewrite G; reflexivity.
Qed.
