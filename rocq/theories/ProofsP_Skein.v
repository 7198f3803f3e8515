(** Glue for the Skein properties. *)
From Verif Require Import BaseLemmas Spec_Common Proofs_Common Spec_Feed Session_Digest Proofs_Digest Model_IntegerTools Proofs_IntegerTools Model_Modes Proofs_Windows
  Model_Absorb Proofs_Absorb Model_Keccak Model_CSX Proofs_CSX Spec_ChaCha Spec_Threefish Model_Threefish Spec_Skein Model_SHA2Par Model_Skein Session_Skein Proofs_Skein Proofs_Skein2 Proofs_Skein3 Model_ParallelOptions ProofsP_CSX3.
Open Scope Z_scope.

(** * C69 *)
Lemma c69_any v p : a_skein v -> params_ok v p -> forall cs, Forall dcall_ok cs ->
  exists o rs, sk_new v 1 p = Ok o /\ dhistory (sk_update v) (sk_finalize v) (sk_compute v) o o cs = Ok rs /\
    expected (skein_hash_cfg v (2 ^ 64) (cfg_bytes p)) (sv_rate v) [] cs rs.
Proof.
  intros Hv HP cs HC. destruct (skein_facts v Hv) as (((H1 & H2) & H3) & H4).
  assert (L : length (chain0 (sv_F v) (sv_rounds v) (2 ^ 64) (cfg_bytes p)) = f_n (sv_F v)).
  { apply (start_len v H1 H2 H3 H4 (cfg_bytes p) 0). rewrite (cfg_len v); auto. }
  destruct (seq_history (sv_F v) (sv_rounds v) (sv_perm v) H1 H3 H4 _ L cs HC) as (rs & E & X).
  exists (fresh (sv_F v) (chain0 (sv_F v) (sv_rounds v) (2 ^ 64) (cfg_bytes p))), rs. split; [now apply KNew_one|split; [exact E|exact X]].
Qed.
Lemma expected_ext H H' n : (forall m, H m = H' m) -> forall cs m rs, expected H n m cs rs -> expected H' n m cs rs.
Proof.
  intros E. induction cs as [|c cs IH]; intros m rs X; [exact X|]. destruct rs as [|r rs]; [destruct c; exact X|].
  destruct c; cbn [expected] in *; try rewrite E in X; try (destruct X; split; [assumption|now apply IH]).
  - destruct (_ <=? _)%nat; destruct X; split; try assumption; now apply IH.
  - destruct (_ <=? _)%nat; destruct X; split; try assumption; now apply IH.
Qed.
Lemma c69_history v : a_skein v -> forall cs, Forall dcall_ok cs ->
  exists o rs, sk_new v 1 (default_params v) = Ok o /\ dhistory (sk_update v) (sk_finalize v) (sk_compute v) o o cs = Ok rs /\
    expected (skein_hash v (2 ^ 64)) (sv_rate v) [] cs rs.
Proof.
  intros Hv cs HC. destruct (c69_any v (default_params v) Hv (default_ok v Hv) cs HC) as (o & rs & A & B & C).
  exists o, rs. split; [exact A|split; [exact B|]]. eapply expected_ext; [|exact C]. intros m. symmetry. now apply skein_default.
Qed.
Lemma c69_standard v m : a_skein v -> Z.of_nat (length m) < 2 ^ 64 -> skein_hash v (2 ^ 64) m = skein_hash v (2 ^ 96) m.
Proof. intros Hv H. symmetry. apply skein_W; [exact Hv|discriminate|exact H]. Qed.
Lemma c69_params v p : a_skein v -> params_ok v p -> q_fan p = 1 -> forall cs, Forall dcall_ok cs ->
  exists o rs, KNew_params (f_n (sv_F v)) (sv_perm v) p = Ok o /\ dhistory (sk_update v) (sk_finalize v) (sk_compute v) o o cs = Ok rs /\
    expected (skein_hash_cfg v (2 ^ 64) (cfg_bytes p)) (sv_rate v) [] cs rs.
Proof.
  intros Hv HP Hf cs HC. destruct (c69_any v p Hv HP cs HC) as (o & rs & A & B & C). exists o, rs. split; [|now split].
  unfold KNew_params. rewrite Hf. cbn [Z.eqb negb Z.leb andb guard bind]. exact A.
Qed.
Lemma c69_fan v p : q_fan p = 0 \/ 64 < q_fan p -> KNew_params (f_n (sv_F v)) (sv_perm v) p = Throw IllegalOperation.
Proof.
  intros H. unfold KNew_params. assert (E : negb (q_fan p =? 0) && (q_fan p <=? 64) = false).
  { destruct H as [->|H]; [reflexivity|]. apply andb_false_intro2. apply Z.leb_gt. exact H. }
  rewrite E. reflexivity.
Qed.

(** * C70 *)
Lemma c70_history v p : a_skein v -> params_ok v p -> 0 < q_fan p <= 64 -> forall c, (0 < c)%nat -> forall cs, Forall dcall_ok cs ->
  let d := Z.to_nat (q_fan p) in let pblk := (c * (d * sv_rate v))%nat in
  exists o rs, KNew_params (f_n (sv_F v)) (sv_perm v) p = Ok o /\ dhistory (skp_update v d pblk) (skp_finalize v) (skp_compute v d pblk) o o cs = Ok rs /\
    expected (skein_hash_tree v (2 ^ 64) (cfg_bytes p) d) (sv_rate v) [] cs rs.
Proof.
  intros Hv HP Hf c Hc cs HC. cbv zeta. destruct (skein_facts v Hv) as (((H1 & H2) & H3) & H4).
  assert (L : length (cfg_bytes p) = (8 * f_n (sv_F v))%nat) by (rewrite (cfg_len v); auto).
  assert (Hd : (0 < Z.to_nat (q_fan p))%nat) by lia.
  destruct (tree_history v Hv (cfg_bytes p) L (Z.to_nat (q_fan p)) Hd c Hc cs HC) as (rs & E & X).
  exists (tfresh v (cfg_bytes p) (Z.to_nat (q_fan p))), rs. split; [|split; [exact E|exact X]].
  unfold KNew_params. replace (negb (q_fan p =? 0) && (q_fan p <=? 64)) with true by (symmetry; apply andb_true_intro; split; [apply Bool.negb_true_iff, Z.eqb_neq; lia|apply Z.leb_le; lia]).
  cbn [guard bind]. apply KNew_ok; auto.
Qed.
Lemma c70_profile k c v fan : a_skein v -> 1 < fan <= 64 -> 0 < phys c -> 0 < processors c < 2 ^ 32 -> 2048 + 64 * 128 <= l1 c < 2 ^ 63 ->
  let deg := Z.min fan (processors c) in
  exists o, New_flag k c (Z.of_nat (sv_rate v)) true false 2048 false fan = Ok o /\ p_par o = true /\ p_deg o = deg /\ p_min o = deg * Z.of_nat (sv_rate v) /\
    exists m, 0 < m /\ p_pblk o = m * p_min o.
Proof.
  intros Hv Hf Hp Hn Hl. cbv zeta. assert (RT : Z.of_nat (sv_rate v) = 32 \/ Z.of_nat (sv_rate v) = 64 \/ Z.of_nat (sv_rate v) = 128) by (destruct Hv as [->|[->| ->]]; auto).
  unfold New_flag. set (r := Z.of_nat (sv_rate v)) in *.
  replace (negb (r =? 0) && (r mod 2 =? 0)) with true by (destruct RT as [->|[->| ->]]; reflexivity).
  unfold Detect. fold (processors c). cbv zeta. cbn [p_auto p_blk p_res p_ovr p_pblk p_deg p_min p_simd p_split].
  change (if (1 <? (if phys c <? virt c then virt c else phys c)) && negb ((if phys c <? virt c then virt c else phys c) mod 2 =? 0) then (if phys c <? virt c then virt c else phys c) - 1 else (if phys c <? virt c then virt c else phys c)) with (processors c).
  set (N := processors c) in *.
  assert (D : (if N <? fan then N else fan) = Z.min fan N) by (destruct (Z.ltb_spec N fan); lia). rewrite D. set (dg := Z.min fan N) in *.
  unfold Calculate. cbv zeta. cbn [p_auto p_blk p_par p_res p_tot p_ovr p_pblk p_deg p_min p_phys p_proc p_simd p_split p_virt negb].
  replace (N <? dg) with false by (symmetry; apply Z.ltb_ge; lia). replace (dg =? 0) with false by (symmetry; apply Z.eqb_neq; lia). cbn [andb orb].
  cbn [p_auto p_blk p_par p_res p_tot p_ovr p_pblk p_deg p_min p_phys p_proc p_simd p_split p_virt set_min set_pblk set_par set_auto set_deg].
  unfold u64. rewrite (Z.mod_small (dg * r)) by nia. rewrite (Z.mod_small (l1 c - 2048)) by lia.
  replace (l1 c - 2048 =? 0) with false by (symmetry; apply Z.eqb_neq; lia). cbn [negb].
  replace (dg * r =? 0) with false by (symmetry; apply Z.eqb_neq; nia). cbn [bind]. eexists. split; [reflexivity|].
  cbn [p_auto p_blk p_par p_res p_tot p_ovr p_pblk p_deg p_min p_phys p_proc p_simd p_split p_virt set_min set_pblk set_par set_auto set_deg].
  split; [reflexivity|split; [reflexivity|split; [reflexivity|]]].
  assert (HM : 0 < dg * r <= 64 * 128) by nia.
  exists ((l1 c - 2048) / (dg * r)). pose proof (Z.div_mod (l1 c - 2048) (dg * r) ltac:(lia)). split; [|lia].
  apply Z.div_str_pos. lia.
Qed.

Section few.
Context (v : skv) (Hv : a_skein v) (cfg : list Z) (Hcfg : length cfg = (8 * f_n (sv_F v))%nat).
Notation F := (sv_F v). Notation n := (f_n F). Notation R := (8 * n)%nat. Notation rounds := (sv_rounds v). Notation LS := (leaf_start F rounds (2 ^ 64) cfg).
(** one block each for the first leaves *)
Lemma each_block buf : forall k i, ((i + k) * R <= length buf)%nat ->
  each_leaf i (fun i s => ProcessBlock n (sv_perm v) buf (i * R) s R) (map (leaf0 v cfg) (seq i k)) =
  Ok (map (fun i => mk 48 (ubi_step F rounds (2 ^ 64) 48 true false (Z.of_nat R) (LS i) (le_words 8 (slice buf (i * R) R))) (LS i) false false (Z.of_nat R)) (seq i k)).
Proof.
  destruct (skein_facts v Hv) as (((H1 & H2) & H3) & H4).
  induction k as [|k IH]; intros i H; [reflexivity|]. cbn [seq map each_leaf]. unfold leaf0 at 1.
  assert (Q : (i * R + R <= length buf)%nat) by nia.
  rewrite (Process_mk F rounds (sv_perm v) H1 H3 H4); [|auto|now apply start_len|exact Q]. cbn [bind]. rewrite IH by nia. reflexivity.
Qed.
Definition G_few (d : nat) (a : list Z) (i : nat) : list Z := if (i <? d)%nat then ubi_step F rounds (2 ^ 64) 48 true false (Z.of_nat R) (LS i) (le_words 8 (slice a (i * R) R)) else LS i.
Lemma few_run d fan pblk a out : (0 < d < fan)%nat -> (1 < pblk)%nat -> length a = (fan * R)%nat -> (R <= length out)%nat ->
  (o <- skp_update v d pblk (tfresh v cfg fan) a 0 1 ;; o <- skp_update v d pblk o a 1 (length a - 1) ;; skp_finalize v o out 0) =
  Ok (tfresh v cfg fan, splice out 0 (to_bytes (root F rounds (2 ^ 64) (map (fun i => to_bytes (G_few d a i)) (seq 0 fan))))).
Proof.
  destruct (skein_facts v Hv) as (((H1 & H2) & H3) & H4).
  intros Hd Hp La Lo. unfold skp_update, tfresh. unfold SkeinP_Update at 1. cbv zeta. cbn [Nat.eqb negb andb bind]. unfold rate.
  assert (Hfan : (0 < fan)%nat) by lia. assert (R1 : (1 < d * R)%nat) by nia. assert (R2 : (d * R + R <= fan * R)%nat) by nia.
  replace (pblk <=? 1)%nat with false by (symmetry; apply Nat.leb_gt; lia). cbn [bind].
  replace (d * R <=? 1)%nat with false by (symmetry; apply Nat.leb_gt; lia). cbn [bind Nat.eqb].
  rewrite wcopy_ok by (rewrite ?length_zeros; lia). cbn [bind Nat.add].
  unfold SkeinP_Update. cbv zeta. replace (length a - 1 =? 0)%nat with false by (symmetry; apply Nat.eqb_neq; lia).
  set (b1 := splice (zeros (fan * R)) 0 (slice a 0 1)). assert (L1 : length b1 = (fan * R)%nat) by (unfold b1; rewrite length_splice; rewrite ?length_zeros, ?length_slice; lia).
  rewrite L1. cbn [Nat.eqb negb andb]. replace (fan * R <=? length a - 1 + 1)%nat with true by (symmetry; apply Nat.leb_le; lia).
  replace (1 <=? fan * R)%nat with true by (symmetry; apply Nat.leb_le; lia). cbn [safe bind].
  rewrite wcopy_ok by lia. cbn [bind].
  assert (EB : splice b1 1 (slice a 1 (fan * R - 1)) = a).
  { unfold b1. unfold splice at 1. rewrite length_slice by lia. replace (1 + (fan * R - 1))%nat with (fan * R)%nat by lia. rewrite (skipn_all2 (n := fan * R)) by (fold b1; lia). rewrite app_nil_r.
    unfold splice, slice. cbn [skipn]. rewrite firstn_O. cbn [app]. rewrite firstn_app. rewrite firstn_all2 by (rewrite firstn_length; lia). rewrite firstn_length. replace (1 - Nat.min 1 (length a))%nat with 0%nat by lia. cbn [firstn]. rewrite app_nil_r.
    destruct a as [|x a]; [cbn [length] in La; lia|]. cbn [firstn app skipn]. f_equal. apply firstn_all2. cbn [length] in La. lia. }
  rewrite EB. unfold first_leaves. rewrite map_length, seq_length. replace (d <=? fan)%nat with true by (symmetry; apply Nat.leb_le; lia). cbn [safe bind].
  assert (SQ : seq 0 fan = seq 0 d ++ seq d (fan - d)) by (replace fan with (d + (fan - d))%nat at 1 by lia; now rewrite seq_app).
  assert (EF : firstn d (map (leaf0 v cfg) (seq 0 fan)) = map (leaf0 v cfg) (seq 0 d)).
  { rewrite SQ, map_app, firstn_app, map_length, seq_length, Nat.sub_diag, firstn_all2 by (rewrite map_length, seq_length; lia). cbn [firstn]. apply app_nil_r. }
  assert (ES : skipn d (map (leaf0 v cfg) (seq 0 fan)) = map (leaf0 v cfg) (seq d (fan - d))).
  { rewrite SQ, map_app, skipn_app, map_length, seq_length, Nat.sub_diag, skipn_all2 by (rewrite map_length, seq_length; lia). reflexivity. }
  rewrite EF, ES. unfold rate. rewrite each_block by lia. cbn [bind].
  replace (length a - 1 - (fan * R - 1))%nat with 0%nat by lia.
  replace (pblk <=? 0)%nat with false by (symmetry; apply Nat.leb_gt; lia). cbn [bind].
  replace (d * R <=? 0)%nat with false by (symmetry; apply Nat.leb_gt; lia). cbn [bind Nat.eqb].
  assert (ST : map (fun i => mk 48 (ubi_step F rounds (2 ^ 64) 48 true false (Z.of_nat R) (LS i) (le_words 8 (slice a (i * R) R))) (LS i) false false (Z.of_nat R)) (seq 0 d) ++ map (leaf0 v cfg) (seq d (fan - d))
    = map (fun i => mk 48 (G_few d a i) (LS i) (negb (i <? d)%nat) false (if (i <? d)%nat then Z.of_nat R else 0)) (seq 0 fan)).
  { rewrite SQ, map_app. f_equal; apply map_ext_in; intros i Hi; apply in_seq in Hi; unfold G_few.
    - replace (i <? d)%nat with true by (symmetry; apply Nat.ltb_lt; lia). reflexivity.
    - replace (i <? d)%nat with false by (symmetry; apply Nat.ltb_ge; lia). reflexivity. }
  rewrite ST, (fin_any v Hv cfg Hcfg fan Hfan 1 Nat.lt_0_1); [|exact La|lia| |exact Lo].
  - do 2 f_equal. f_equal. f_equal. f_equal. apply map_ext_in. intros i _. f_equal. unfold leafS. assert (TN : tail v (slice a 0 0) i = []) by (unfold tail, slice; cbn [firstn]; rewrite skipn_nil; apply firstn_nil). rewrite TN. reflexivity.
  - intros i Hi. unfold G_few. destruct (Nat.ltb_spec i d); [|now apply start_len].
    apply (step_len F rounds (sv_perm v)); auto. apply le_words_len; [lia|]. apply length_slice. nia.
Qed.
End few.
Lemma c70_few v p : a_skein v -> params_ok v p -> 0 < q_fan p <= 64 -> forall d pblk a b out, let fan := Z.to_nat (q_fan p) in
  (0 < d < fan)%nat -> (1 < pblk)%nat -> length a = (fan * sv_rate v)%nat -> length b = (fan * sv_rate v)%nat -> (sv_rate v <= length out)%nat ->
  firstn (d * sv_rate v) a = firstn (d * sv_rate v) b ->
  exists o r, KNew_params (f_n (sv_F v)) (sv_perm v) p = Ok o /\
    (o <- skp_update v d pblk o a 0 1 ;; o <- skp_update v d pblk o a 1 (length a - 1) ;; skp_finalize v o out 0) = Ok r /\
    (o <- skp_update v d pblk o b 0 1 ;; o <- skp_update v d pblk o b 1 (length b - 1) ;; skp_finalize v o out 0) = Ok r.
Proof.
  intros Hv HP Hf d pblk a b out. cbv zeta. intros Hd Hp La Lb Lo E. destruct (skein_facts v Hv) as (((H1 & H2) & H3) & H4).
  assert (L : length (cfg_bytes p) = (8 * f_n (sv_F v))%nat) by (rewrite (cfg_len v); auto).
  set (fan := Z.to_nat (q_fan p)) in *. change (sv_rate v) with (8 * f_n (sv_F v))%nat in *.
  exists (tfresh v (cfg_bytes p) fan). eexists. split; [|split].
  - unfold KNew_params. replace (negb (q_fan p =? 0) && (q_fan p <=? 64)) with true by (symmetry; apply andb_true_intro; split; [apply Bool.negb_true_iff, Z.eqb_neq; lia|apply Z.leb_le; lia]).
    cbn [guard bind]. apply KNew_ok; auto. lia.
  - apply (few_run v Hv (cfg_bytes p) L d fan pblk a out); auto.
  - rewrite (few_run v Hv (cfg_bytes p) L d fan pblk b out) by auto. do 2 f_equal. f_equal. do 2 f_equal. apply map_ext_in. intros i Hi. apply in_seq in Hi. f_equal.
    unfold G_few. destruct (Nat.ltb_spec i d); [|reflexivity]. f_equal. f_equal.
    assert (Q : (i * (8 * f_n (sv_F v)) + 8 * f_n (sv_F v) <= d * (8 * f_n (sv_F v)))%nat) by nia.
    assert (SL : forall x : list Z, slice x (i * (8 * f_n (sv_F v))) (8 * f_n (sv_F v)) = slice (firstn (d * (8 * f_n (sv_F v))) x) (i * (8 * f_n (sv_F v))) (8 * f_n (sv_F v))).
    { intros x. unfold slice. rewrite skipn_firstn_comm, firstn_firstn. f_equal. lia. }
    rewrite (SL a), (SL b), E. reflexivity.
Qed.

(** * C71 *)
Lemma skipn_rep (q j : nat) : skipn j (repeat 0 q) = repeat 0 (q - j).
Proof. revert j. induction q as [|q IH]; intros [|j]; try reflexivity. apply IH. Qed.
Lemma c71_round_trip v p : a_skein v -> params_ok v p -> exists a, SkeinParams_bytes p = Ok a /\ length a = sv_rate v /\ bytes a /\ SkeinParams_from a = Ok p.
Proof.
  intros Hv ((S1 & S2) & V & R1 & O & Lf & D & Fn & R2 & R3 & Db & Dl).
  assert (RT : (sv_rate v = 32 \/ sv_rate v = 64 \/ sv_rate v = 128)%nat) by (destruct Hv as [->|[->| ->]]; auto).
  set (r := sv_rate v) in *. clearbody r. destruct p as [sc ver r1 out lf dp fn r2 r3 dst]. cbn [q_schema q_ver q_r1 q_out q_leaf q_depth q_fan q_r2 q_r3 q_dst] in *.
  exists (sc ++ le_bytes 2 ver ++ le_bytes 2 r1 ++ le_bytes 8 out ++ [lf] ++ [dp] ++ [fn] ++ [r2] ++ le_bytes 4 r3 ++ dst).
  assert (GH : GetHeaderSize (SPar sc ver r1 out lf dp fn r2 r3 dst) = Z.of_nat r).
  { unfold GetHeaderSize, DistributionCodeMax, HDR_SIZE, u64. cbn [q_out]. rewrite O. rewrite (Z.mod_small (Z.of_nat r - 24)) by lia. rewrite Z.mod_small by lia. lia. }
  assert (LL : length (sc ++ le_bytes 2 ver ++ le_bytes 2 r1 ++ le_bytes 8 out ++ [lf] ++ [dp] ++ [fn] ++ [r2] ++ le_bytes 4 r3 ++ dst) = r).
  { rewrite !app_length, !length_le_bytes, S2, Dl. cbn [length]. lia. }
  split; [|split; [exact LL|split]].
  - unfold SkeinParams_bytes. rewrite GH. replace (Z.of_nat r <? 2 ^ 63) with true by (symmetry; apply Z.ltb_lt; lia). cbn [guard bind].
    replace (24 <=? Z.of_nat r) with true by (symmetry; apply Z.leb_le; lia). cbn [safe bind q_schema q_ver q_r1 q_out q_leaf q_depth q_fan q_r2 q_r3 q_dst]. rewrite Nat2Z.id.
    rewrite rd_ok by lia. cbn [bind]. rewrite (slice_full _ 4 S2).
    assert (NEXT : forall (x y : list Z) k, (k = length x)%nat -> (k + length y <= r)%nat -> wr (x ++ zeros (r - k)) k y = Ok ((x ++ y) ++ zeros (r - (k + length y)))).
    { intros x y k -> H. rewrite wr_ok by (rewrite app_length, length_zeros; lia). f_equal. unfold splice. rewrite firstn_app, Nat.sub_diag, firstn_all2 by lia. cbn [firstn]. rewrite app_nil_r, <- app_assoc. f_equal. f_equal.
      rewrite skipn_app, skipn_all2 by lia. cbn [app]. replace (length x + length y - length x)%nat with (length y) by lia. unfold zeros. rewrite skipn_rep. f_equal. lia. }
    replace (zeros r) with ([] ++ zeros (r - 0)) by (now rewrite Nat.sub_0_r).
    rewrite (NEXT [] sc 0%nat) by (auto; cbn [length]; lia). cbn [bind app]. rewrite S2. cbn [Nat.add].
    rewrite (NEXT sc (le_bytes 2 ver) 4%nat) by (rewrite ?length_le_bytes; lia). cbn [bind]. rewrite length_le_bytes. cbn [Nat.add].
    rewrite (NEXT _ (le_bytes 2 r1) 6%nat) by (rewrite ?app_length, ?length_le_bytes; lia). cbn [bind]. rewrite length_le_bytes. cbn [Nat.add].
    rewrite (NEXT _ (le_bytes 8 out) 8%nat) by (rewrite ?app_length, ?length_le_bytes; lia). cbn [bind]. rewrite length_le_bytes. cbn [Nat.add].
    rewrite (NEXT _ [lf] 16%nat) by (rewrite ?app_length, ?length_le_bytes; cbn [length]; lia). cbn [bind length Nat.add].
    rewrite (NEXT _ [dp] 17%nat) by (rewrite ?app_length, ?length_le_bytes; cbn [length]; lia). cbn [bind length Nat.add].
    rewrite (NEXT _ [fn] 18%nat) by (rewrite ?app_length, ?length_le_bytes; cbn [length]; lia). cbn [bind length Nat.add].
    rewrite (NEXT _ [r2] 19%nat) by (rewrite ?app_length, ?length_le_bytes; cbn [length]; lia). cbn [bind length Nat.add].
    rewrite (NEXT _ (le_bytes 4 r3) 20%nat) by (rewrite ?app_length, ?length_le_bytes; cbn [length]; lia). cbn [bind]. rewrite length_le_bytes. cbn [Nat.add].
    rewrite (NEXT _ dst 24%nat) by (rewrite ?app_length, ?length_le_bytes; cbn [length]; lia). rewrite Dl. replace (r - (24 + (r - 24)))%nat with 0%nat by lia. cbn [zeros repeat]. rewrite app_nil_r, <- !app_assoc. reflexivity.
  - repeat (apply Forall_app; split); try exact S1; try exact Db; try apply bytes_le_bytes; try (constructor; [assumption|constructor]).
  - unfold SkeinParams_from. replace (GetHeaderSize (SPar (zeros 4) 0 0 0 0 0 0 0 0 [])) with 0 by reflexivity.
    replace (Z.of_nat _ <? 0) with false by (symmetry; apply Z.ltb_ge; lia). cbn [negb guard bind].
    assert (RD : forall (x y z : list Z) k l, (k = length x)%nat -> (l = length y)%nat -> rd (x ++ y ++ z) k l = Ok y).
    { intros x y z k l -> ->. rewrite rd_ok by (rewrite !app_length; lia). f_equal. unfold slice. rewrite skip_len, firstn_app, Nat.sub_diag, firstn_all2 by lia. cbn [firstn]. apply app_nil_r. }
    set (A := sc ++ le_bytes 2 ver ++ le_bytes 2 r1 ++ le_bytes 8 out ++ [lf] ++ [dp] ++ [fn] ++ [r2] ++ le_bytes 4 r3 ++ dst) in *.
    assert (E0 : rd A 0 4 = Ok sc) by (apply (RD [] sc); auto).
    assert (E1 : rd A 4 2 = Ok (le_bytes 2 ver)) by (apply (RD sc (le_bytes 2 ver)); rewrite ?length_le_bytes; auto).
    assert (E2 : rd A 6 2 = Ok (le_bytes 2 r1)).
    { replace A with ((sc ++ le_bytes 2 ver) ++ le_bytes 2 r1 ++ (le_bytes 8 out ++ [lf] ++ [dp] ++ [fn] ++ [r2] ++ le_bytes 4 r3 ++ dst)) by (unfold A; rewrite <- !app_assoc; reflexivity). apply RD; rewrite ?app_length, ?length_le_bytes, ?S2; reflexivity. }
    assert (E3 : rd A 8 8 = Ok (le_bytes 8 out)).
    { replace A with ((sc ++ le_bytes 2 ver ++ le_bytes 2 r1) ++ le_bytes 8 out ++ ([lf] ++ [dp] ++ [fn] ++ [r2] ++ le_bytes 4 r3 ++ dst)) by (unfold A; rewrite <- !app_assoc; reflexivity). apply RD; rewrite ?app_length, ?length_le_bytes, ?S2; reflexivity. }
    set (P := sc ++ le_bytes 2 ver ++ le_bytes 2 r1 ++ le_bytes 8 out). assert (LP : length P = 16%nat) by (unfold P; rewrite !app_length, !length_le_bytes, S2; reflexivity).
    assert (EA : A = P ++ [lf; dp; fn; r2] ++ le_bytes 4 r3 ++ dst) by (unfold A, P; rewrite <- !app_assoc; reflexivity).
    assert (GT : forall j x, nth_error [lf; dp; fn; r2] j = Some x -> get A (16 + j) = Ok x).
    { intros j x N. assert (j < 4)%nat by (change 4%nat with (length [lf; dp; fn; r2]); apply nth_error_Some; rewrite N; discriminate).
      rewrite get_ok with (d := 0) by lia || rewrite get_ok by lia. f_equal. rewrite EA, app_nth2 by lia. rewrite LP. replace (16 + j - 16)%nat with j by lia. rewrite app_nth1 by (cbn [length]; lia). now apply nth_error_nth. }
    assert (E4 : rd A 20 4 = Ok (le_bytes 4 r3)).
    { replace A with ((P ++ [lf; dp; fn; r2]) ++ le_bytes 4 r3 ++ dst) by (rewrite EA, <- !app_assoc; reflexivity). apply RD; rewrite ?app_length, ?length_le_bytes, ?LP; reflexivity. }
    assert (E5 : rd A 24 (r - 24) = Ok dst).
    { replace A with ((P ++ [lf; dp; fn; r2] ++ le_bytes 4 r3) ++ dst ++ []) by (rewrite EA, <- !app_assoc, app_nil_r; reflexivity). apply RD; rewrite ?app_length, ?length_le_bytes, ?LP; auto. }
    rewrite E0. cbn [bind]. unfold LeBytesTo. rewrite E1. cbn [bind]. rewrite E2. cbn [bind]. rewrite E3. cbn [bind].
    rewrite (GT 0%nat lf eq_refl : get A 16 = Ok lf). cbn [bind]. rewrite (GT 1%nat dp eq_refl : get A 17 = Ok dp). cbn [bind]. rewrite (GT 2%nat fn eq_refl : get A 18 = Ok fn). cbn [bind]. rewrite (GT 3%nat r2 eq_refl : get A 19 = Ok r2). cbn [bind].
    rewrite E4. cbn [bind]. rewrite !le_val_le_bytes. change (256 ^ Z.of_nat 2) with (2 ^ 16). change (256 ^ Z.of_nat 8) with (2 ^ 64). change (256 ^ Z.of_nat 4) with (2 ^ 32). unfold is_word in *.
    rewrite (Z.mod_small ver), (Z.mod_small r1), (Z.mod_small r3), (Z.mod_small out) by lia.
    unfold DistributionCodeMax, HDR_SIZE, u64. cbn [q_out]. rewrite Z.mod_small by lia.
    replace (out - 24 <? 2 ^ 63) with true by (symmetry; apply Z.ltb_lt; lia). cbn [guard bind]. rewrite LL.
    replace (out - 24 <=? Z.of_nat r - 24) with true by (symmetry; apply Z.leb_le; lia). cbn [safe bind]. replace (Z.to_nat (out - 24)) with (r - 24)%nat by lia. rewrite E5. reflexivity.
Qed.
Lemma c71_short a : (length a < 24)%nat -> SkeinParams_from a = UB.
Proof.
  intros H. unfold SkeinParams_from. replace (GetHeaderSize (SPar (zeros 4) 0 0 0 0 0 0 0 0 [])) with 0 by reflexivity.
  replace (Z.of_nat (length a) <? 0) with false by (symmetry; apply Z.ltb_ge; lia). cbn [negb guard bind].
  assert (RB : forall k l, (length a < k + l)%nat -> rd a k l = UB) by (intros k l Hl; unfold rd; replace (k + l <=? length a)%nat with false by (symmetry; apply Nat.leb_gt; lia); reflexivity).
  assert (RC : forall k l, rd a k l = Ok (slice a k l) \/ rd a k l = UB) by (intros k l; unfold rd; destruct (k + l <=? length a)%nat; auto).
  assert (GC : forall k, (exists x, get a k = Ok x) \/ get a k = UB).
  { intros k. destruct (get a k) eqn:E; eauto. exfalso. unfold get in E. destruct (nth_error a k); discriminate E. }
  destruct (RC 0%nat 4%nat) as [-> | ->]; [|reflexivity]. cbn [bind]. unfold LeBytesTo.
  destruct (RC 4%nat 2%nat) as [-> | ->]; [|reflexivity]. cbn [bind]. destruct (RC 6%nat 2%nat) as [-> | ->]; [|reflexivity]. cbn [bind]. destruct (RC 8%nat 8%nat) as [-> | ->]; [|reflexivity]. cbn [bind].
  destruct (GC 16%nat) as [(x1 & ->) | ->]; [|reflexivity]. cbn [bind]. destruct (GC 17%nat) as [(x2 & ->) | ->]; [|reflexivity]. cbn [bind]. destruct (GC 18%nat) as [(x3 & ->) | ->]; [|reflexivity]. cbn [bind]. destruct (GC 19%nat) as [(x4 & ->) | ->]; [|reflexivity]. cbn [bind].
  rewrite RB by lia. reflexivity.
Qed.
Lemma c71_new out leaf fan : is_byte leaf -> is_byte fan ->
  let ok := (out = 32 \/ out = 64 \/ out = 128) /\ (fan = 0 <-> leaf = 0) in
  (ok -> SkeinParams_new out leaf fan = Ok (SPar [83; 72; 65; 51] 1 0 out leaf 0 fan 0 0 (zeros (Z.to_nat (out - 24))))) /\
  (~ ok -> SkeinParams_new out leaf fan = Throw IllegalOperation).
Proof.
  unfold is_byte. intros Hl Hf. cbv zeta. unfold SkeinParams_new.
  destruct ((out =? 32) || (out =? 64) || (out =? 128)) eqn:E1.
  - assert (O : out = 32 \/ out = 64 \/ out = 128).
    { apply Bool.orb_true_iff in E1. destruct E1 as [E1|E1]; [apply Bool.orb_true_iff in E1; destruct E1 as [E1|E1]|]; apply Z.eqb_eq in E1; auto. }
    cbn [guard bind].
    destruct (Z.ltb_spec 0 fan), (Z.eqb_spec leaf 0), (Z.eqb_spec fan 0); try lia; cbn [andb orb negb guard bind]; (split; [intros (_ & K)|intros K]); try reflexivity; try (exfalso; lia).
    all: try (exfalso; apply K; split; [exact O|lia]).
    all: unfold DistributionCodeMax, HDR_SIZE, u64; cbn [q_schema q_ver q_r1 q_out q_leaf q_depth q_fan q_r2 q_r3]; rewrite Z.mod_small by (destruct O as [->|[->| ->]]; (split; [discriminate|reflexivity])); reflexivity.
  - split; [intros (O & _)|reflexivity]. exfalso. destruct O as [->|[->| ->]]; discriminate E1.
Qed.

(** * witnesses *)
Lemma hd_differ (a b : list Z) : (hd 0 a =? hd 0 b) = false -> a <> b.
Proof. intros H ->. now rewrite Z.eqb_refl in H. Qed.
Lemma c70_root : exists m, bytes m /\
  skein_hash_tree Skein256 (2 ^ 64) (cfg_bytes (SPar [83; 72; 65; 51] 1 0 32 32 0 2 0 0 (zeros 8))) 2 m <>
  skein_hash Skein256 (2 ^ 64) (concat (map (fun i => to_bytes (leaf (sv_F Skein256) (sv_rounds Skein256) (2 ^ 64) (cfg_bytes (SPar [83; 72; 65; 51] 1 0 32 32 0 2 0 0 (zeros 8))) 2 i m)) (seq 0 2))).
Proof.
  exists [1]. split; [constructor; [split; [discriminate|reflexivity]|constructor]|].
  apply hd_differ. vm_compute. reflexivity.
Qed.
Lemma c71_equals : exists p q, SkeinParams_new 32 32 2 = Ok p /\ SkeinParams_new 32 2 32 = Ok q /\ p <> q /\ SkeinParams_Equals p q = true.
Proof. eexists. eexists. split; [reflexivity|split; [reflexivity|split; [discriminate|reflexivity]]]. Qed.
Lemma c71_output v p : v = Skein512 \/ v = Skein1024 -> params_ok Skein256 p -> 0 < q_fan p <= 64 -> KNew_params (f_n (sv_F v)) (sv_perm v) p = UB.
Proof.
  intros Hv HP Hf. unfold KNew_params. replace (negb (q_fan p =? 0) && (q_fan p <=? 64)) with true by (symmetry; apply andb_true_intro; split; [apply Bool.negb_true_iff, Z.eqb_neq; lia|apply Z.leb_le; lia]).
  cbn [guard bind]. unfold KNew, KInitialize. assert (S2 : a_skein Skein256) by (left; reflexivity). destruct (skein_facts Skein256 S2) as (((H1 & H2) & H3) & H4).
  rewrite (GetConfig_ok Skein256 H1 H2 p HP). cbn [bind].
  assert (L : length (le_words 8 (cfg_bytes p)) = 4%nat) by (apply le_words_len; [lia|rewrite (cfg_len Skein256); auto]).
  assert (N : (8 <= f_n (sv_F v))%nat) by (destruct Hv as [->| ->]; vm_compute; lia).
  unfold rd. rewrite L. replace (0 + f_n (sv_F v) <=? 4)%nat with false by (symmetry; apply Nat.leb_gt; lia). reflexivity.
Qed.
Ltac params := split; [split; [small_bytes|reflexivity]|]; repeat (split; [vm_compute; (reflexivity || (split; [discriminate|reflexivity]))|]); first [split; [small_bytes|reflexivity] | idtac].
Lemma c69_params_case : params_ok Skein256 (SPar [83; 72; 65; 51] 1 0 32 32 0 1 0 0 (zeros 8)).
Proof. params. Qed.
Lemma c70_case : params_ok Skein256 (tree_params Skein256) /\ 0 < q_fan (tree_params Skein256) <= 64 /\
  Forall dcall_ok [CUpdate (Piece [1] 0 1); CUpdate (Piece (zeros 300) 3 290); CFinal (zeros 32) 0; CCompute (zeros 100) (zeros 40)] /\
  let c := Cpu 4 8 32768 in 0 < phys c /\ processors c = 8 /\ 2048 + 64 * 128 <= l1 c < 2 ^ 63.
Proof.
  split; [apply tree_ok; left; reflexivity|split; [vm_compute; split; [reflexivity|discriminate]|split]].
  - constructor; [split; [cbn; lia|small_bytes]|constructor; [split; [vm_compute; lia|apply bytes_zeros]|constructor; [vm_compute; lia|constructor; [apply bytes_zeros|constructor]]]].
  - vm_compute. repeat split; discriminate.
Qed.
Lemma c71_case : params_ok Skein512 (SPar [83; 72; 65; 51] 1 0 64 64 0 4 0 0 (le_bytes 40 12345)).
Proof. split; [split; [small_bytes|reflexivity]|]. repeat (split; [vm_compute; (reflexivity || (split; [discriminate|reflexivity]))|]). split; [apply bytes_le_bytes|reflexivity]. Qed.
