(** C81: what the theorems about the parallel MAC rest on. *)
From Verif Require Import BaseLemmas Spec_Common Spec_Feed Spec_Keccak Model_IntegerTools Proofs_IntegerTools Model_Modes Model_Absorb Model_Keccak Proofs_Windows Proofs_Absorb Proofs_SHA2obj
  Proofs_Keccak Proofs_Sponge Proofs_SHA3 Proofs_XOF Proofs_KMAC Spec_KPA Model_KPA Session_Digest Session_KPA Proofs_KPA Proofs_KPA2.
From Verif Require Proofs_Block.
Open Scope Z_scope.

Definition alen (a : option (nat * list (list Z) * list Z)) : nat := match a with Some (_, _, m) => length m | None => 0%nat end.
Lemma finalize_ok md o q A m out oo : pabs o (Some (q, A, m)) -> (oo <= length out)%nat -> (kpa_tagsize md <= length out - oo)%nat -> short out -> 8 * Z.of_nat (length m) < 2 ^ 56 ->
  exists o', KPA_Finalize md o out oo = Ok (o', firstn oo out ++ kpa_tag q A m (length out - oo)) /\ pabs o' (Some (q, kpa_leaves q A m, [])).
Proof.
  intros HA HO HT HS HM. unfold KPA_Finalize. replace (oo <=? length out)%nat with true by (symmetry; apply Nat.leb_le; lia). cbn [guard bind].
  destruct (final_ok md o q A m (zeros (length out - oo)) 0 HA) as (o' & E & H1 & H2); rewrite ?length_zeros in *; try lia; [unfold short in *; rewrite length_zeros; lia|].
  rewrite E. cbn [bind]. rewrite wcopy_ok by (rewrite ?H2; lia). cbn [bind]. rewrite slice_all by reflexivity. exists o'. split; [|exact H1]. do 2 f_equal. unfold splice. rewrite H2.
  replace (oo + (length out - oo))%nat with (length out) by lia. now rewrite skipn_all, app_nil_r.
Qed.
Lemma short_guard md o q A m out oo : pabs o (Some (q, A, m)) -> (oo <= length out)%nat -> (length out - oo < kpa_tagsize md)%nat -> KPA_FinalizeS md o out oo = Throw InvalidSize.
Proof.
  intros (H1 & _) HO HT. unfold KPA_FinalizeS. rewrite H1. cbn [guard bind]. replace (oo <=? length out)%nat with true by (symmetry; apply Nat.leb_le; lia).
  replace (length out - oo <? kpa_tagsize md)%nat with true by (symmetry; apply Nat.ltb_lt; lia). reflexivity.
Qed.
Lemma history_ok md cs : forall o a, pabs o a -> Forall pcall_ok cs -> 8 * Z.of_nat (alen a + ptotal cs) < 2 ^ 56 -> exists rs, phistory md o cs = Ok rs /\ pexpected (kpa_tagsize md) a cs rs.
Proof.
  set (tag := kpa_tagsize md).
  induction cs as [|c cs IH]; intros o a HA HC HT; [exists []; split; [reflexivity|exact I]|]. inversion HC as [|? ? Hc HC']; subst. cbn [phistory].
  assert (HT' : 8 * Z.of_nat (alen a + pcall_len c + ptotal cs) < 2 ^ 56).
  { unfold ptotal in *. cbn [map list_sum fold_right] in HT. fold (list_sum (map pcall_len cs)) in HT. lia. }
  clear HT.
  assert (STEP : forall o' a' r, pstep md o c = Ok (o', r) -> pabs o' a' -> (alen a' <= alen a + pcall_len c)%nat -> (forall rs, pexpected tag a' cs rs -> pexpected tag a (c :: cs) (r :: rs)) ->
    exists rs, (r <- pstep md o c ;; rs <- phistory md (fst r) cs ;; Ok (snd r :: rs)) = Ok rs /\ pexpected tag a (c :: cs) rs).
  { intros o' a' r E H1 HL H2. rewrite E. cbn [bind fst snd]. destruct (IH o' a' H1 HC' ltac:(lia)) as (rs & -> & H3). cbn [bind]. exists (r :: rs). split; [reflexivity|]. now apply H2. }
  destruct c as [key salt|p|out oo|out oo|inp out|].
  - destruct (Nat.ltb_spec (length key) 16) as [K|K].
    + apply (STEP o a (Failed InvalidKey)); [|exact HA|lia|].
      * cbn [pstep]. unfold KPA_Initialize, KPA_MIN_KEY. replace (length key <? 16)%nat with true by (symmetry; now apply Nat.ltb_lt). reflexivity.
      * intros rs H. cbn [pexpected]. replace (length key <? 16)%nat with true by (symmetry; now apply Nat.ltb_lt). split; [reflexivity|exact H].
    + destruct Hc as (P1 & P2 & P3 & P4). destruct (init_ok o a key salt HA P1 P2 P3 P4 K) as (o' & E & H1). apply (STEP o' (Some (kpa_rate key, kpa_start key salt, [])) Done); [cbn [pstep]; rewrite E; reflexivity|exact H1|cbn [alen length]; lia|].
      intros rs H. cbn [pexpected]. replace (length key <? 16)%nat with false by (symmetry; apply Nat.ltb_ge; lia). split; [reflexivity|exact H].
  - destruct a as [((q & A) & m)|].
    + destruct Hc as [P1 P2]. destruct (upd_ok o q A m (p_in p) (p_off p) (p_len p) HA P2 P1) as (o' & E & H1). apply (STEP o' (Some (q, A, m ++ p_data p)) Done); [cbn [pstep]; rewrite E; reflexivity|exact H1| |].
      * cbn [alen pcall_len]. rewrite app_length. unfold p_data. rewrite length_slice by exact P1. lia.
      * intros rs H. split; [reflexivity|exact H].
    + apply (STEP o None (Failed NotInitialized)); [|exact HA|lia|]; [cbn [pstep]; unfold KPA_Update; rewrite (proj1 HA); reflexivity|]. intros rs H. split; [reflexivity|exact H].
  - destruct a as [((q & A) & m)|].
    + destruct Hc as [P1 P2]. cbn [alen pcall_len] in HT'. destruct (Nat.ltb_spec (length out - oo) tag) as [T|T].
      * apply (STEP o (Some (q, A, m)) (Failed InvalidSize)); [|exact HA|lia|].
        -- cbn [pstep]. unfold KPA_Finalize. replace (oo <=? length out)%nat with true by (symmetry; apply Nat.leb_le; lia). cbn [guard bind]. rewrite (short_guard md o q A m) by (auto; rewrite length_zeros; fold tag; lia). reflexivity.
        -- intros rs H. cbn [pexpected]. replace (length out - oo <? tag)%nat with true by (symmetry; now apply Nat.ltb_lt). split; [reflexivity|exact H].
      * destruct (finalize_ok md o q A m out oo HA P1 T P2 ltac:(lia)) as (o' & E & H1). apply (STEP o' (Some (q, kpa_leaves q A m, [])) (Wrote (firstn oo out ++ kpa_tag q A m (length out - oo)))); [cbn [pstep]; rewrite E; reflexivity|exact H1|cbn [alen length]; lia|].
        intros rs H. cbn [pexpected]. replace (length out - oo <? tag)%nat with false by (symmetry; apply Nat.ltb_ge; lia). split; [reflexivity|exact H].
    + apply (STEP o None (Failed NotInitialized)); [|exact HA|lia|].
      * destruct Hc as [P1 P2]. cbn [pstep]. unfold KPA_Finalize, KPA_FinalizeS. rewrite (proj1 HA). replace (oo <=? length out)%nat with true by (symmetry; apply Nat.leb_le; lia). reflexivity.
      * intros rs H. split; [reflexivity|exact H].
  - destruct a as [((q & A) & m)|].
    + destruct Hc as [P1 P2]. cbn [alen pcall_len] in HT'. destruct (Nat.ltb_spec (length out - oo) tag) as [T|T].
      * apply (STEP o (Some (q, A, m)) (Failed InvalidSize)); [|exact HA|lia|].
        -- cbn [pstep]. rewrite (short_guard md o q A m) by auto. reflexivity.
        -- intros rs H. cbn [pexpected]. replace (length out - oo <? tag)%nat with true by (symmetry; now apply Nat.ltb_lt). split; [reflexivity|exact H].
      * destruct (final_ok md o q A m out oo HA P1 T P2 ltac:(lia)) as (o' & E & H1 & _). apply (STEP o' (Some (q, kpa_leaves q A m, [])) (Wrote (kpa_tag q A m (length out)))); [cbn [pstep]; rewrite E; reflexivity|exact H1|cbn [alen length]; lia|].
        intros rs H. cbn [pexpected]. replace (length out - oo <? tag)%nat with false by (symmetry; apply Nat.ltb_ge; lia). split; [reflexivity|exact H].
    + apply (STEP o None (Failed NotInitialized)); [|exact HA|lia|].
      * cbn [pstep]. unfold KPA_FinalizeS. rewrite (proj1 HA). reflexivity.
      * intros rs H. split; [reflexivity|exact H].
  - destruct a as [((q & A) & m)|].
    + destruct Hc as [P1 P2]. cbn [alen pcall_len] in HT'. destruct (Nat.ltb_spec (length out) tag) as [T|T].
      * apply (STEP o (Some (q, A, m)) (Failed InvalidSize)); [|exact HA|lia|].
        -- cbn [pstep]. unfold KPA_Compute. rewrite (proj1 HA). cbn [guard bind]. fold tag. replace (length out <? tag)%nat with true by (symmetry; now apply Nat.ltb_lt). reflexivity.
        -- intros rs H. cbn [pexpected]. replace (length out <? tag)%nat with true by (symmetry; now apply Nat.ltb_lt). split; [reflexivity|exact H].
      * destruct (upd_ok o q A m inp 0 (length inp) HA P1 ltac:(lia)) as (o1 & E1 & HA1). rewrite slice_all in HA1 by reflexivity.
        destruct (finalize_ok md o1 q A (m ++ inp) out 0 HA1 ltac:(lia) ltac:(fold tag; lia) P2 ltac:(rewrite app_length; lia)) as (o' & E & H1). rewrite Nat.sub_0_r in E. cbn [firstn app] in E.
        apply (STEP o' (Some (q, kpa_leaves q A (m ++ inp), [])) (Wrote (kpa_tag q A (m ++ inp) (length out)))); [|exact H1|cbn [alen length]; lia|].
        -- cbn [pstep]. unfold KPA_Compute. rewrite (proj1 HA). cbn [guard bind]. fold tag. replace (length out <? tag)%nat with false by (symmetry; apply Nat.ltb_ge; lia). cbn [negb guard bind]. rewrite E1. cbn [bind]. rewrite E. reflexivity.
        -- intros rs H. cbn [pexpected]. replace (length out <? tag)%nat with false by (symmetry; apply Nat.ltb_ge; lia). split; [reflexivity|exact H].
    + apply (STEP o None (Failed NotInitialized)); [|exact HA|lia|]; [cbn [pstep]; unfold KPA_Compute; rewrite (proj1 HA); reflexivity|]. intros rs H. split; [reflexivity|exact H].
  - apply (STEP (KPA_Reset o) None Done); [reflexivity| |cbn [alen]; lia|intros rs H; split; [reflexivity|exact H]].
    pose proof (pabs_buf o a HA) as [B L]. unfold KPA_Reset. destruct (kp_st o) as (((lv & pr) & buf) & pos). cbn [fst snd] in *. split; [reflexivity|]. cbn [kp_st fst snd]. split; [apply bytes_zeros|now rewrite length_zeros].
Qed.
Lemma new_ok md o : KPA_new md = Ok o -> pabs o None.
Proof. intros H. destruct md; [discriminate| | |]; injection H as <-; (split; [reflexivity|]; cbn [kp_st fst snd]; split; [apply bytes_zeros|apply length_zeros]). Qed.
Lemma new_some md : md <> KPANone -> exists o, KPA_new md = Ok o.
Proof. destruct md; [congruence| | |]; intros _; eexists; reflexivity. Qed.
Lemma c81_history md o cs : KPA_new md = Ok o -> Forall pcall_ok cs -> 8 * Z.of_nat (ptotal cs) < 2 ^ 56 -> exists rs, phistory md o cs = Ok rs /\ pexpected (kpa_tagsize md) None cs rs.
Proof. intros H1 H2 H3. apply history_ok; [now apply (new_ok md)|exact H2|exact H3]. Qed.

Lemma expected_updates tag ps : forall q A m cs rs, pexpected tag (Some (q, A, m)) (map PUpdate ps ++ cs) rs ->
  exists rs', rs = map (fun _ => Done) ps ++ rs' /\ pexpected tag (Some (q, A, m ++ joined ps)) cs rs'.
Proof.
  induction ps as [|p ps IH]; intros q A m cs rs H.
  - cbn [map app] in *. exists rs. split; [reflexivity|]. unfold joined. cbn [map concat]. now rewrite app_nil_r.
  - cbn [map app] in H. destruct rs as [|r rs]; [destruct H|]. cbn [pexpected] in H. destruct H as [-> H]. destruct (IH _ _ _ _ _ H) as (rs' & -> & H'). exists rs'. split; [reflexivity|].
    unfold joined in *. cbn [map concat]. now rewrite app_assoc.
Qed.
Lemma total_updates ps cs : Forall p_ok ps -> ptotal (map PUpdate ps ++ cs) = (length (joined ps) + ptotal cs)%nat.
Proof.
  intros H. induction H as [|p ps Hp H IH]; [reflexivity|]. unfold ptotal, joined in *. cbn [map app list_sum fold_right concat pcall_len]. unfold list_sum in IH. assert (L : length (p_data p) = p_len p) by (unfold p_data; apply length_slice, Hp). rewrite app_length, L, IH. unfold list_sum. rewrite Nat.add_assoc. reflexivity.
Qed.
Definition good (key salt : list Z) : Prop := bytes key /\ bytes salt /\ short key /\ short salt /\ (16 <= length key)%nat.
Lemma run_any md key salt ps out oo (S : bool) : md <> KPANone -> bytes key -> bytes salt -> short key -> short salt -> (16 <= length key)%nat -> Forall p_ok ps -> short (joined ps) -> (oo <= length out)%nat -> short out ->
  exists r, (o <- KPA_new md ;; phistory md o (PInit key salt :: map PUpdate ps ++ [if S then PFinalS out oo else PFinal out oo])) = Ok (Done :: map (fun _ => Done) ps ++ [r]) /\
  r = if (length out - oo <? kpa_tagsize md)%nat then Failed InvalidSize else Wrote (if S then kpa_mac key salt (joined ps) (length out) else firstn oo out ++ kpa_mac key salt (joined ps) (length out - oo)).
Proof.
  intros HN Bk Bs Sk Ss LK HP SJ HO SO. destruct (new_some md HN) as (o & E). rewrite E. cbn [bind].
  destruct (c81_history md o (PInit key salt :: map PUpdate ps ++ [if S then PFinalS out oo else PFinal out oo]) E) as (rs & E1 & HX).
  - constructor; [repeat split; assumption|]. apply Forall_app. split; [|constructor; [destruct S; split; assumption|constructor]]. apply Forall_forall. intros c Hc. apply in_map_iff in Hc. destruct Hc as (p & <- & Hp). rewrite Forall_forall in HP. now apply HP.
  - change (PInit key salt :: map PUpdate ps ++ [if S then PFinalS out oo else PFinal out oo]) with ([PInit key salt] ++ map PUpdate ps ++ [if S then PFinalS out oo else PFinal out oo]).
    unfold ptotal. rewrite map_app. cbn [map app list_sum fold_right pcall_len]. change (fold_right Nat.add 0%nat) with list_sum. fold (ptotal (map PUpdate ps ++ [if S then PFinalS out oo else PFinal out oo])).
    rewrite total_updates by exact HP. unfold short in SJ. replace (ptotal [if S then PFinalS out oo else PFinal out oo]) with 0%nat by (destruct S; reflexivity). rewrite Nat.add_0_r. exact SJ.
  - rewrite E1. destruct rs as [|r0 rs]; [destruct HX|]. cbn [pexpected] in HX. replace (length key <? 16)%nat with false in HX by (symmetry; apply Nat.ltb_ge; lia). destruct HX as [-> HX].
    apply expected_updates in HX. destruct HX as (rs' & -> & HX). cbn [app] in HX.
    destruct S; cbn [pexpected] in HX; (destruct rs' as [|r rs']; [destruct HX|]); destruct (length out - oo <? kpa_tagsize md)%nat; destruct HX as [-> HX]; (destruct rs' as [|? ?]; [|destruct HX]); eexists; split; reflexivity.
Qed.
Lemma c81_tag md key salt ps n : md <> KPANone -> bytes key -> bytes salt -> short key -> short salt -> (16 <= length key)%nat -> Forall p_ok ps -> short (joined ps) -> 8 * Z.of_nat n < 2 ^ 56 -> (kpa_tagsize md <= n)%nat ->
  kpa_run md key salt ps n = Ok (Done :: map (fun _ => Done) ps ++ [Wrote (kpa_mac key salt (joined ps) n)]).
Proof.
  intros HN Bk Bs Sk Ss LK HP SJ Hn HT. destruct (run_any md key salt ps (zeros n) 0 false HN Bk Bs Sk Ss LK HP SJ ltac:(lia) ltac:(unfold short; rewrite length_zeros; exact Hn)) as (r & E & ->).
  unfold kpa_run. rewrite E. rewrite length_zeros, Nat.sub_0_r. replace (n <? kpa_tagsize md)%nat with false by (symmetry; apply Nat.ltb_ge; lia). reflexivity.
Qed.
Lemma c81_size key salt ps : bytes key -> bytes salt -> short key -> short salt -> (16 <= length key)%nat -> Forall p_ok ps -> short (joined ps) ->
  kpa_run KPA512 key salt ps 1 = Ok (Done :: map (fun _ => Done) ps ++ [Wrote (kpa_mac key salt (joined ps) 1)]) /\
  kpa_run KPA256 key salt ps 31 = Ok (Done :: map (fun _ => Done) ps ++ [Failed InvalidSize]) /\ kpa_run KPA128 key salt ps 15 = Ok (Done :: map (fun _ => Done) ps ++ [Failed InvalidSize]).
Proof.
  intros Bk Bs Sk Ss LK HP SJ. split; [apply c81_tag; auto; [discriminate|lia]|].
  split.
  - destruct (run_any KPA256 key salt ps (zeros 31) 0 false ltac:(discriminate) Bk Bs Sk Ss LK HP SJ ltac:(lia) ltac:(unfold short; rewrite length_zeros; lia)) as (r & E & ->). exact E.
  - destruct (run_any KPA128 key salt ps (zeros 15) 0 false ltac:(discriminate) Bk Bs Sk Ss LK HP SJ ltac:(lia) ltac:(unfold short; rewrite length_zeros; lia)) as (r & E & ->). exact E.
Qed.
Lemma c81_offset md key salt ps out oo : md <> KPANone -> bytes key -> bytes salt -> short key -> short salt -> (16 <= length key)%nat -> Forall p_ok ps -> short (joined ps) -> short out -> (oo <= length out)%nat -> (kpa_tagsize md <= length out - oo)%nat ->
  (o <- KPA_new md ;; phistory md o (PInit key salt :: map PUpdate ps ++ [PFinalS out oo])) = Ok (Done :: map (fun _ => Done) ps ++ [Wrote (kpa_mac key salt (joined ps) (length out))]) /\
  (o <- KPA_new md ;; phistory md o (PInit key salt :: map PUpdate ps ++ [PFinal out oo])) = Ok (Done :: map (fun _ => Done) ps ++ [Wrote (firstn oo out ++ kpa_mac key salt (joined ps) (length out - oo))]).
Proof.
  intros HN Bk Bs Sk Ss LK HP SJ SO HO HT. split.
  - destruct (run_any md key salt ps out oo true HN Bk Bs Sk Ss LK HP SJ HO SO) as (r & E & ->). rewrite E. replace (length out - oo <? kpa_tagsize md)%nat with false by (symmetry; apply Nat.ltb_ge; lia). reflexivity.
  - destruct (run_any md key salt ps out oo false HN Bk Bs Sk Ss LK HP SJ HO SO) as (r & E & ->). rewrite E. replace (length out - oo <? kpa_tagsize md)%nat with false by (symmetry; apply Nat.ltb_ge; lia). reflexivity.
Qed.
(** ** the leaves are not started again *)
Lemma part_app rate i a b : (0 < rate)%nat -> (length a mod (rate * 8) = 0)%nat -> leaf_part rate i (a ++ b) = leaf_part rate i a ++ leaf_part rate i b.
Proof.
  intros Hr Hm. unfold leaf_part. pose proof (Nat.div_mod (length a) (rate * 8) ltac:(lia)) as D. rewrite Hm, Nat.add_0_r in D.
  rewrite (Proofs_Block.chunks_app_many (rate * 8) ltac:(lia) (length a / (rate * 8)) a b D). now rewrite map_app, concat_app.
Qed.
Lemma part_len rate i a : (0 < rate)%nat -> (i < 8)%nat -> (length a mod (rate * 8) = 0)%nat -> bytes a -> (length (leaf_part rate i a) mod rate = 0)%nat /\ bytes (leaf_part rate i a).
Proof.
  intros Hr Hi Hm Ba. destruct (aligned_blocks (rate * 8) a ltac:(lia) Ba Hm) as (bs & HB & ->). unfold leaf_part. rewrite <- (app_nil_r (concat bs)), chunks_concat by (auto; lia). rewrite chunks_nil, app_nil_r.
  induction HB as [|b bs [B1 B2] HB IH]; [split; [apply Nat.mod_0_l; lia|constructor]|]. cbn [map concat]. 
  assert (Hx : (length (concat bs) mod (rate * 8) = 0)%nat) by (rewrite (concat_len (rate * 8)) by exact HB; apply Nat.mod_mul; lia).
  assert (Hy : bytes (concat bs)) by (cbn [concat] in Ba; apply Forall_app in Ba; apply Ba). specialize (IH Hy Hx). destruct IH as [I1 I2].
  split; [rewrite app_length, length_slice by (rewrite B2; clear - Hi; nia); rewrite Nat.add_mod, Nat.mod_same, Nat.add_0_l, Nat.mod_mod by lia; exact I1|].
  apply Forall_app. split; [now apply bytes_slice|exact I2].
Qed.
Lemma fill_whole w a b : (0 < w)%nat -> (length a mod w = 0)%nat -> zero_fill w (a ++ b) = a ++ zero_fill w b.
Proof. intros Hw Hm. unfold zero_fill. rewrite <- app_assoc, app_length. rewrite Nat.add_mod, Hm, Nat.add_0_l, Nat.mod_mod by lia. reflexivity. Qed.
Lemma leaves_app rate A a b : (11 <= rate <= 190)%nat -> length A = 8%nat -> bytes a -> (length a mod (rate * 8) = 0)%nat -> kpa_leaves rate (kpa_leaves rate A a) b = kpa_leaves rate A (a ++ b).
Proof.
  intros Hr HL Ba Hm. unfold kpa_leaves at 1. unfold kpa_leaves at 1. rewrite <- HL at 1 2. rewrite (combine_fst (fun p => absorb (keccak 12) rate (snd p) (leaf_part rate (fst p) (zero_fill (rate * 8) a)))). rewrite map_map, HL. cbn [fst snd].
  unfold kpa_leaves. apply map_ext_in. intros p Hp. apply combine_in in Hp; [|exact HL]. destruct Hp as [H1 H2].
  rewrite (fill_whole (rate * 8) a b) by (auto; lia). assert (E : zero_fill (rate * 8) a = a).
  { unfold zero_fill. rewrite Hm, Nat.sub_0_r, Nat.mod_same by lia. apply app_nil_r. }
  rewrite E. rewrite part_app by (auto; lia). destruct (part_len rate (fst p) a ltac:(lia) H1 Hm Ba) as [P1 P2]. rewrite absorb_app by (auto; lia). reflexivity.
Qed.
Lemma c81_chained md key salt m1 m2 n : md <> KPANone -> bytes key -> bytes salt -> short key -> short salt -> (16 <= length key)%nat -> bytes m1 -> bytes m2 -> 8 * Z.of_nat (length m1 + length m2) < 2 ^ 56 -> 8 * Z.of_nat n < 2 ^ 56 -> (kpa_tagsize md <= n)%nat ->
  let q := kpa_rate key in
  kpa_two md key salt m1 m2 n = Ok [Done; Wrote (kpa_mac key salt m1 n); Wrote (kpa_tag q (kpa_leaves q (kpa_start key salt) m1) m2 n)] /\
  ((length m1 mod (q * 8) = 0)%nat -> kpa_tag q (kpa_leaves q (kpa_start key salt) m1) m2 n = kpa_root q (kpa_leaves q (kpa_start key salt) (m1 ++ m2)) (length m2) n).
Proof.
  intros HN Bk Bs Sk Ss LK B1 B2 HL Hn HT q. split.
  - unfold kpa_two. destruct (new_some md HN) as (o & E). rewrite E. cbn [bind].
    destruct (c81_history md o [PInit key salt; PCompute m1 (zeros n); PCompute m2 (zeros n)] E) as (rs & -> & HX).
    + assert (SZ : short (zeros n)) by (unfold short; rewrite length_zeros; exact Hn). repeat constructor; assumption.
    + unfold ptotal. cbn [map pcall_len list_sum fold_right]. lia.
    + destruct rs as [|r0 rs]; [destruct HX|]. cbn [pexpected] in HX. replace (length key <? 16)%nat with false in HX by (symmetry; apply Nat.ltb_ge; lia). destruct HX as [-> HX].
      destruct rs as [|r1 rs]; [destruct HX|]. rewrite length_zeros in HX. replace (n <? kpa_tagsize md)%nat with false in HX by (symmetry; apply Nat.ltb_ge; lia). destruct HX as [-> HX].
      destruct rs as [|r2 rs]; [destruct HX|]. destruct HX as [-> HX]. destruct rs; [|destruct HX]. reflexivity.
  - intros Hm. pose proof (rate_bounds q (key_rate_ok key)) as [HR _]. unfold kpa_tag. rewrite leaves_app; auto.
Qed.
(** ** Reset *)
Lemma reset_leaf st : st_ok st -> skipn 25 (lane_bytes (bytes_u64 (splice (u64_bytes st) 0 (zeros 25)))) = skipn 25 (lane_bytes st).
Proof.
  intros [L F]. assert (LB : length (u64_bytes st) = 200%nat) by (rewrite u64_bytes_len, L; reflexivity).
  change (bytes_u64 (splice (u64_bytes st) 0 (zeros 25))) with (lane_words (splice (u64_bytes st) 0 (zeros 25))). rewrite (bytes_words_bytes _ 25).
  - unfold splice. rewrite length_zeros. cbn [firstn app Nat.add]. rewrite skipn_app, length_zeros, Nat.sub_diag. change (skipn 0 (skipn 25 (u64_bytes st))) with (skipn 25 (u64_bytes st)). rewrite skipn_all2 by (rewrite length_zeros; lia). reflexivity.
  - apply bytes_splice; [apply u64_bytes_bytes|apply bytes_zeros].
  - rewrite length_splice; rewrite ?length_zeros; lia.
Qed.
Lemma c81_reset md o key salt o' : KPA_new md = Ok o -> bytes key -> bytes salt -> short key -> short salt -> KPA_Initialize o key salt = Ok o' ->
  map (fun st => skipn 25 (lane_bytes st)) (fst (fst (fst (kp_st (KPA_Reset o'))))) = map (fun st => skipn 25 (lane_bytes st)) (kpa_start key salt).
Proof.
  intros HN Bk Bs Sk Ss E. assert (LK : (16 <= length key)%nat).
  { unfold KPA_Initialize, KPA_MIN_KEY in E. destruct (Nat.ltb_spec (length key) 16); [cbn [negb guard bind] in E; discriminate|lia]. }
  destruct (init_ok o None key salt (new_ok md o HN) Bk Bs Sk Ss LK) as (o1 & E1 & HA). rewrite E in E1. injection E1 as <-.
  destruct HA as (_ & _ & _ & [HL HF] & HI). unfold KPA_Reset. destruct (kp_st o') as (((lv & pr) & buf) & pos). cbn [kp_st fst].
  destruct HI as (_ & _ & _ & P & bs & Hbs & Hm & Hs). symmetry in Hm. apply app_eq_nil in Hm. destruct Hm as [Hm _].
  assert (bs = []) as ->. { destruct Hbs as [|b bs [B1 B2] Hbs]; [reflexivity|]. cbn [concat] in Hm. apply app_eq_nil in Hm. destruct Hm as [-> _]. cbn [length] in B2. pose proof (rate_bounds _ (key_rate_ok key)). lia. }
  cbn [fold_left] in Hs. injection Hs as -> ->. rewrite map_map. apply map_ext_in. intros st Hst. apply reset_leaf. rewrite Forall_forall in HF. now apply HF.
Qed.
(** ** for the examples *)
Lemma bytesb l : forallb (fun x => (0 <=? x) && (x <? 256)) l = true -> bytes l.
Proof. intros H. apply Forall_forall. intros x Hx. rewrite forallb_forall in H. specialize (H x Hx). apply andb_prop in H. destruct H as [H1 H2]. apply Z.leb_le in H1. apply Z.ltb_lt in H2. red. lia. Qed.
Lemma c81_init_case md o key : KPA_new md = Ok o -> bytes key -> short key -> (16 <= length key)%nat -> exists o', KPA_Initialize o key [] = Ok o'.
Proof. intros H1 H2 H3 H4. destruct (init_ok o None key [] (new_ok md o H1) H2 (Forall_nil _) H3 ltac:(reflexivity) H4) as (o' & E & _). now exists o'. Qed.
