(** Glue for Properties_KMAC.v. *)
From Verif Require Import BaseLemmas Spec_Common Spec_Feed Proofs_Common Spec_Keccak Model_Keccak Model_SHAKE Session_Digest Session_KMAC Session_SHAKE Proofs_Keccak Proofs_Sponge Proofs_SHA3 Proofs_XOF
  Proofs_KMAC Proofs_KMAC2 Proofs_KMAC3 Proofs_SHAKE ProofsP_Keccak.
Open Scope Z_scope.

Lemma mode_facts rt : In rt kmac_modes -> (64 <= fst rt <= 190)%nat /\ (fst rt mod 8 = 0)%nat /\ (0 < snd rt)%nat.
Proof. intros [<-|[<-|[<-|[]]]]; cbn; repeat split; try reflexivity; lia. Qed.
Lemma c29_hist rt cs : In rt kmac_modes -> Forall (kcall_ok (fst rt)) cs ->
  exists rs, khistory (fst rt) (snd rt) KMAC_new cs = Ok rs /\ kexpected (fst rt) (snd rt) None cs rs.
Proof. intros H HC. destruct (mode_facts rt H) as (H1 & H2 & H3). eapply khistory_ok; eauto. reflexivity. Qed.
Lemma hist_upds rate tag : (64 <= rate <= 190)%nat -> (rate mod 8 = 0)%nat -> (0 < tag)%nat -> forall ps o A m cs, kabs rate o (Some (A, m)) -> Forall p_ok ps ->
  exists o', kabs rate o' (Some (A, m ++ joined ps)) /\ forall rs, khistory rate tag o' cs = Ok rs -> khistory rate tag o (map KUpdate ps ++ cs) = Ok (repeat Done (length ps) ++ rs).
Proof.
  intros Hr H8 Ht ps. induction ps as [|p ps IH]; intros o A m cs HA HP.
  - exists o. split; [now rewrite app_nil_r|auto].
  - inversion HP as [|? ? [P1 P2] HP']; subst. destruct (kabs_upd rate tag Hr H8 Ht o A m _ _ _ HA P2 P1) as (o1 & E & H1).
    destruct (IH o1 A _ cs H1 HP') as (o' & H2 & H3). exists o'. split; [unfold joined; cbn [map concat]; rewrite app_assoc; exact H2|].
    intros rs H. cbn [map app khistory kstep length repeat]. rewrite E. cbn [caught1 bind fst snd]. rewrite (H3 rs H). reflexivity.
Qed.
Lemma run_ok rt key cust ps n : In rt kmac_modes -> bytes key -> bytes cust -> short key -> short cust -> (16 <= length key)%nat -> (length cust = 0 \/ 4 <= length cust)%nat ->
  Forall p_ok ps -> (snd rt <= n)%nat -> 8 * Z.of_nat n < 2 ^ 64 ->
  kmac_run (fst rt) (snd rt) key cust ps n = Ok (Done :: repeat Done (length ps) ++ [Wrote (kmac_out (fst rt) (kmac_start (fst rt) kmac_name key cust) (joined ps) n)]) /\
  length (kmac_out (fst rt) (kmac_start (fst rt) kmac_name key cust) (joined ps) n) = n.
Proof.
  intros HM Bk Bc Sk Sc Lk Lc HP Hn Sn. destruct (mode_facts rt HM) as (Hr & H8 & Ht). destruct rt as [rate tag]. cbn [fst snd] in *. unfold kmac_run. cbn [khistory kstep].
  destruct (KMAC_Init_ok rate tag Hr H8 Ht KMAC_new None key cust []) as (o1 & E & H1); auto; [reflexivity| |].
  { cbn [kcall_ok]. split; [auto|]. split; [auto|]. split; [constructor|]. split; [auto|]. split; [auto|]. split; [unfold short; cbn; lia|]. apply name_fits; [lia|auto]. }
  rewrite E. cbn [caught1 bind fst snd].
  destruct (hist_upds rate tag Hr H8 Ht ps o1 _ [] [KFinal (zeros n) 0] H1 HP) as (o2 & H2 & H3). cbn [app] in H2.
  destruct (kabs_fin rate tag Hr H8 Ht o2 _ _ (zeros n) 0 H2) as (o3 & E3 & _ & LO); [lia|rewrite length_zeros; lia|unfold short; rewrite length_zeros; lia|].
  rewrite length_zeros, Nat.sub_0_r in *. split; [|exact LO]. rewrite (H3 [Wrote (splice (zeros n) 0 (kmac_out rate (kmac_start rate (name_of []) key cust) (joined ps) n))]).
  - cbn [bind]. do 5 f_equal. rewrite splice_all by (rewrite LO, length_zeros; reflexivity). reflexivity.
  - cbn [khistory kstep]. rewrite E3. reflexivity.
Qed.
Lemma c29_tag rt key cust ps n : In rt kmac_modes -> bytes key -> bytes cust -> short key -> short cust -> (16 <= length key)%nat -> (length cust = 0 \/ 4 <= length cust)%nat ->
  Forall p_ok ps -> (snd rt <= n)%nat -> 8 * Z.of_nat n < 2 ^ 64 -> (length (joined ps) mod fst rt + length (right_encode (8 * Z.of_nat n)) < fst rt)%nat ->
  kmac_run (fst rt) (snd rt) key cust ps n = Ok (Done :: repeat Done (length ps) ++ [Wrote (kmac 24 (fst rt) key (joined ps) n cust)]).
Proof.
  intros HM Bk Bc Sk Sc Lk Lc HP Hn Sn Hf. destruct (run_ok rt key cust ps n) as [-> _]; auto. rewrite kmac_exact; auto; [destruct (mode_facts rt HM); lia|].
  unfold joined. clear - HP. induction HP as [|p ps [_ B] _ IH]; [constructor|]. cbn [map concat]. apply Forall_app. split; [now apply bytes_slice|exact IH].
Qed.
Lemma whole_ok m : bytes m -> Forall p_ok (whole m).
Proof. intros. constructor; [split; [cbn; lia|auto]|constructor]. Qed.
Lemma whole_joined m : joined (whole m) = m.
Proof. unfold joined, whole, p_data. cbn [map concat p_in p_off p_len]. rewrite app_nil_r. now apply slice_all. Qed.
Lemma c29_collision rt key cust m : In rt kmac_modes -> bytes key -> bytes cust -> bytes m -> short key -> short cust -> (16 <= length key)%nat -> (length cust = 0 \/ 4 <= length cust)%nat ->
  (length m mod fst rt = fst rt - 5)%nat ->
  exists t, kmac_run (fst rt) (snd rt) key cust (whole m) 128 = Ok [Done; Done; Wrote t] /\ kmac_run (fst rt) (snd rt) key cust (whole (m ++ [4; 0; 2])) 128 = Ok [Done; Done; Wrote t].
Proof.
  intros HM Bk Bc Bm Sk Sc Lk Lc Hm. assert (B2 : bytes (m ++ [4; 0; 2])) by (apply Forall_app; split; [auto|repeat (apply Forall_cons; [red; lia|]); apply Forall_nil]).
  assert (T : (snd rt <= 128)%nat) by (destruct HM as [<-|[<-|[<-|[]]]]; cbn; lia).
  pose proof (proj1 (run_ok rt key cust (whole m) 128 HM Bk Bc Sk Sc Lk Lc (whole_ok m Bm) T ltac:(lia))) as E1.
  pose proof (proj1 (run_ok rt key cust (whole (m ++ [4; 0; 2])) 128 HM Bk Bc Sk Sc Lk Lc (whole_ok _ B2) T ltac:(lia))) as E2.
  rewrite whole_joined in E1, E2. assert (Hr : (11 <= fst rt <= 190)%nat) by (destruct (mode_facts rt HM); lia).
  pose proof (kmac_collision (fst rt) (kmac_start (fst rt) kmac_name key cust) m Hr Hm) as Q.
  exists (kmac_out (fst rt) (kmac_start (fst rt) kmac_name key cust) m 128). split; [exact E1|]. rewrite Q. exact E2.
Qed.
Lemma c29_prefix rt key cust m : In rt kmac_modes -> bytes key -> bytes cust -> bytes m -> short key -> short cust -> (16 <= length key)%nat -> (length cust = 0 \/ 4 <= length cust)%nat ->
  (length m mod fst rt = fst rt - 1)%nat ->
  exists t1 t2, kmac_run (fst rt) (snd rt) key cust (whole m) 64 = Ok [Done; Done; Wrote t1] /\ kmac_run (fst rt) (snd rt) key cust (whole m) 95 = Ok [Done; Done; Wrote t2] /\ t1 = firstn 64 t2 /\ length t1 = 64%nat /\ length t2 = 95%nat.
Proof.
  intros HM Bk Bc Bm Sk Sc Lk Lc Hm.
  assert (T : (snd rt <= 64)%nat) by (destruct HM as [<-|[<-|[<-|[]]]]; cbn; lia). pose proof (mode_facts rt HM) as (Hr & _).
  destruct (run_ok rt key cust (whole m) 64 HM Bk Bc Sk Sc Lk Lc (whole_ok m Bm) T ltac:(lia)) as [E1 L1].
  destruct (run_ok rt key cust (whole m) 95 HM Bk Bc Sk Sc Lk Lc (whole_ok m Bm) ltac:(lia) ltac:(lia)) as [E2 L2].
  rewrite whole_joined in E1, E2, L1, L2. eexists. eexists. split; [exact E1|]. split; [exact E2|]. split; [|split; [exact L1|exact L2]].
  refine (kmac_prefix (fst rt) (kmac_start (fst rt) kmac_name key cust) m 64 95 _ Hm _ eq_refl _ Bm _); [lia|lia| |lia].
  pose proof (mode_facts rt HM) as (_ & H8 & Ht). destruct (KMAC_Init_ok (fst rt) (snd rt) Hr H8 Ht KMAC_new None key cust []) as (o1 & _ & _ & H1 & _); auto; [reflexivity|].
  cbn [kcall_ok]. split; [auto|]. split; [auto|]. split; [constructor|]. split; [auto|]. split; [auto|]. split; [unfold short; cbn; lia|]. apply name_fits; [lia|auto].
Qed.
Lemma c29_stateless R key cust msg io len out rate : (R <= 48)%nat -> Nat.even R = true -> (64 <= rate <= 190)%nat -> bytes key -> bytes cust -> bytes msg -> short key -> short cust -> short out -> (io + len <= length msg)%nat ->
  (0 < len mod rate)%nat -> (len mod rate + length (right_encode (8 * Z.of_nat (length out))) < rate)%nat ->
  MACP1600 R key cust msg io len out rate = Ok (kmac R rate key (slice msg io len) (length out) cust).
Proof. intros H1 H2. intros. apply MACP_ok; auto. now split. Qed.
Lemma differ (r : res (list Z)) (k : list Z) b : match r with Ok t => (nth 0 t 0 =? b) | _ => false end = true -> (nth 0 k 0 =? b) = false -> exists t, r = Ok t /\ t <> k.
Proof. destruct r as [t| |]; try discriminate. intros H1 H2. exists t. split; [reflexivity|]. intros ->. congruence. Qed.
Lemma c29_stateless_refuted : let key := map Z.of_nat (seq 1 16) in exists t, MACP1600 24 key [] [] 0 0 (zeros 32) 136 = Ok t /\ t <> kmac 24 136 key [] 32 [].
Proof. apply (differ _ _ 2); vm_compute; reflexivity. Qed.
Lemma c39_hist rate cs : In rate shake_rates -> Forall (scall_ok rate) cs -> exists rs, shistory rate SHAKE_new cs = Ok rs /\ sexpected rate None cs rs.
Proof. intros H HC. apply shistory_ok; auto; [|reflexivity]. destruct H as [<-|[<-|[<-|[<-|[]]]]]; lia. Qed.
Lemma c39_prefix rate key cust info n1 n2 : In rate shake_rates -> bytes key -> bytes cust -> bytes info -> short cust -> short info -> (n1 <= n2)%nat -> cshake 24 rate key n1 info cust = firstn n1 (cshake 24 rate key n2 info cust).
Proof. intros H. apply cshake_prefix. destruct H as [<-|[<-|[<-|[<-|[]]]]]; lia. Qed.
Lemma c39_cxof R key cust name out oo n rate : (R <= 48)%nat -> Nat.even R = true -> (11 <= rate <= 200)%nat -> bytes key -> bytes cust -> bytes name -> short cust -> short name -> fits_block rate name cust -> (oo + n <= length out)%nat ->
  (0 < length name + length cust)%nat ->
  exists out', CXOFP1600 R key cust name out oo n rate = Ok out' /\ written out out' oo (cshake R rate key n name cust).
Proof.
  intros H1 H2 Hr Bk Bc Bn Sc Sn Hf HO HN. destruct (CXOF_ok R key cust name out oo n rate) as (d & E & L & D); auto; [now split|]. eexists. split; [exact E|].
  unfold cshake. replace (length name + length cust =? 0)%nat with false by (symmetry; apply Nat.eqb_neq; lia). rewrite <- D. apply splice_written. lia.
Qed.
Lemma nth_skipn0 (l : list Z) k d : nth 0 (skipn k l) d = nth k l d.
Proof. revert l. induction k as [|k IH]; intros [|x l]; cbn [skipn]; auto. cbn [nth]. apply IH. Qed.
(** two requests for one byte each give the first bytes of two consecutive blocks *)
Lemma c39_split rate key : In rate shake_rates -> bytes key -> (4 <= length key)%nat ->
  exists o1 o2, shistory rate SHAKE_new [SInit key [] []; SGen [0] 0 1; SGen [0] 0 1] = Ok [Done; Wrote o1; Wrote o2] /\ o1 = [nth 0 (shake 24 rate key (rate + 1)) 0] /\ o2 = [nth rate (shake 24 rate key (rate + 1)) 0].
Proof.
  intros HR Bk Lk. assert (Hr : (11 <= rate <= 200)%nat) by (destruct HR as [<-|[<-|[<-|[<-|[]]]]]; lia).
  assert (HC : Forall (scall_ok rate) [SInit key [] []; SGen [0] 0 1; SGen [0] 0 1]).
  { repeat (apply Forall_cons); try apply Forall_nil; cbn [scall_ok length]; try lia. repeat split; auto; try constructor. unfold fits_block. rewrite app_length, rate_left by lia. change (length (encode_string [])) with 2%nat. cbn [Nat.add Nat.sub]. rewrite Nat.mod_small by lia. change (length (left_encode (8 * Z.of_nat (length (@nil Z))))) with 2%nat. lia. }
  destruct (c39_hist rate _ HR HC) as (rs & E & H). cbn [sexpected] in H. replace (length key <? 4)%nat with false in H by (symmetry; apply Nat.ltb_ge; lia). cbn [length Nat.ltb Nat.leb andb] in H.
  destruct rs as [|r0 rs]; [destruct H|]. destruct H as [-> H]. destruct rs as [|r1 rs]; [destruct H|]. change (1 <? 0 + 1)%nat with false in H. cbn [Nat.add] in H. rewrite (Nat.div_small 1 rate), (Nat.mod_small 1 rate) in H by lia.
  change (1024000 <? Z.of_nat 0) with false in H. cbv iota in H. destruct H as [(o1 & -> & W1) H]. destruct rs as [|r2 rs]; [destruct H|].
  cbn [Nat.eqb] in H. change (1024000 <? Z.of_nat (1 + 0)) with false in H. cbv iota in H. destruct H as [(o2 & -> & W2) H].
  destruct rs; [|destruct H]. exists o1, o2. split; [exact E|]. rewrite Nat.mul_0_l in W1. cbn [Nat.add skipn] in W1.
  replace ((S rate - 1) / rate * rate)%nat with rate in W2 by (replace (S rate - 1)%nat with rate by lia; rewrite Nat.div_same by lia; lia).
  change (cshake 24 rate key 1 [] []) with (shake 24 rate key 1) in W1. change (cshake 24 rate key (rate + 1) [] []) with (shake 24 rate key (rate + 1)) in W2.
  pose proof (c39_prefix rate key [] [] 1 (rate + 1) HR Bk ltac:(constructor) ltac:(constructor) ltac:(unfold short; cbn; lia) ltac:(unfold short; cbn; lia) ltac:(lia)) as PX.
  change (cshake 24 rate key 1 [] []) with (shake 24 rate key 1) in PX. change (cshake 24 rate key (rate + 1) [] []) with (shake 24 rate key (rate + 1)) in PX.
  assert (LS : length (shake 24 rate key (rate + 1)) = (rate + 1)%nat) by (apply sponge_len; auto; [apply r24|lia|red; lia]).
  rewrite PX in W1. revert LS W1 W2. generalize (shake 24 rate key (rate + 1)). intros l LS (L1 & V1 & _) (L2 & V2 & _).
  specialize (V1 0%nat). rewrite firstn_length, LS in V1. specialize (V1 ltac:(lia)). cbn [Nat.add] in V1.
  specialize (V2 0%nat). rewrite skipn_length, LS in V2. specialize (V2 ltac:(lia)). cbn [Nat.add] in V2.
  destruct o1 as [|x1 [|]]; try discriminate. destruct o2 as [|x2 [|]]; try discriminate. cbn [nth] in V1, V2. subst x1 x2. split; f_equal.
  - destruct l; reflexivity.
  - now rewrite nth_skipn0.
Qed.
