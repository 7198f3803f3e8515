(** The HCG properties, assembled. *)
From Verif Require Import Proofs_GCM BaseLemmas Spec_Common Proofs_Common Spec_Feed Spec_SHA2 Spec_MAC Spec_HCG Model_SHA2 Proofs_SHA2obj Proofs_SHA2cmp Session_SHA2 ProofsP_SHA2 Model_HMAC Proofs_HMAC ProofsP_MAC ProofsP_KDF
  Model_CSG Session_CSG Proofs_CSG ProofsP_CSG Model_HCG Session_HCG Proofs_HCG.
Open Scope Z_scope.

Lemma name256 : bytes HCG_name256 /\ (length HCG_name256 <= 200)%nat.
Proof. split; [repeat (constructor; [red; lia|]); constructor|cbn [length HCG_name256]; lia]. Qed.
Lemma name512 : bytes HCG_name512 /\ (length HCG_name512 <= 200)%nat.
Proof. split; [repeat (constructor; [red; lia|]); constructor|cbn [length HCG_name512]; lia]. Qed.
Lemma c76_256 prov thr cs : provider_ok prov -> Forall hcall_ok cs ->
  exists rs, hhistory 64 32 SHA2256_Update SHA2256_Finalize SHA2256_new HCG_name256 prov thr (HCG_new 64 SHA2256_new) cs = Ok rs /\
    hexpected sha256 64 32 HCG_name256 prov thr (hgen_new 32) cs rs.
Proof. intros HP. destruct name256. refine (hcg_history 64 32 SHA2256_Update SHA2256_Finalize SHA2256_new after256 sha256 _ _ after256_new upd256 final256 sha256_len sha256_bytes HCG_name256 prov thr _ _ HP cs); auto; lia. Qed.
Lemma c76_512 prov thr cs : provider_ok prov -> Forall hcall_ok cs ->
  exists rs, hhistory 128 64 SHA2512_Update SHA2512_Finalize SHA2512_new HCG_name512 prov thr (HCG_new 128 SHA2512_new) cs = Ok rs /\
    hexpected sha512_code 128 64 HCG_name512 prov thr (hgen_new 64) cs rs.
Proof. intros HP. destruct name512. refine (hcg_history 128 64 SHA2512_Update SHA2512_Finalize SHA2512_new after512 sha512_code _ _ after512_new upd512 c31_final sha512_code_len sha512_code_bytes HCG_name512 prov thr _ _ HP cs); auto; lia. Qed.

(** * requests one after the other *)
Lemma need_range n : (8 <= n <= 64)%nat -> forall g len, (len - hg_left g <= needed n g len * n < len - hg_left g + n)%nat.
Proof. intros Hn g len. apply (bf_range n). lia. Qed.
Lemma need_0 n : (8 <= n <= 64)%nat -> forall g len, (len <= hg_left g)%nat -> needed n g len = 0%nat.
Proof. intros Hn g len L. unfold needed. replace (len - hg_left g)%nat with 0%nat by lia. apply (bf_0 n). lia. Qed.
Section seq.
Context (H : list Z -> list Z) (rate n : nat).
Hypothesis Hn8 : (8 <= n <= 64)%nat.
Hypothesis Hlen : forall m, length (H m) = n.
Fixpoint hrun (g : hgen) (ns : list nat) : list (list Z) :=
  match ns with [] => [] | k :: t => hnext_bytes H rate n g k :: hrun (hadvance H rate n g k) t end.
Lemma adv_ok g k : length (snd (hg_x g)) = n -> (hg_left g <= n)%nat -> length (snd (hg_x (hadvance H rate n g k))) = n /\ (hg_left (hadvance H rate n g k) <= n)%nat.
Proof.
  intros L1 L2. unfold hadvance. cbn [hg_x hg_left snd].
  assert (LA : (hg_left g + needed n g k * n - k <= n)%nat).
  { pose proof (need_range n Hn8 g k). destruct (Nat.le_gt_cases k (hg_left g)) as [Q|Q]; [rewrite (need_0 n Hn8 g k Q); lia|lia]. }
  assert (LI : length (snd (Nat.iter (needed n g k) (next_block H rate (hg_key g) (hg_code g)) (hg_x g))) = n).
  { destruct (needed n g k) as [|j]; [exact L1|]. cbn [Nat.iter nat_rect next_block snd]. apply Hlen. }
  split; [|exact LA]. destruct (_ || _)%bool; [exact LI|]. rewrite app_length, length_zeros, skipn_length, LI. lia.
Qed.
(** whole blocks *)
Lemma blocks_add K code a b : forall y, next_blocks H rate K code (a + b) y = next_blocks H rate K code a y ++ next_blocks H rate K code b (Nat.iter a (next_block H rate K code) y).
Proof. induction a as [|a IH]; intros y; [reflexivity|]. cbn [Nat.add next_blocks]. rewrite IH, <- app_assoc. do 3 f_equal. exact (Proofs_Sponge.iter_r (next_block H rate K code) a y). Qed.
Lemma whole_run : forall ks g, length (snd (hg_x g)) = n -> hg_left g = 0%nat -> concat (hrun g (map (fun k => k * n)%nat ks)) = next_blocks H rate (hg_key g) (hg_code g) (list_sum ks) (hg_x g).
Proof.
  induction ks as [|k ks IH]; intros g L1 L2; [reflexivity|]. cbn [map hrun concat list_sum fold_right]. fold (list_sum ks).
  assert (EN : needed n g (k * n) = k) by (unfold needed; rewrite L2, Nat.sub_0_r; symmetry; apply (Nat.div_unique _ _ _ (n - 1)); lia).
  destruct (adv_ok g (k * n) L1 ltac:(lia)) as [L3 _].
  assert (EL : hg_left (hadvance H rate n g (k * n)) = 0%nat) by (unfold hadvance; cbn [hg_left]; rewrite EN, L2; lia).
  rewrite (IH _ L3 EL). rewrite blocks_add. f_equal.
  - unfold hnext_bytes. rewrite EN, L2, Nat.sub_0_r, skipn_all2 by lia. cbn [app]. apply firstn_all2.
    assert (NB : forall j y, length (next_blocks H rate (hg_key g) (hg_code g) j y) = (j * n)%nat) by (induction j as [|j IHj]; intros y; [reflexivity|]; cbn [next_blocks]; rewrite app_length, IHj; cbn [next_block snd]; unfold hmac; rewrite Hlen; lia).
    rewrite NB. lia.
  - unfold hadvance. cbn [hg_key hg_code hg_x]. rewrite EN, L2. replace (0 + k * n - k * n)%nat with 0%nat by lia. rewrite Nat.eqb_refl, orb_true_r. now rewrite <- surjective_pairing.
Qed.
Context (name : list Z) (thr : Z).
Lemma hrun_expected : forall ns g rs, length (snd (hg_x g)) = n -> (hg_left g <= n)%nat -> hg_ready g = true -> Forall (fun k => Z.of_nat k <= 102400000) ns ->
  hexpected H rate n name None thr g (map (fun k => GGen (zeros k) 0 k) ns) rs -> rs = map GWrote (hrun g ns).
Proof.
  induction ns as [|k ns IH]; intros g rs L1 L2 HR HN HE.
  - destruct rs; [reflexivity|contradiction].
  - inversion HN as [|? ? Hk HN']; subst. cbn [map] in HE. destruct rs as [|r rs]; [contradiction|]. cbn [hexpected] in HE. rewrite HR in HE. cbn [negb] in HE.
    rewrite length_zeros in HE. replace (k <? 0 + k)%nat with false in HE by (symmetry; apply Nat.ltb_ge; lia). replace (102400000 <? Z.of_nat k) with false in HE by (symmetry; apply Z.ltb_ge; lia).
    destruct HE as (out' & W & -> & HE). destruct (adv_ok g k L1 L2) as [L3 L4]. rewrite (IH (hadvance H rate n g k) rs L3 L4 HR HN' HE). cbn [hrun map]. do 2 f_equal.
    apply (whole_written k); [|exact W]. unfold hnext_bytes. rewrite firstn_length, app_length, skipn_length, L1.
    assert (NB : forall j y, length (next_blocks H rate (hg_key g) (hg_code g) j y) = (j * n)%nat) by (induction j as [|j IHj]; intros y; [reflexivity|]; cbn [next_blocks]; rewrite app_length, IHj; cbn [next_block snd]; unfold hmac; rewrite Hlen; lia).
    rewrite NB. pose proof (need_range n Hn8 g k). lia.
Qed.
End seq.
Lemma gens_ok ns : Forall hcall_ok (map (fun k => GGen (zeros k) 0 k) ns).
Proof. apply Forall_map, Forall_forall. intros k _. cbn. lia. Qed.
Lemma c76_run thr key iv info ns : hcall_ok (GInit key iv info) -> (16 <= length key)%nat -> Forall (fun k => Z.of_nat k <= 102400000) ns ->
  hhistory 64 32 SHA2256_Update SHA2256_Finalize SHA2256_new HCG_name256 None thr (HCG_new 64 SHA2256_new) (GInit key iv info :: map (fun k => GGen (zeros k) 0 k) ns) =
  Ok (GDone :: map GWrote (hrun sha256 64 32 (hkeyed sha256 64 HCG_name256 (hgen_new 32) key iv info) ns)).
Proof.
  intros HC LK HN. destruct (c76_256 None thr (GInit key iv info :: map (fun k => GGen (zeros k) 0 k) ns) Logic.I) as (rs & -> & X); [constructor; [exact HC|apply gens_ok]|].
  destruct rs as [|r rs]; [contradiction|]. cbn [hexpected] in X. replace (length key <? 16)%nat with false in X by (symmetry; apply Nat.ltb_ge; lia). destruct X as [-> X].
  apply hrun_expected in X; auto; [now rewrite X|lia|apply sha256_len|apply sha256_len|cbn [hkeyed hg_left]; lia].
Qed.
Lemma c76_run512 thr key iv info ns : hcall_ok (GInit key iv info) -> (16 <= length key)%nat -> Forall (fun k => Z.of_nat k <= 102400000) ns ->
  hhistory 128 64 SHA2512_Update SHA2512_Finalize SHA2512_new HCG_name512 None thr (HCG_new 128 SHA2512_new) (GInit key iv info :: map (fun k => GGen (zeros k) 0 k) ns) =
  Ok (GDone :: map GWrote (hrun sha512_code 128 64 (hkeyed sha512_code 128 HCG_name512 (hgen_new 64) key iv info) ns)).
Proof.
  intros HC LK HN. destruct (c76_512 None thr (GInit key iv info :: map (fun k => GGen (zeros k) 0 k) ns) Logic.I) as (rs & -> & X); [constructor; [exact HC|apply gens_ok]|].
  destruct rs as [|r rs]; [contradiction|]. cbn [hexpected] in X. replace (length key <? 16)%nat with false in X by (symmetry; apply Nat.ltb_ge; lia). destruct X as [-> X].
  apply hrun_expected in X; auto; [now rewrite X|lia|apply sha512_code_len|apply sha512_code_len|cbn [hkeyed hg_left]; lia].
Qed.
Lemma c76_whole_blocks thr key iv info ks : hcall_ok (GInit key iv info) -> (16 <= length key)%nat -> Forall (fun k => Z.of_nat (k * 32) <= 102400000) ks ->
  exists outs, hhistory 64 32 SHA2256_Update SHA2256_Finalize SHA2256_new HCG_name256 None thr (HCG_new 64 SHA2256_new)
      (GInit key iv info :: map (fun k => GGen (zeros (k * 32)) 0 (k * 32)) ks) = Ok (GDone :: map GWrote outs) /\
    let g := hkeyed sha256 64 HCG_name256 (hgen_new 32) key iv info in
    concat outs = next_blocks sha256 64 key (hg_code g) (list_sum ks) (hg_x g).
Proof.
  intros HC LK HN. eexists. split.
  - rewrite <- (map_map (fun k => k * 32)%nat (fun k => GGen (zeros k) 0 k)). apply (c76_run thr key iv info _ HC LK). apply Forall_map. exact HN.
  - cbv zeta. eapply (whole_run sha256 64 32); try lia; [exact sha256_len|apply sha256_len|reflexivity].
Qed.
Lemma c76_whole_blocks512 thr key iv info ks : hcall_ok (GInit key iv info) -> (16 <= length key)%nat -> Forall (fun k => Z.of_nat (k * 64) <= 102400000) ks ->
  exists outs, hhistory 128 64 SHA2512_Update SHA2512_Finalize SHA2512_new HCG_name512 None thr (HCG_new 128 SHA2512_new)
      (GInit key iv info :: map (fun k => GGen (zeros (k * 64)) 0 (k * 64)) ks) = Ok (GDone :: map GWrote outs) /\
    let g := hkeyed sha512_code 128 HCG_name512 (hgen_new 64) key iv info in
    concat outs = next_blocks sha512_code 128 key (hg_code g) (list_sum ks) (hg_x g).
Proof.
  intros HC LK HN. eexists. split.
  - rewrite <- (map_map (fun k => k * 64)%nat (fun k => GGen (zeros k) 0 k)). apply (c76_run512 thr key iv info _ HC LK). apply Forall_map. exact HN.
  - cbv zeta. eapply (whole_run sha512_code 128 64); try lia; [exact sha512_code_len|apply sha512_code_len|reflexivity].
Qed.
(** * the cut matters *)
Lemma zkey_ok : hcall_ok (GInit (zeros 16) [] []).
Proof. cbn [hcall_ok]. split; [apply bytes_zeros|]. split; [constructor|]. split; [constructor|]. cbn [length]. lia. Qed.
Definition hb (l1 l2 : list (list Z)) : bool := nth 32 (concat l1) 0 =? nth 32 (concat l2) 0.
Lemma hb_differ l1 l2 : hb l1 l2 = false -> concat l1 <> concat l2.
Proof. unfold hb. intros E Q. rewrite Q, Z.eqb_refl in E. discriminate E. Qed.
Definition cut1 := hrun sha256 64 32 (hkeyed sha256 64 HCG_name256 (hgen_new 32) (zeros 16) [] []) [16; 24]%nat.
Definition cut2 := hrun sha256 64 32 (hkeyed sha256 64 HCG_name256 (hgen_new 32) (zeros 16) [] []) [40]%nat.
Lemma split_differs : hb cut1 cut2 = false.
Proof. vm_compute. reflexivity. Qed.
Lemma small_ns ns : Forall (fun k => (k <= 100)%nat) ns -> Forall (fun k => Z.of_nat k <= 102400000) ns.
Proof. apply Forall_impl. intros. lia. Qed.
Lemma run_cut1 thr : hhistory 64 32 SHA2256_Update SHA2256_Finalize SHA2256_new HCG_name256 None thr (HCG_new 64 SHA2256_new) (GInit (zeros 16) [] [] :: map (fun k => GGen (zeros k) 0 k) [16; 24]%nat) = Ok (GDone :: map GWrote cut1).
Proof. apply (c76_run thr (zeros 16) [] [] [16; 24]%nat zkey_ok); [rewrite length_zeros; lia|apply small_ns; repeat (constructor; [lia|]); constructor]. Qed.
Lemma run_cut2 thr : hhistory 64 32 SHA2256_Update SHA2256_Finalize SHA2256_new HCG_name256 None thr (HCG_new 64 SHA2256_new) (GInit (zeros 16) [] [] :: map (fun k => GGen (zeros k) 0 k) [40]%nat) = Ok (GDone :: map GWrote cut2).
Proof. apply (c76_run thr (zeros 16) [] [] [40]%nat zkey_ok); [rewrite length_zeros; lia|apply small_ns; repeat (constructor; [lia|]); constructor]. Qed.
Lemma c76_split thr : exists ns1 ns2 outs1 outs2, list_sum ns1 = list_sum ns2 /\
  hhistory 64 32 SHA2256_Update SHA2256_Finalize SHA2256_new HCG_name256 None thr (HCG_new 64 SHA2256_new) (GInit (zeros 16) [] [] :: map (fun k => GGen (zeros k) 0 k) ns1) = Ok (GDone :: map GWrote outs1) /\
  hhistory 64 32 SHA2256_Update SHA2256_Finalize SHA2256_new HCG_name256 None thr (HCG_new 64 SHA2256_new) (GInit (zeros 16) [] [] :: map (fun k => GGen (zeros k) 0 k) ns2) = Ok (GDone :: map GWrote outs2) /\
  concat outs1 <> concat outs2.
Proof.
  exact (ex_intro _ [16; 24]%nat (ex_intro _ [40]%nat (ex_intro _ cut1 (ex_intro _ cut2 (conj eq_refl (conj (run_cut1 thr) (conj (run_cut2 thr) (hb_differ _ _ split_differs)))))))).
Qed.
(** * Update *)
Lemma c76_update thr key key2 : bytes key -> bytes key2 -> (16 <= length key)%nat -> (16 <= length key2)%nat ->
  hhistory 64 32 SHA2256_Update SHA2256_Finalize SHA2256_new HCG_name256 None thr (HCG_new 64 SHA2256_new) [GInit key [] []; GUpdate key2] = Ok [GDone; GDone].
Proof.
  intros B1 B2 L1 L2. destruct (c76_256 None thr [GInit key [] []; GUpdate key2] Logic.I) as (rs & -> & X).
  { constructor; [cbn [hcall_ok]; split; [exact B1|]; split; [constructor|]; split; [constructor|cbn [length]; lia]|]. constructor; [exact B2|constructor]. }
  destruct rs as [|r1 rs]; [contradiction|]. cbn [hexpected] in X. replace (length key <? 16)%nat with false in X by (symmetry; apply Nat.ltb_ge; lia). destruct X as [-> X].
  destruct rs as [|r2 rs]; [contradiction|]. change (64 / 4)%nat with 16%nat in X. replace (length key2 <? 16)%nat with false in X by (symmetry; apply Nat.ltb_ge; lia).
  cbn [hkeyed hg_reseeds hg_ready negb] in X. change (10000 <=? 0) with false in X. destruct X as [-> X]. destruct rs; [reflexivity|contradiction].
Qed.
Lemma c76_pointer d : HCG_pointer_accepts d = true <-> d <> D_SHA2512.
Proof. destruct d; cbn; split; congruence. Qed.
