(** The CSG object: histories. *)
From Verif Require Import BaseLemmas Spec_Common Proofs_Common Spec_Feed Spec_Keccak Spec_CSG Model_IntegerTools Model_Modes Model_Absorb Model_Keccak Model_CSG Proofs_Windows Proofs_Absorb Proofs_SHA2obj
  Proofs_Keccak Proofs_Sponge Proofs_SHA3 Proofs_XOF Session_KMAC Proofs_KMAC Proofs_KMAC2 Proofs_SHAKE Session_CSG Proofs_CSG.
Open Scope Z_scope.

Section obj.
Context (rate : nat) (prov : option (nat -> nat -> list Z)) (thr : Z).
Hypothesis Hr : (0 < rate <= 199)%nat.
Hypothesis HP : provider_ok prov.
Let f := keccak 24.
Lemma Init_gen o g key iv info : grel rate o g -> gcall_ok rate (GInit key iv info) -> (16 <= length key)%nat ->
  exists o', CSG_Initialize rate o key iv info = Ok o' /\ grel rate o' (keyed rate g key iv info).
Proof.
  intros HG (Bk & Bv & Bi & Sv & Si & HC) LK. unfold CSG_Initialize. replace (length key <? 16)%nat with false by (symmetry; apply Nat.ltb_ge; lia). cbn [negb guard bind].
  destruct HG as (H1 & H2 & H3 & H4 & H5 & H6 & H7 & H8 & H9 & H10 & H11 & H12 & H13). cbn [CSG_Reset cg_state cg_buf cg_cached cg_counter cg_reseed cg_calls]. change (zeros 25) with zero_state.
  assert (FIN : forall A dom, st_ok A -> is_byte dom ->
    grel rate (Csg A (zeros rate) 0 0 0 dom true (cg_calls o)) (Gen true A dom 0 0 0 0 (gn_calls g))).
  { intros A dom HA Hd. unfold grel. cbn [cg_state cg_buf cg_cached cg_counter cg_reseed cg_domain cg_ready cg_calls gn_A gn_k gn_pos gn_since gn_reseeds gn_dom gn_ready gn_calls].
    split; [reflexivity|]. split; [exact HA|]. split; [apply length_zeros|]. split; [lia|]. split; [reflexivity|]. split; [lia|]. split; [|auto 10].
    rewrite Nat.sub_0_r, skipn_all2 by (rewrite length_zeros; lia). reflexivity. }
  unfold keyed. destruct (Nat.eqb_spec (length iv + length info) 0) as [Q|Q].
  - replace (negb (length iv =? 0)%nat || negb (length info =? 0)%nat) with false by (destruct (Nat.eqb_spec (length iv) 0), (Nat.eqb_spec (length info) 0); cbn; lia || reflexivity). cbn [bind].
    destruct (CSG_Absorb_ok rate Hr key 31 zero_state zero_state_ok Bk ltac:(red; lia)) as [-> [E _]]. cbn [bind]. eexists. split; [reflexivity|]. apply FIN; [exact E|red; lia].
  - replace (negb (length iv =? 0)%nat || negb (length info =? 0)%nat) with true by (destruct (Nat.eqb_spec (length iv) 0), (Nat.eqb_spec (length info) 0); cbn; lia || reflexivity). cbn [bind].
    destruct (HC ltac:(lia)) as [R11 HF]. unfold CSG_Customize.
    destruct (Customize_ok 24 iv info rate zero_state r24 ltac:(lia) zero_state_ok Bv Bi Sv Si HF) as [-> S1]. cbn [bind].
    destruct (CSG_Absorb_ok rate Hr key 4 _ S1 Bk ltac:(red; lia)) as [-> [E _]]. cbn [bind]. eexists. split; [reflexivity|]. apply FIN; [exact E|red; lia].
Qed.
(** the stream of a keyed generator is that of cSHAKE *)
Lemma keyed_stream g key iv info n : gcall_ok rate (GInit key iv info) -> (rate <= 198)%nat -> outputs rate (gn_A (keyed rate g key iv info)) n = cshake 24 rate key n info iv.
Proof.
  intros (Bk & Bv & Bi & Sv & Si & HC) R8. unfold keyed, cshake. rewrite (Nat.add_comm (length info)). destruct (Nat.eqb_spec (length iv + length info) 0) as [Q|Q]; cbn [gn_A].
  - destruct (CSG_Absorb_ok rate Hr key 31 zero_state zero_state_ok Bk ltac:(red; lia)) as [_ E]. symmetry. exact (sponge_stream 24 rate zero_state 31 key n _ E).
  - destruct (HC ltac:(lia)) as [R11 HF].
    destruct (Customize_ok 24 iv info rate zero_state r24 ltac:(lia) zero_state_ok Bv Bi Sv Si HF) as [_ S1].
    destruct (CSG_Absorb_ok rate Hr key 4 _ S1 Bk ltac:(red; lia)) as [_ E]. symmetry. apply sponge_stream.
    apply absorbed_app; [lia|apply bytepad_bytes; [lia|apply Forall_app; split; now apply encode_string_bytes]|apply bytepad_aligned; lia|exact E].
Qed.
Lemma with_counts_same g : with_counts g (gn_since g) (gn_reseeds g) = g.
Proof. destruct g. reflexivity. Qed.
Lemma count_rel o g c r : grel rate o g -> grel rate (Csg (cg_state o) (cg_buf o) (cg_cached o) c r (cg_domain o) (cg_ready o) (cg_calls o)) (with_counts g c r).
Proof. intros (H1 & H2 & H3 & H4 & H5 & H6 & H7 & H8 & H9 & H10 & H11 & H12 & H13). unfold grel, with_counts. cbn [cg_state cg_buf cg_cached cg_counter cg_reseed cg_domain cg_ready cg_calls gn_A gn_k gn_pos gn_since gn_reseeds gn_dom gn_ready gn_calls]. auto 20. Qed.
Lemma Derive_ok p o g : (forall k n, length (p k n) = n /\ bytes (p k n)) -> grel rate o g -> exists o', CSG_Derive rate p o = Ok o' /\ grel rate o' (provided rate p g).
Proof.
  intros Hp HG. unfold CSG_Derive. replace (rate <=? 200)%nat with true by (symmetry; apply Nat.leb_le; lia). cbn [safe bind].
  assert (EC : cg_calls o = gn_calls g) by apply HG. rewrite EC. set (m := p (gn_calls g) ((200 - rate) / 2)%nat).
  destruct (reseed_ok rate Hr o g m HG ltac:(apply Hp)) as (o' & E1 & E2). rewrite E1. cbn [bind]. destruct (E2 (S (gn_calls g))) as [E3 E4]. exists (o' (S (gn_calls g))). split; [exact E3|]. exact E4.
Qed.
Lemma step_ok' o g c : grel rate o g -> gcall_ok rate c ->
  exists o' r g', gstep rate prov thr o c = Ok (o', r) /\ grel rate o' g' /\ forall cs rs, gexpected rate prov thr g' cs rs -> gexpected rate prov thr g (c :: cs) (r :: rs).
Proof.
  intros HG HC. destruct c as [key iv info|out oo n|key].
  - cbn [gstep gexpected]. destruct (Nat.ltb_spec (length key) 16) as [L|L].
    + unfold CSG_Initialize. replace (length key <? 16)%nat with true by (symmetry; apply Nat.ltb_lt; lia). cbn [negb guard bind]. exists o, (GFailed InvalidKey), g. auto.
    + destruct (Init_gen o g key iv info HG HC L) as (o' & -> & H'). exists o', GDone, (keyed rate g key iv info). auto.
  - cbn [gstep gexpected gcall_ok] in *. assert (ER : cg_ready o = gn_ready g) by apply HG. unfold CSG_Generate. rewrite ER. destruct (gn_ready g) eqn:RD; cbn [guard bind negb].
    2:{ exists o, (GFailed NotInitialized), g. auto. }
    destruct (Nat.ltb_spec (length out) (oo + n)) as [L|L].
    { replace ((oo <=? length out)%nat && (length out - oo <? n)%nat) with true by (symmetry; apply andb_true_iff; split; [apply Nat.leb_le; lia|apply Nat.ltb_lt; lia]). cbn [negb guard bind]. exists o, (GFailed InvalidSize), g. auto. }
    replace ((oo <=? length out)%nat && (length out - oo <? n)%nat) with false by (symmetry; apply andb_false_iff; right; apply Nat.ltb_ge; lia). cbn [negb guard bind].
    destruct (Z.ltb_spec 102400000 (Z.of_nat n)) as [M|M].
    { replace (Z.of_nat n <=? 102400000) with false by (symmetry; apply Z.leb_gt; lia). cbn [guard bind]. exists o, (GFailed MaxExceeded), g. auto. }
    replace (Z.of_nat n <=? 102400000) with true by (symmetry; apply Z.leb_le; lia). cbn [guard bind].
    destruct (Expand_gen rate Hr o g out oo n HG L) as (buf & cached & E & K). rewrite E. cbn [bind].
    assert (LN : length (next_bytes rate g n) = n) by (apply next_len; [exact Hr|apply HG]).
    assert (W : written out (splice out oo (next_bytes rate g n)) oo (next_bytes rate g n)) by (apply splice_written; lia).
    assert (ES : cg_counter o = gn_since g /\ cg_reseed o = gn_reseeds g) by (split; apply HG). destruct ES as [ES1 ES2]. rewrite ES1, ES2. set (o1 := splice out oo (next_bytes rate g n)) in *.
    unfold provider_ok in HP. destruct prov as [p|] eqn:EP; rewrite ?RD in K.
    + rewrite ER in K. destruct (Z.ltb_spec (gn_since g + Z.of_nat n) thr) as [T|T].
      * replace (thr <=? gn_since g + Z.of_nat n) with false by (symmetry; apply Z.leb_gt; lia).
        eexists _, (GWrote o1), _. split; [reflexivity|]. split; [apply K|]. intros cs rs H. rewrite ?RD. exists o1. auto.
      * replace (thr <=? gn_since g + Z.of_nat n) with true by (symmetry; apply Z.leb_le; lia). cbn [cg_reseed].
        destruct (Z.leb_spec 10000 (gn_reseeds g)) as [X|X].
        -- replace (10000 <? gn_reseeds g + 1) with true by (symmetry; apply Z.ltb_lt; lia). eexists _, (GLate MaxExceeded o1), _. split; [reflexivity|]. split; [apply K|]. intros cs rs H. exists o1. auto.
        -- replace (10000 <? gn_reseeds g + 1) with false by (symmetry; apply Z.ltb_ge; lia).
           destruct (Derive_ok p _ _ HP (K (gn_since g + Z.of_nat n) (gn_reseeds g + 1))) as (o2 & E2 & K2). rewrite E2. cbn [bind].
           eexists _, (GWrote o1), _. split; [reflexivity|]. split; [apply count_rel; exact K2|]. intros cs rs H. exists o1. split; [exact W|]. split; [reflexivity|].
           replace (cg_reseed o2) with (gn_reseeds g + 1) in H; [exact H|]. symmetry. apply K2.
    + rewrite ER in K. eexists _, (GWrote o1), _. split; [reflexivity|]. split; [apply K|]. intros cs rs H. exists o1. split; [exact W|]. split; [reflexivity|].
      change (gn_since g) with (gn_since (advance rate g n)) in H. change (gn_reseeds g) with (gn_reseeds (advance rate g n)) in H. now rewrite with_counts_same in H.
  - cbn [gstep gexpected gcall_ok] in *. unfold CSG_Update. destruct (Nat.ltb_spec (length key) 16) as [L|L]; cbn [negb guard bind].
    { exists o, (GFailed InvalidKey), g. auto. }
    assert (ES : cg_counter o = gn_since g /\ cg_reseed o = gn_reseeds g) by (split; apply HG). destruct ES as [ES1 ES2].
    pose proof (count_rel o g (gn_since g) (gn_reseeds g + 1) HG) as HG1. rewrite ES1, ES2. cbn [cg_reseed]. destruct (Z.leb_spec 10000 (gn_reseeds g)) as [X|X].
    { replace (10000 <? gn_reseeds g + 1) with true by (symmetry; apply Z.ltb_lt; lia). eexists _, (GFailed MaxExceeded), _. split; [reflexivity|]. split; [exact HG1|]. auto. }
    replace (10000 <? gn_reseeds g + 1) with false by (symmetry; apply Z.ltb_ge; lia).
    set (g1 := with_counts g (gn_since g) (gn_reseeds g + 1)) in *. set (o1 := Csg (cg_state o) (cg_buf o) (cg_cached o) (gn_since g) (gn_reseeds g + 1) (cg_domain o) (cg_ready o) (cg_calls o)) in *.
    assert (DV : exists o2, match prov with Some p => CSG_Derive rate p o1 | None => Ok o1 end = Ok o2 /\ grel rate o2 (match prov with Some p => provided rate p g1 | None => g1 end)).
    { unfold provider_ok in HP. destruct prov as [p|]; [now apply Derive_ok|]. exists o1. auto. }
    destruct DV as (o2 & E2 & K2). rewrite E2. cbn [bind]. set (g2 := match prov with Some p => provided rate p g1 | None => g1 end) in *.
    destruct (reseed_ok rate Hr o2 g2 key K2 HC) as (o' & E1 & E3). rewrite E1. cbn [bind]. destruct (E3 (cg_calls o2)) as [E4 E5]. unfold set_state. rewrite E4. cbn [bind].
    eexists _, GDone, _. split; [reflexivity|]. split; [exact E5|]. intros cs rs H. split; [reflexivity|]. replace (cg_calls o2) with (gn_calls (reseed rate g2 key)) in H; [exact H|]. cbn [reseed gn_calls]. symmetry. apply K2.
Qed.
Lemma ghistory_ok cs : forall o g, grel rate o g -> Forall (gcall_ok rate) cs -> exists rs, ghistory rate prov thr o cs = Ok rs /\ gexpected rate prov thr g cs rs.
Proof.
  induction cs as [|c cs IH]; intros o g HG HC; [exists []; split; [reflexivity|exact Logic.I]|]. inversion HC as [|? ? Hc HC']; subst. cbn [ghistory].
  destruct (step_ok' o g c HG Hc) as (o' & r & g' & -> & HG' & K). cbn [bind fst snd]. destruct (IH o' g' HG' HC') as (rs & -> & E). cbn [bind]. exists (r :: rs). split; [reflexivity|]. now apply K.
Qed.
End obj.
Lemma c74_every_history rate prov thr cs : (0 < rate <= 199)%nat -> provider_ok prov -> Forall (gcall_ok rate) cs ->
  exists rs, ghistory rate prov thr (CSG_new rate) cs = Ok rs /\ gexpected rate prov thr gen_new cs rs.
Proof. intros Hr HP HC. apply ghistory_ok; auto. now apply grel_new. Qed.
(** * one stream *)
Lemma whole_written n out' d : length d = n -> written (zeros n) out' 0 d -> out' = d.
Proof. intros L W. assert (F : (0 + length d <= length (zeros n))%nat) by (rewrite length_zeros; lia). rewrite (written_unique _ _ (splice (zeros n) 0 d) _ _ F W) by (now apply splice_written). apply splice_all. rewrite length_zeros. exact L. Qed.
Lemma gens_expected rate thr : (0 < rate <= 199)%nat -> forall ns g rs, st_ok (gn_A g) -> gn_ready g = true -> Forall (fun n => Z.of_nat n <= 102400000) ns ->
  gexpected rate None thr g (map (fun n => GGen (zeros n) 0 n) ns) rs ->
  exists outs, rs = map GWrote outs /\ concat outs = skipn (gn_pos g) (outputs rate (gn_A g) (gn_pos g + list_sum ns)).
Proof.
  intros Hr. induction ns as [|n ns IH]; intros g rs HS HR HN HE.
  - cbn [map gexpected] in HE. destruct rs as [|r rs]; [|contradiction]. exists []. split; [reflexivity|]. cbn [list_sum fold_right concat]. rewrite Nat.add_0_r.
    symmetry. apply skipn_all2. change (outputs rate (gn_A g) (gn_pos g)) with (stream 24 rate (gn_A g) (gn_pos g)). rewrite stream_len by (auto; lia). lia.
  - inversion HN as [|? ? Hn HN']; subst. cbn [map] in HE. destruct rs as [|r rs]; [contradiction|]. cbn [gexpected] in HE. rewrite HR in HE. cbn [negb] in HE.
    rewrite length_zeros in HE. replace (n <? 0 + n)%nat with false in HE by (symmetry; apply Nat.ltb_ge; lia). replace (102400000 <? Z.of_nat n) with false in HE by (symmetry; apply Z.ltb_ge; lia).
    destruct HE as (out' & W & -> & HE). destruct (IH (advance rate g n) rs HS HR HN' HE) as (outs & -> & E). exists (out' :: outs). split; [reflexivity|].
    cbn [concat list_sum fold_right]. fold (list_sum ns). rewrite E. cbn [advance gn_pos gn_A].
    pose proof (next_len rate Hr g n HS) as LN.
    assert (out' = next_bytes rate g n) as ->.
    { rewrite (whole_written n out' (next_bytes rate g n) LN W). reflexivity. }
    unfold next_bytes. set (t := list_sum ns). set (p := gn_pos g).
    rewrite (outputs_prefix rate Hr _ (p + n) (p + (n + t))) by (auto; nia). rewrite !(outputs_prefix rate Hr _ _ (p + (n + t))) by (auto; nia).
    set (S := squeeze (keccak 24) rate (p + (n + t)) (keccak 24 (gn_A g))).
    rewrite <- !firstn_skipn_comm. replace (skipn (p + n) S) with (skipn n (skipn p S)) by (rewrite skipn_skipn; f_equal; lia).
    set (Q := skipn p S). rewrite <- (firstn_skipn n (firstn (n + t) Q)). f_equal.
    + rewrite firstn_firstn. f_equal. lia.
    + now rewrite firstn_skipn_comm.
Qed.
Lemma c74_one_stream rate thr key iv info ns : (0 < rate <= 198)%nat -> (16 <= length key)%nat -> gcall_ok rate (GInit key iv info) -> Forall (fun n => Z.of_nat n <= 102400000) ns ->
  exists outs, ghistory rate None thr (CSG_new rate) (GInit key iv info :: map (fun n => GGen (zeros n) 0 n) ns) = Ok (GDone :: map GWrote outs) /\
    concat outs = cshake 24 rate key (list_sum ns) info iv.
Proof.
  intros Hr LK HC HN. destruct (c74_every_history rate None thr (GInit key iv info :: map (fun n => GGen (zeros n) 0 n) ns) ltac:(lia) Logic.I) as (rs & E & X).
  { constructor; [exact HC|]. apply Forall_map. apply Forall_forall. intros n _. cbn. lia. }
  rewrite E. destruct rs as [|r rs]; [contradiction|]. cbn [gexpected] in X. replace (length key <? 16)%nat with false in X by (symmetry; apply Nat.ltb_ge; lia). destruct X as [-> X].
  destruct (Init_gen rate ltac:(lia) (CSG_new rate) gen_new key iv info (grel_new rate ltac:(lia)) HC LK) as (o' & _ & (_ & HS & _)).
  destruct (gens_expected rate thr ltac:(lia) ns _ rs HS) with (2 := HN) (3 := X) as (outs & -> & EC); [unfold keyed; now destruct (_ =? 0)%nat|].
  exists outs. split; [reflexivity|]. rewrite EC.
  replace (gn_pos (keyed rate gen_new key iv info)) with 0%nat by (unfold keyed; now destruct (_ =? 0)%nat). cbn [skipn Nat.add]. apply keyed_stream; auto; lia.
Qed.
(** * Update straight after Initialize *)
Lemma xor_lanes_cancel A B : length A = length B -> xor_lanes (xor_lanes A B) B = A.
Proof.
  revert B. induction A as [|a A IH]; intros [|b B] L; try discriminate L; [reflexivity|]. unfold xor_lanes in *. cbn [combine map fst snd]. f_equal; [|apply IH; now injection L].
  now rewrite Z.lxor_assoc, Z.lxor_nilpotent, Z.lxor_0_r.
Qed.
Lemma load_twice rate st dom key : (0 < rate <= 199)%nat -> st_ok st -> is_byte dom -> bytes key -> (length key < rate)%nat -> load rate (load rate st dom key) dom key = st.
Proof.
  intros Hr Hs Hd Hk Hl. assert (E : forall s, st_ok s -> load rate s dom key = xor_lanes s (lane_words (last_block rate dom key ++ zeros (200 - rate)))).
  { intros s H. pose proof (load_ok rate Hr s dom [] key H Hd (Forall_nil _) Hk Hl) as Q. cbn [concat app fold_left] in Q. exact Q. }
  destruct (CSG_Absorb_ok rate Hr key dom st Hs Hk Hd) as [_ [S1 _]]. rewrite (E _ S1), (E _ Hs). apply xor_lanes_cancel.
  destruct Hs as [-> _]. symmetry. apply (lane_words_len _ 25). rewrite app_length, last_block_len, length_zeros by lia. lia.
Qed.
Lemma c74_update_after_init rate thr key n : (0 < rate <= 199)%nat -> bytes key -> (16 <= length key < rate)%nat -> Z.of_nat n <= 102400000 ->
  ghistory rate None thr (CSG_new rate) [GInit key [] []; GUpdate key; GGen (zeros n) 0 n] = Ok [GDone; GDone; GWrote (outputs rate zero_state n)].
Proof.
  intros Hr Bk LK HN.
  assert (S0 : short []) by (unfold short; cbn [length]; lia).
  assert (HC : Forall (gcall_ok rate) [GInit key [] []; GUpdate key; GGen (zeros n) 0 n]).
  { constructor; [|constructor; [exact Bk|constructor; [cbn; lia|constructor]]]. cbn [gcall_ok]. split; [exact Bk|]. split; [constructor|]. split; [constructor|]. split; [exact S0|]. split; [exact S0|]. cbn [length]. lia. }
  destruct (c74_every_history rate None thr _ Hr Logic.I HC) as (rs & -> & X). f_equal.
  destruct rs as [|r1 [|r2 [|r3 rs]]]; cbn [gexpected] in X; replace (length key <? 16)%nat with false in X by (symmetry; apply Nat.ltb_ge; lia); try (destruct X as [_ X]; try contradiction; destruct X as [_ X]; contradiction); try contradiction.
  destruct X as [-> X]. cbn [gn_reseeds gn_since keyed length Nat.add Nat.eqb] in X. replace (10000 <=? 0) with false in X by reflexivity. destruct X as [-> X].
  cbn [negb gn_ready reseed with_counts keyed length Nat.add Nat.eqb] in X. rewrite length_zeros in X. replace (n <? n)%nat with false in X by (symmetry; apply Nat.ltb_ge; lia). replace (102400000 <? Z.of_nat n) with false in X by (symmetry; apply Z.ltb_ge; lia).
  destruct X as (out' & W & -> & X). destruct rs as [|? ?]; [|contradiction]. do 3 f_equal. f_equal.
  set (g0 := Gen _ _ _ _ _ _ _ _) in *. set (g := reseed rate (with_counts g0 0 (0 + 1)) key) in *. assert (EA : gn_A g = zero_state) by (unfold g, g0; cbn [reseed with_counts gn_A gn_k gn_dom Nat.iter nat_rect]; apply load_twice; auto using zero_state_ok; try lia; red; lia).
  assert (HS : st_ok (gn_A g)) by (rewrite EA; exact zero_state_ok).
  pose proof (next_len rate Hr g n HS) as LN. rewrite (whole_written n out' (next_bytes rate g n) LN W). unfold next_bytes. rewrite EA. change (gn_pos g) with 0%nat. reflexivity.
Qed.
(** * the constructor that takes a provider pointer *)
Lemma c74_pointer_512 prov thr key : provider_ok prov -> bytes key -> (16 <= length key)%nat -> forall n, Z.of_nat n <= 102400000 -> Z.of_nat n < thr ->
  ghistory (CSG_rate_pointer M_SHAKE512) prov thr (CSG_new (CSG_rate_pointer M_SHAKE512)) [GInit key [] []; GGen (zeros n) 0 n] = Ok [GDone; GWrote (shake 24 1 key n)].
Proof.
  intros HP Bk LK n HN HT. change (CSG_rate_pointer M_SHAKE512) with 1%nat.
  assert (S0 : short []) by (unfold short; cbn [length]; lia).
  assert (HC1 : gcall_ok 1 (GInit key [] [])) by (cbn [gcall_ok]; split; [exact Bk|]; split; [constructor|]; split; [constructor|]; split; [exact S0|]; split; [exact S0|]; cbn [length]; lia).
  assert (HC : Forall (gcall_ok 1) [GInit key [] []; GGen (zeros n) 0 n]) by (constructor; [exact HC1|constructor; [cbn; lia|constructor]]).
  destruct (c74_every_history 1 prov thr _ ltac:(lia) HP HC) as (rs & -> & X). f_equal.
  destruct rs as [|r1 [|r2 rs]]; cbn [gexpected] in X; replace (length key <? 16)%nat with false in X by (symmetry; apply Nat.ltb_ge; lia); try contradiction; try (destruct X as [_ X]; contradiction).
  destruct X as [-> X]. pose proof (keyed_stream 1 ltac:(lia) gen_new key [] [] n HC1 ltac:(lia)) as KS.
  destruct (Init_gen 1 ltac:(lia) (CSG_new 1) gen_new key [] [] (grel_new 1 ltac:(lia)) HC1 LK) as (o' & _ & (_ & HS & _)).
  set (g := keyed 1 gen_new key [] []) in *. change (gn_ready g) with true in X. change (gn_since g) with 0 in X. cbn [negb] in X. rewrite length_zeros in X. cbn [Nat.add] in X.
  replace (n <? n)%nat with false in X by (symmetry; apply Nat.ltb_ge; lia). replace (102400000 <? Z.of_nat n) with false in X by (symmetry; apply Z.ltb_ge; lia).
  destruct X as (out' & W & X). pose proof (next_len 1 ltac:(lia) g n HS) as LN. apply (whole_written n) in W; [|exact LN].
  assert (EO : out' = shake 24 1 key n) by (rewrite W; unfold next_bytes; change (gn_pos g) with 0%nat; cbn [skipn Nat.add]; rewrite KS; reflexivity).
  rewrite <- EO. destruct prov as [p|].
  - replace (0 + Z.of_nat n <? thr) with true in X by (symmetry; apply Z.ltb_lt; lia). destruct X as [-> X]. destruct rs; [reflexivity|contradiction].
  - destruct X as [-> X]. destruct rs; [reflexivity|contradiction].
Qed.
Lemma c74_pointer_1024 prov thr key : (16 <= length key)%nat ->
  ghistory (CSG_rate_pointer M_SHAKE1024) prov thr (CSG_new (CSG_rate_pointer M_SHAKE1024)) [GInit key [] []] = UB.
Proof.
  intros LK. cbn [ghistory gstep]. unfold CSG_Initialize. replace (length key <? 16)%nat with false by (symmetry; apply Nat.ltb_ge; lia). reflexivity.
Qed.
