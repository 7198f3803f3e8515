(** The BCG properties, assembled. *)
From Coq Require Import Permutation.
From Verif Require Import BaseLemmas Spec_Common Proofs_Common Spec_ChaCha Model_ChaCha Proofs_ChaCha Proofs_ChaCha2 Spec_AES Proofs_AES Model_Rijndael Proofs_Rijndael Spec_RCS Model_RCS Session_RCS Proofs_RCS Proofs_RCS2 Proofs_RCS3
  Session_CSG ProofsP_CSG Spec_BCG Model_BCG Session_BCG Proofs_BCG.
Open Scope Z_scope.

Lemma seq_ok : bprofile seq_profile. Proof. intros H. discriminate H. Qed.
Lemma par_ok : bprofile par_profile.
Proof. intros _. cbn [par_profile sp_deg sp_blk]. repeat split; try lia. Qed.
Lemma init_call p key iv info : init_ok key iv info -> bcall_ok p (BInit key iv info).
Proof. intros (B1 & B2 & B3 & L & _). cbn [bcall_ok]. auto. Qed.
Lemma init_exp p prov thr g key iv info cs rs : init_ok key iv info -> bexpected p prov thr g (BInit key iv info :: cs) rs ->
  exists rs', rs = GDone :: rs' /\ bexpected p prov thr (bkeyed g key iv info) cs rs'.
Proof.
  intros (_ & _ & _ & _ & HL & HI) X. destruct rs as [|r rs]; [contradiction|]. cbn [bexpected] in X. rewrite HL, HI in X. cbn [negb Nat.eqb] in X. destruct X as [-> X]. eauto.
Qed.
Lemma nil_exp p prov thr g rs : bexpected p prov thr g [] rs -> rs = [].
Proof. destruct rs; [reflexivity|contradiction]. Qed.
Lemma bnext_len p keys n len : bprofile p -> length (fst (bnext (par_of p) keys n len)) = len.
Proof. intros HP. exact (Proofs_BCG.bnext_len p HP keys n len). Qed.
(** a request without provider *)
Lemma gen_exp p thr g n ord cs rs : bprofile p -> b_ready g = true -> Z.of_nat n <= 102400000 -> bexpected p None thr g (BGenerate (zeros n) 0 n ord :: cs) rs ->
  exists rs', let nx := bnext (par_of p) (b_keys g) (b_nonce g) n in rs = GWrote (fst nx) :: rs' /\ bexpected p None thr (bwith g (snd nx) (b_since g) (b_reseeds g)) cs rs'.
Proof.
  intros HP HR Hn X. destruct rs as [|r rs]; [contradiction|]. cbn [bexpected] in X. rewrite HR in X. cbn [negb] in X. rewrite length_zeros in X.
  replace (n <? 0 + n)%nat with false in X by (symmetry; apply Nat.ltb_ge; lia). replace (102400000 <? Z.of_nat n) with false in X by (symmetry; apply Z.ltb_ge; lia).
  destruct X as (out' & W & -> & X). exists rs. cbv zeta. split; [|exact X]. do 2 f_equal. apply (whole_written n); [|exact W]. now apply bnext_len.
Qed.
Lemma upd_exp p prov thr g key cs rs : blegal key = true -> b_reseeds g < 10000 -> bexpected p prov thr g (BUpdate key :: cs) rs ->
  exists rs', rs = GDone :: rs' /\ bexpected p prov thr (bseeded prov (bwith g (b_nonce g) (b_since g) (b_reseeds g + 1)) key) cs rs'.
Proof.
  intros HL HR X. destruct rs as [|r rs]; [contradiction|]. cbn [bexpected] in X.
  assert (L : (16 <= length key)%nat) by (unfold blegal in HL; apply existsb_exists in HL; destruct HL as (x & Hx & E); apply Nat.eqb_eq in E; cbn [In] in Hx; lia).
  replace (length key <? 16)%nat with false in X by (symmetry; apply Nat.ltb_ge; lia). replace (10000 <=? b_reseeds g) with false in X by (symmetry; apply Z.leb_gt; lia).
  rewrite HL in X. cbn [negb] in X. destruct X as [-> X]. eauto.
Qed.
Lemma updmax_exp p prov thr g key cs rs : blegal key = true -> 10000 <= b_reseeds g -> bexpected p prov thr g (BUpdate key :: cs) rs ->
  exists rs', rs = GFailed MaxExceeded :: rs' /\ bexpected p prov thr (bwith g (b_nonce g) (b_since g) (b_reseeds g + 1)) cs rs'.
Proof.
  intros HL HR X. destruct rs as [|r rs]; [contradiction|]. cbn [bexpected] in X.
  assert (L : (16 <= length key)%nat) by (unfold blegal in HL; apply existsb_exists in HL; destruct HL as (x & Hx & E); apply Nat.eqb_eq in E; cbn [In] in Hx; lia).
  replace (length key <? 16)%nat with false in X by (symmetry; apply Nat.ltb_ge; lia). replace (10000 <=? b_reseeds g) with true in X by (symmetry; apply Z.leb_le; lia).
  destruct X as [-> X]. eauto.
Qed.
Lemma seeded_count prov g key : b_reseeds (bseeded prov g key) = b_reseeds g /\ b_ready (bseeded prov g key) = true /\ b_since (bseeded prov g key) = 0.
Proof. destruct prov; auto. Qed.

(** * the stream *)
Lemma start_at rest v : start (nonce_at rest v) = v mod 2 ^ 128.
Proof. unfold start, nonce_at. rewrite firstn_app, length_le_bytes, Nat.sub_diag, firstn_O, app_nil_r, firstn_all2 by (rewrite length_le_bytes; lia). rewrite value_le_eq, le_val_le_bytes. reflexivity. Qed.
Lemma rest_at rest v : skipn 16 (nonce_at rest v) = rest.
Proof. unfold nonce_at. rewrite skipn_app, length_le_bytes, Nat.sub_diag, skipn_all2 by (rewrite length_le_bytes; lia). reflexivity. Qed.
Lemma moved_stream keys n v len : bstream keys (nonce_at (skipn 16 n) v) len = keystream 32 (bblock keys n) v len.
Proof.
  unfold bstream, keystream. rewrite start_at. apply map_ext. intros i. unfold stream_byte. f_equal. unfold bblock. rewrite rest_at. f_equal. unfold nonce_at. f_equal.
  rewrite <- (Proofs_Modes5.le_bytes_mod 16 (v mod 2 ^ 128 + _)), <- (Proofs_Modes5.le_bytes_mod 16 (v + _)). f_equal. change (256 ^ Z.of_nat 16) with (2 ^ 128). apply Zplus_mod_idemp_l.
Qed.
Lemma moved_moved n v k : bmoved (nonce_at (skipn 16 n) v) (k * 32) = nonce_at (skipn 16 n) (v + Z.of_nat k).
Proof.
  unfold bmoved. rewrite rest_at, start_at, (nblocks_exact 32 (fun _ => zeros 32)) by (intros; rewrite ?length_zeros; lia). unfold nonce_at. f_equal.
  rewrite <- (Proofs_Modes5.le_bytes_mod 16 (v mod 2 ^ 128 + _)), <- (Proofs_Modes5.le_bytes_mod 16 (v + _)). f_equal. change (256 ^ Z.of_nat 16) with (2 ^ 128). apply Zplus_mod_idemp_l.
Qed.
Lemma whole_run thr iv : forall ks g v rs, (forall u, length (bblock (b_keys g) iv u) = 32%nat) -> b_ready g = true -> b_nonce g = nonce_at (skipn 16 iv) v -> Forall (fun k => Z.of_nat (k * 32) <= 102400000) ks ->
  bexpected seq_profile None thr g (map (fun k => BGenerate (zeros (k * 32)) 0 (k * 32) []) ks) rs ->
  exists outs, rs = map GWrote outs /\ concat outs = keystream 32 (bblock (b_keys g) iv) v (list_sum ks * 32).
Proof.
  induction ks as [|k ks IH]; intros g v rs HI HR HV HN X.
  - apply nil_exp in X. subst rs. exists []. split; reflexivity.
  - inversion HN as [|? ? Hk HN']; subst. cbn [map] in X. apply gen_exp in X; [|exact seq_ok|exact HR|exact Hk]. destruct X as (rs' & -> & X). cbv zeta in X.
    assert (EN : b_nonce (bwith g (snd (bnext (par_of seq_profile) (b_keys g) (b_nonce g) (k * 32))) (b_since g) (b_reseeds g)) = nonce_at (skipn 16 iv) (v + Z.of_nat k)).
    { cbn [bwith b_nonce par_of seq_profile sp_par bnext snd]. rewrite HV. apply moved_moved. }
    destruct (IH (bwith g (snd (bnext (par_of seq_profile) (b_keys g) (b_nonce g) (k * 32))) (b_since g) (b_reseeds g)) _ _ HI HR EN HN' X) as (outs & -> & E). exists (fst (bnext (par_of seq_profile) (b_keys g) (b_nonce g) (k * 32)) :: outs). split; [reflexivity|].
    cbn [concat]. rewrite E. cbn [par_of seq_profile sp_par bnext fst bwith b_keys]. rewrite HV, moved_stream. cbn [list_sum fold_right]. fold (list_sum ks).
    rewrite Nat.mul_add_distr_r. symmetry. apply keystream_app; [lia|exact HI].
Qed.
Lemma keys_exist key iv info : init_ok key iv info -> exists rk R, keyed_ok (bround_keys key (version ++ info)) rk R.
Proof.
  intros (B1 & B2 & B3 & L & HL & HI). destruct (init_rel BCG_new bgen_new key iv info brel_new B1 B3) as (o' & _ & HR).
  - cbn [bgen_new b_reseeds]. lia.
  - right. lia.
  - exact HL.
  - split; auto.
  - destruct HR as (_ & _ & _ & _ & _ & HR & _). exists (bg_rk o'), (bg_rounds o'). apply HR. reflexivity.
Qed.
Lemma c77_whole_blocks thr key iv info ks : init_ok key iv info -> Forall (fun k => Z.of_nat (k * 32) <= 102400000) ks ->
  exists outs, bhistory seq_profile None thr BCG_new (BInit key iv info :: map (fun k => BGenerate (zeros (k * 32)) 0 (k * 32) []) ks) = Ok (GDone :: map GWrote outs) /\
    concat outs = bstream (bround_keys key (version ++ info)) iv (list_sum ks * 32).
Proof.
  intros HI HN. destruct (bcg_history seq_profile None thr seq_ok Logic.I (BInit key iv info :: map (fun k => BGenerate (zeros (k * 32)) 0 (k * 32) []) ks)) as (rs & -> & X).
  { constructor; [now apply init_call|]. apply Forall_map, Forall_forall. intros k _. cbn [bcall_ok]. split; [lia|intros Q; discriminate Q]. }
  apply (init_exp _ _ _ _ _ _ _ _ _ HI) in X. destruct X as (rs' & -> & X). assert (NI : nonce_ok iv) by (destruct HI as (_ & B & _ & _ & _ & L); split; auto).
  assert (HB : forall u, length (bblock (b_keys (bkeyed bgen_new key iv info)) iv u) = 32%nat) by (intros u; destruct (keys_exist key iv info HI) as (rk & R & HK); apply (block_st _ rk R HK iv u NI)).
  destruct (whole_run thr iv ks (bkeyed bgen_new key iv info) (start iv) rs' HB eq_refl (eq_sym (start_split iv NI)) HN X) as (outs & -> & E). exists outs. split; [reflexivity|exact E].
Qed.

(** * parallel *)
Lemma rij_inj keys rk R a b : keyed_ok keys rk R -> nonce_ok a -> nonce_ok b -> rijndael [0; 1; 3; 4]%nat keys a = rijndael [0; 1; 3; 4]%nat keys b -> a = b.
Proof.
  intros (<- & L & HR) [La Ba] [Lb Bb] E.
  pose proof (wkeys_ok rcs_fam 8 [0; 1; 3; 4]%nat R rk eq_refl ltac:(lia) (V_offs _ _ _ wm_rcs) (V_shift _ _ _ wm_rcs) HR L) as K.
  rewrite <- (wkeys_chunks rcs_fam 8 [0; 1; 3; 4]%nat R rk eq_refl ltac:(lia) (V_offs _ _ _ wm_rcs) (V_shift _ _ _ wm_rcs) HR L) in K.
  rewrite <- (decrypt_encrypt 8 [0; 1; 3; 4]%nat ltac:(lia) (V_offs _ _ _ wm_rcs) _ a K) by (split; [exact La|exact Ba]).
  rewrite <- (decrypt_encrypt 8 [0; 1; 3; 4]%nat ltac:(lia) (V_offs _ _ _ wm_rcs) _ b K) by (split; [exact Lb|exact Bb]).
  change (4 * 8)%nat with 32%nat. now rewrite E.
Qed.
Lemma apart_differs n v : nonce_ok n -> apart n 1 <> nonce_at (skipn 16 n) v.
Proof.
  intros [L B] E. destruct (exists_last (l := n)) as (l & x & ->); [intros Q; rewrite Q in L; discriminate|]. rewrite app_length in L. cbn [length] in L.
  apply bytes_app in B. destruct B as [Bl Bx]. assert (Rx : 0 <= x < 256) by (inversion Bx; auto).
  apply (f_equal be_val) in E. unfold apart, nonce_at in E. rewrite be_val_be_bytes in E. rewrite skipn_app in E. replace (16 - length l)%nat with 0%nat in E by lia. cbn [skipn] in E.
  rewrite app_assoc in E. rewrite !(be_val_app _ [x]) in E. cbn [length] in E.
  assert (E2 := f_equal (fun z => z mod 256) E). cbv beta in E2. change (256 ^ Z.of_nat 1) with 256 in E2.
  assert (V : be_val [x] = x) by (cbn; lia). rewrite V in E2.
  rewrite <- (Znumtheory.Zmod_div_mod 256 (256 ^ Z.of_nat 32)) in E2; [|lia|lia|exists (256 ^ Z.of_nat 31); reflexivity].
  rewrite (Z.mul_comm 256 (be_val (_ ++ _))), Z.mod_add in E2 by lia. rewrite (Z.mod_small x) in E2 by lia.
  change (Z.of_nat 1) with 1 in E2. replace (x + 256 * be_val l + 1) with (x + 1 + be_val l * 256) in E2 by lia. rewrite Z.mod_add in E2 by lia.
  destruct (Z.eq_dec x 255) as [->|N]; [cbn in E2; lia|]. rewrite Z.mod_small in E2 by lia. lia.
Qed.
Lemma apart_0 n : nonce_ok n -> apart n 0 = n.
Proof. intros [L B]. unfold apart. change (Z.of_nat 0) with 0. rewrite Z.add_0_r, <- L. now apply be_bytes_be_val. Qed.
Lemma c77_parallel thr key iv info ord : init_ok key iv info -> Permutation ord (seq 0 2) -> exists a b,
  bhistory seq_profile None thr BCG_new [BInit key iv info; BGenerate (zeros 64) 0 64 []] = Ok [GDone; GWrote a] /\
  bhistory par_profile None thr BCG_new [BInit key iv info; BGenerate (zeros 64) 0 64 ord] = Ok [GDone; GWrote b] /\
  firstn 32 a = firstn 32 b /\ skipn 32 a <> skipn 32 b.
Proof.
  intros HI HO. assert (NI : nonce_ok iv) by (destruct HI as (_ & B & _ & _ & _ & L); split; auto).
  destruct (keys_exist key iv info HI) as (rk & R & HK). remember (bround_keys key (version ++ info)) as keys eqn:EK.
  assert (ST : forall n, nonce_ok n -> bstream keys n 32 = rijndael [0; 1; 3; 4]%nat keys n).
  { intros n Hn. unfold bstream. rewrite (keystream_block 32 (bblock keys n)) by (try lia; intros u; apply (block_st keys rk R HK n u Hn)).
    rewrite firstn_all2 by (destruct (block_st keys rk R HK n (start n) Hn); lia). unfold bblock. now rewrite start_split. }
  assert (LN : forall n, nonce_ok n -> length (rijndael [0; 1; 3; 4]%nat keys n) = 32%nat) by (intros n Hn; rewrite <- (ST n Hn); apply keystream_len).
  exists (bstream keys iv 64), (bstream keys iv 32 ++ bstream keys (apart iv 1) 32). split; [|split; [|split]].
  - destruct (bcg_history seq_profile None thr seq_ok Logic.I [BInit key iv info; BGenerate (zeros 64) 0 64 []]) as (rs & -> & X).
    { constructor; [now apply init_call|]. constructor; [|constructor]. cbn [bcall_ok]. split; [lia|intros Q; discriminate Q]. }
    apply (init_exp _ _ _ _ _ _ _ _ _ HI) in X. destruct X as (rs' & -> & X). apply gen_exp in X; [|exact seq_ok|reflexivity|lia]. destruct X as (rs2 & -> & X). apply nil_exp in X. subst rs2. do 4 f_equal. now rewrite EK.
  - destruct (bcg_history par_profile None thr par_ok Logic.I [BInit key iv info; BGenerate (zeros 64) 0 64 ord]) as (rs & -> & X).
    { constructor; [now apply init_call|]. constructor; [|constructor]. cbn [bcall_ok]. split; [lia|intros _; exact HO]. }
    apply (init_exp _ _ _ _ _ _ _ _ _ HI) in X. destruct X as (rs' & -> & X). apply gen_exp in X; [|exact par_ok|reflexivity|lia]. destruct X as (rs2 & -> & X). apply nil_exp in X. subst rs2.
    do 4 f_equal. cbn [bkeyed b_keys b_nonce par_of par_profile sp_par sp_blk sp_deg bnext]. rewrite <- EK.
    change (64 <=? 64)%nat with true. change (64 / 2)%nat with 32%nat. change (32 / 32)%nat with 1%nat. change (64 - 32 * 2)%nat with 0%nat. cbv iota zeta. cbn [fst seq map concat].
    change (1 * 0)%nat with 0%nat. change (1 * 1)%nat with 1%nat. rewrite (apart_0 iv NI). unfold bstream at 3. cbn [keystream seq map]. now rewrite !app_nil_r.
  - rewrite firstn_app, (stream_len keys), Nat.sub_diag, firstn_O, app_nil_r, (firstn_all2 (bstream keys iv 32)) by (rewrite (stream_len keys); lia).
    unfold bstream. change 64%nat with (1 * 32 + 32)%nat. rewrite (keystream_app 32 (bblock keys iv)) by (try lia; intros u; apply (block_st keys rk R HK iv u NI)).
    rewrite firstn_app, keystream_len. change (32 - 1 * 32)%nat with 0%nat. rewrite firstn_O, app_nil_r. apply firstn_all2. rewrite keystream_len. lia.
  - rewrite skipn_app, (stream_len keys), Nat.sub_diag, (skipn_all2 (n := 32) (bstream keys iv 32)) by (rewrite (stream_len keys); lia). rewrite app_nil_l, skipn_O.
    unfold bstream at 1. change 64%nat with (1 * 32 + 32)%nat. rewrite (keystream_app 32 (bblock keys iv)) by (try lia; intros u; apply (block_st keys rk R HK iv u NI)).
    rewrite skipn_app, keystream_len. change (32 - 1 * 32)%nat with 0%nat. rewrite skipn_all2 by (rewrite keystream_len; lia). rewrite app_nil_l, skipn_O.
    rewrite <- (moved_stream keys iv (start iv + Z.of_nat 1) 32). rewrite (ST _ (at_ok iv (start iv + Z.of_nat 1) NI)), (ST _ (apart_ok iv 1)). intros Q. apply (rij_inj keys rk R) in Q; [|exact HK|now apply at_ok|apply apart_ok]. exact (apart_differs iv _ NI (eq_sym Q)).
Qed.

(** * the seeds *)
Lemma upds_exp p prov thr key cs : blegal key = true -> forall n g rs, b_reseeds g + Z.of_nat n <= 10000 -> bexpected p prov thr g (repeat (BUpdate key) n ++ cs) rs ->
  exists g' rs', rs = repeat GDone n ++ rs' /\ b_reseeds g' = b_reseeds g + Z.of_nat n /\ bexpected p prov thr g' cs rs'.
Proof.
  intros HL. induction n as [|n IH]; intros g rs HR X.
  - exists g, rs. split; [reflexivity|]. split; [lia|exact X].
  - cbn [repeat app] in X. apply upd_exp in X; [|exact HL|lia]. destruct X as (rs1 & -> & X).
    apply IH in X; [|rewrite (proj1 (seeded_count _ _ _)); cbn [bwith b_reseeds]; lia]. destruct X as (g' & rs' & -> & E & X). exists g', rs'. split; [reflexivity|]. split; [|exact X].
    rewrite E, (proj1 (seeded_count _ _ _)). cbn [bwith b_reseeds]. lia.
Qed.
Lemma c77_limit p prov thr n key iv info : bprofile p -> provider_ok prov -> init_ok key iv info -> Z.of_nat n = 10000 ->
  bhistory p prov thr BCG_new (BInit key iv info :: repeat (BUpdate key) n ++ [BInit key iv info; BUpdate key]) = Ok (GDone :: repeat GDone n ++ [GDone; GFailed MaxExceeded]).
Proof.
  intros HP HV HI Hn. assert (HL : blegal key = true) by apply HI.
  assert (CU : bcall_ok p (BUpdate key)).
  { cbn [bcall_ok]. split; [apply HI|]. apply existsb_exists in HL. destruct HL as (x & Hx & E). apply Nat.eqb_eq in E. cbn [In] in Hx. lia. }
  destruct (bcg_history p prov thr HP HV (BInit key iv info :: repeat (BUpdate key) n ++ [BInit key iv info; BUpdate key])) as (rs & -> & X).
  { constructor; [now apply init_call|]. apply Forall_app. split; [apply Forall_forall; intros c Hc; apply repeat_spec in Hc; now subst c|]. constructor; [now apply init_call|]. constructor; [exact CU|constructor]. }
  apply (init_exp _ _ _ _ _ _ _ _ _ HI) in X. destruct X as (rs1 & -> & X). apply (upds_exp p prov thr key _ HL) in X; [|cbn [bkeyed bgen_new b_reseeds]; lia]. destruct X as (g' & rs2 & -> & E & X).
  apply (init_exp _ _ _ _ _ _ _ _ _ HI) in X. destruct X as (rs3 & -> & X). apply updmax_exp in X; [|exact HL|cbn [bkeyed bgen_new b_reseeds] in *; lia]. destruct X as (rs4 & -> & X). apply nil_exp in X. now subst rs4.
Qed.
(** a seed of a size that is not a key size *)
Lemma bad_exp p prov thr key cs : (16 <= length key)%nat -> blegal key = false -> forall n g rs, b_reseeds g + Z.of_nat n <= 10000 -> bexpected p prov thr g (repeat (BUpdate key) n ++ cs) rs ->
  exists g' rs', rs = repeat (GFailed InvalidKey) n ++ rs' /\ b_reseeds g' = b_reseeds g + Z.of_nat n /\ bexpected p prov thr g' cs rs'.
Proof.
  intros HS HL. induction n as [|n IH]; intros g rs HR X.
  - exists g, rs. split; [reflexivity|]. split; [lia|exact X].
  - cbn [repeat app] in X. destruct rs as [|r rs]; [contradiction|]. cbn [bexpected] in X. replace (length key <? 16)%nat with false in X by (symmetry; apply Nat.ltb_ge; lia).
    replace (10000 <=? b_reseeds g) with false in X by (symmetry; apply Z.leb_gt; lia). rewrite HL in X. cbn [negb] in X. destruct X as [-> X].
    assert (E0 : b_reseeds (bfailed prov (bwith g (b_nonce g) (b_since g) (b_reseeds g + 1))) = b_reseeds g + 1) by (destruct prov; reflexivity).
    apply IH in X; [|lia]. destruct X as (g' & rs' & -> & E & X). exists g', rs'. split; [reflexivity|]. split; [lia|exact X].
Qed.
Lemma c77_bad_size p prov thr n bad key iv info : bprofile p -> provider_ok prov -> init_ok key iv info -> bytes bad -> (16 <= length bad < 32)%nat -> Z.of_nat n = 10000 ->
  bhistory p prov thr BCG_new (BInit key iv info :: repeat (BUpdate bad) n ++ [BUpdate key]) = Ok (GDone :: repeat (GFailed InvalidKey) n ++ [GFailed MaxExceeded]).
Proof.
  intros HP HV HI HB LB Hn. assert (HL : blegal key = true) by apply HI.
  assert (HN : blegal bad = false).
  { destruct (blegal bad) eqn:Q; [|reflexivity]. apply existsb_exists in Q. destruct Q as (x & Hx & E). apply Nat.eqb_eq in E. cbn [In] in Hx. lia. }
  destruct (bcg_history p prov thr HP HV (BInit key iv info :: repeat (BUpdate bad) n ++ [BUpdate key])) as (rs & -> & X).
  { constructor; [now apply init_call|]. apply Forall_app. split; [apply Forall_forall; intros c Hc; apply repeat_spec in Hc; subst c; cbn [bcall_ok]; split; [exact HB|lia]|]. constructor; [|constructor].
    cbn [bcall_ok]. split; [apply HI|]. apply existsb_exists in HL. destruct HL as (x & Hx & E). apply Nat.eqb_eq in E. cbn [In] in Hx. lia. }
  apply (init_exp _ _ _ _ _ _ _ _ _ HI) in X. destruct X as (rs1 & -> & X). apply (bad_exp p prov thr bad _ ltac:(lia) HN) in X; [|cbn [bkeyed bgen_new b_reseeds]; lia]. destruct X as (g' & rs2 & -> & E & X).
  apply updmax_exp in X; [|exact HL|cbn [bkeyed bgen_new b_reseeds] in *; lia]. destruct X as (rs4 & -> & X). apply nil_exp in X. now subst rs4.
Qed.
(** automatic seeds *)
Lemma autos_exp p f thr ord : bprofile p -> thr <= 1 -> forall n g rs, b_ready g = true -> b_since g = 0 -> b_reseeds g + 2 * Z.of_nat n = 10000 -> bexpected p (Some f) thr g (repeat (BGenerate (zeros 1) 0 1 ord) (S n)) rs ->
  exists outs last, rs = map GWrote outs ++ [GLate MaxExceeded last] /\ length outs = n.
Proof.
  intros HP HT. induction n as [|n IH]; intros g rs HR HS HC X; cbn [repeat] in X; (destruct rs as [|r rs]; [contradiction|]); cbn [bexpected] in X; rewrite HR in X; cbn [negb] in X; rewrite length_zeros in X;
    change (1 <? 0 + 1)%nat with false in X; change (102400000 <? Z.of_nat 1) with false in X; cbv iota in X; destruct X as (out' & W & X); rewrite HS in X; cbv zeta in X;
    change (0 + Z.of_nat 1 <? thr) with (1 <? thr) in X; replace (1 <? thr) with false in X by (symmetry; apply Z.ltb_ge; lia).
  - replace (10000 <=? b_reseeds g) with true in X by (symmetry; apply Z.leb_le; lia). destruct X as [-> X]. destruct rs; [|contradiction]. exists [], out'. split; reflexivity.
  - replace (10000 <=? b_reseeds g) with false in X by (symmetry; apply Z.leb_gt; lia). replace (9999 <=? b_reseeds g) with false in X by (symmetry; apply Z.leb_gt; lia). destruct X as [-> X].
    apply IH in X; [|reflexivity|reflexivity|cbn [bseeded bkeyed bcalled bwith b_reseeds]; lia]. destruct X as (outs & last & -> & <-). exists (out' :: outs), last. split; reflexivity.
Qed.
Lemma c77_double p f thr n key iv info : bprofile p -> provider_ok (Some f) -> thr <= 1 -> init_ok key iv info -> Z.of_nat n = 5000 ->
  exists outs last, bhistory p (Some f) thr BCG_new (BInit key iv info :: repeat (BGenerate (zeros 1) 0 1 (seq 0 (sp_deg p))) (S n)) = Ok (GDone :: map GWrote outs ++ [GLate MaxExceeded last]) /\ length outs = n.
Proof.
  intros HP HV HT HI Hn. destruct (bcg_history p (Some f) thr HP HV (BInit key iv info :: repeat (BGenerate (zeros 1) 0 1 (seq 0 (sp_deg p))) (S n))) as (rs & -> & X).
  { constructor; [now apply init_call|]. apply Forall_forall. intros c Hc. apply repeat_spec in Hc. subst c. cbn [bcall_ok]. split; [lia|intros _; apply Permutation_refl]. }
  apply (init_exp _ _ _ _ _ _ _ _ _ HI) in X. destruct X as (rs1 & -> & X). apply autos_exp in X; [|exact HP|exact HT|reflexivity|reflexivity|cbn [bkeyed bgen_new b_reseeds]; lia].
  destruct X as (outs & last & -> & E). exists outs, last. split; [reflexivity|exact E].
Qed.
(** Update *)
Lemma upd_call p key : bytes key -> blegal key = true -> bcall_ok p (BUpdate key).
Proof. intros B HL. cbn [bcall_ok]. split; [exact B|]. apply existsb_exists in HL. destruct HL as (x & Hx & E). apply Nat.eqb_eq in E. cbn [In] in Hx. lia. Qed.
Lemma gen_call p n : bcall_ok p (BGenerate (zeros n) 0 n (seq 0 (sp_deg p))).
Proof. cbn [bcall_ok]. split; [lia|intros _; apply Permutation_refl]. Qed.
Lemma c77_uninitialised p thr n key : bprofile p -> bytes key -> blegal key = true -> Z.of_nat n <= 102400000 ->
  bhistory p None thr BCG_new [BUpdate key; BGenerate (zeros n) 0 n (seq 0 (sp_deg p))] = Ok [GDone; GWrote (fst (bnext (par_of p) (bround_keys key version) (zeros 32) n))].
Proof.
  intros HP HB HL Hn. destruct (bcg_history p None thr HP Logic.I [BUpdate key; BGenerate (zeros n) 0 n (seq 0 (sp_deg p))]) as (rs & -> & X).
  { constructor; [now apply upd_call|]. constructor; [apply gen_call|constructor]. }
  apply upd_exp in X; [|exact HL|cbn [bgen_new b_reseeds]; lia]. destruct X as (rs1 & -> & X). apply gen_exp in X; [|exact HP|reflexivity|exact Hn]. destruct X as (rs2 & -> & X). apply nil_exp in X. subst rs2.
  cbn [bseeded bkeyed bwith bgen_new b_keys b_nonce b_custom]. now rewrite app_nil_r.
Qed.
Lemma c77_custom p thr n key key2 iv info : bprofile p -> init_ok key iv info -> bytes key2 -> blegal key2 = true -> Z.of_nat (length info) < 2 ^ 32 - 16 -> Z.of_nat n <= 102400000 -> exists a,
  bhistory p None thr BCG_new [BInit key iv info; BUpdate key2; BGenerate (zeros n) 0 n (seq 0 (sp_deg p))] = Ok [GDone; GDone; GWrote a] /\
  bhistory p None thr BCG_new [BInit key2 iv (version ++ info); BGenerate (zeros n) 0 n (seq 0 (sp_deg p))] = Ok [GDone; GWrote a].
Proof.
  intros HP HI HB HL LI Hn. exists (fst (bnext (par_of p) (bround_keys key2 (version ++ version ++ info)) iv n)). split.
  - destruct (bcg_history p None thr HP Logic.I [BInit key iv info; BUpdate key2; BGenerate (zeros n) 0 n (seq 0 (sp_deg p))]) as (rs & -> & X).
    { constructor; [now apply init_call|]. constructor; [now apply upd_call|]. constructor; [apply gen_call|constructor]. }
    apply (init_exp _ _ _ _ _ _ _ _ _ HI) in X. destruct X as (rs0 & -> & X).
    apply upd_exp in X; [|exact HL|cbn [bkeyed bgen_new b_reseeds]; lia]. destruct X as (rs1 & -> & X). apply gen_exp in X; [|exact HP|reflexivity|exact Hn]. destruct X as (rs2 & -> & X). apply nil_exp in X. now subst rs2.
  - assert (HI2 : init_ok key2 iv (version ++ info)).
    { destruct HI as (B1 & B2 & B3 & L & HL1 & HI). split; [exact HB|]. split; [exact B2|]. split; [apply bytes_app; split; [repeat (constructor; [red; lia|]); constructor|exact B3]|]. split; [|auto]. rewrite app_length. cbn [length version]. lia. }
    destruct (bcg_history p None thr HP Logic.I [BInit key2 iv (version ++ info); BGenerate (zeros n) 0 n (seq 0 (sp_deg p))]) as (rs & -> & X).
    { constructor; [now apply init_call|]. constructor; [apply gen_call|constructor]. }
    apply (init_exp _ _ _ _ _ _ _ _ _ HI2) in X. destruct X as (rs0 & -> & X). apply gen_exp in X; [|exact HP|reflexivity|exact Hn]. destruct X as (rs2 & -> & X). apply nil_exp in X. now subst rs2.
Qed.
