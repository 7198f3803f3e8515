(** Glue for Properties_TSX.v: pieces, in-place calls, missing room, short tweaks, refused packets. *)
From Coq Require Import Permutation.
From Verif Require Import BaseLemmas Spec_Common Proofs_Common Proofs_GCM Proofs_Keys Proofs_IntegerTools Spec_Keccak Proofs_Keccak Session_KMAC Model_SHAKE
  Spec_ChaCha Proofs_ChaCha Proofs_ChaCha2 Model_IntegerTools Model_Modes Proofs_Windows Model_ChaCha Spec_Stream Model_CSX Session_CSX Proofs_CSX Proofs_CSX2 Proofs_CSX3 ProofsP_CSX2
  Spec_TSX Model_TSX Session_TSX Proofs_TSX Proofs_TSX2 Proofs_TSX3 ProofsP_TSX.
Open Scope Z_scope.

(** * block-aligned pieces *)
Lemma plain_packets cf c (HM : tmatches cf c) ls : Forall (lok false) ls -> forall n l, nok c false n -> Forall (fun l => (length (l_msg l) mod t_B c = 0)%nat) ls -> lok false l ->
  concat (packets c n (ls ++ [l])) = tcrypt c n (concat (map l_msg (ls ++ [l]))).
Proof.
  assert (HEAR : forall n l, lok false l -> heard n l = n) by (intros n l (_ & _ & L & _); unfold heard; now rewrite L).
  assert (PK : forall n m, nok c false n -> packet c n m = tcrypt c n m /\ sent1 c n m = tmoved c n (length m)).
  { intros n m [_ N]. unfold packet, sent1. destruct (k_mac n) as [(A & x)|]; [destruct N; discriminate|auto]. }
  induction 1 as [|x ls Lx H IH]; intros n l N HB Ll; cbn [app packets map concat].
  - rewrite HEAR by exact Ll. destruct (PK n (l_msg l) N) as [-> _]. rewrite !app_nil_r. reflexivity.
  - inversion HB as [|? ? Hx HB']; subst. rewrite HEAR by exact Lx. destruct (PK n (l_msg x) N) as [-> ->].
    rewrite IH; auto. pose proof (B_pos cf c HM) as B0. unfold tcrypt. set (k := (length (l_msg x) / t_B c)%nat). assert (LK : length (l_msg x) = (k * t_B c)%nat) by (rewrite Nat.mul_comm; apply Nat.div_exact; lia).
    rewrite (crypt_app (t_B c) _ B0 (block_facts cf c HM n (proj1 N)) (k_pos n) k) by exact LK. cbn [tmoved k_key k_tweak k_pos]. rewrite LK. rewrite (nblocks_exact (t_B c) _ B0 (block_facts cf c HM n (proj1 N))). reflexivity.
Qed.
Lemma c67_split cf c p key iv info ls l : In (cf, c) tsx_ciphers -> profile_ok (t_B c) p -> bytes key -> bytes iv -> bytes info -> taccepted c key iv info = true ->
  Forall (tletter_ok c false p p) (ls ++ [l]) -> Forall (fun l => (length (l_msg l) mod t_B c = 0)%nat) ls ->
  exists rs, thistory cf p (T_new cf false) (XInit true key iv info :: seal_calls 0 (ls ++ [l])) = Ok rs /\
    concat (outs rs) = stream_crypt (t_B c) (t_block c (le_words 8 key) (le_words 8 (match info with [] => t_default c | _ => info end))) (value_le iv) (concat (map l_msg (ls ++ [l]))).
Proof.
  intros HI HP Bk Bi Bf HA HL HB. pose proof (all_tmatch _ _ HI) as HM. pose proof (lok_of c false p p _ HL) as HK.
  destruct (c67_hist cf c p false true key iv info (seal_calls 0 (ls ++ [l]))) as (rs & E & X); auto; [now apply (seal_ok c false p p)|]. rewrite E. exists (XDone :: rs). split; [reflexivity|].
  set (n := topened c false true key iv info) in *. assert (N : nok c false n) by (apply (opened_ok cf c false HM); auto).
  rewrite <- (app_nil_r (seal_calls _ _)) in X. destruct (seal_run cf c false HM _ HK n [] rs N eq_refl X) as (ra & rb & -> & O & _ & _ & X2). destruct rb; [|contradiction]. rewrite app_nil_r in *.
  change (outs (XDone :: ra)) with (outs ra). rewrite O. apply Forall_app in HK. destruct HK as [HK HKl]. inversion HKl; subst. rewrite (plain_packets cf c HM) by auto. reflexivity.
Qed.

Section place.
Context (cf : tconf) (c : tcipher) (p : sprof).
Hypothesis HM : tmatches cf c.
Lemma perm_ok key tw : length key = (t_B c / 8)%nat -> length tw = 2%nat -> forall out oo v, (oo + t_B c <= length out)%nat -> T_perm cf key tw out oo (counter_words 64 v) = Ok (splice out oo (t_block c key tw v)).
Proof.
  intros K1 K2 out oo v HL. unfold T_perm. destruct (T_permok _ _ HM key tw v K1 K2) as (ws & -> & EB). cbn [bind]. rewrite <- EB. apply wr_ok. rewrite (T_len _ _ HM) by assumption. exact HL.
Qed.
(** * in place *)
Lemma proc_none ord o n k out len : tabs c false o n -> (k + len <= length out)%nat -> (sp_par p = false \/ (len < sp_min p)%nat) ->
  exists o', T_proc cf p ord o None k out k len = Ok (o', splice out k (zeros len), None).
Proof.
  intros CA Ho HS. destruct CA as (C1 & C2 & C3 & C4 & C5 & _). unfold T_proc. rewrite C1, C2, C4, (T_mB _ _ HM). assert (SZ : sized c n) by (split; assumption).
  pose proof (perm_ok (k_key n) (k_tweak n) C3 C5) as HPm. unfold T_Process. cbn [src].
  replace (negb (sp_par p) || (len <? sp_min p)%nat) with true by (symmetry; apply orb_true_iff; destruct HS as [->|]; [now left|right; now apply Nat.ltb_lt]).
  unfold T_Generate. rewrite (S_Generate_ok (t_B c) _ (B_pos cf c HM) (block_facts cf c HM n SZ) 64 _ eq_refl HPm) by exact Ho. cbn [bind].
  set (ks := keystream _ _ _ _). assert (LK : length ks = len) by apply keystream_len. set (out1 := splice out k ks). assert (L1 : length out1 = length out) by (apply length_splice; lia).
  set (aln := (len - len mod t_B c)%nat). assert (A1 : (aln <= len)%nat) by (unfold aln; lia).
  assert (E1 : (if (aln =? 0)%nat then Ok out1 else wxor out1 k out1 k aln) = Ok (splice out1 k (zeros aln))).
  { destruct (Nat.eqb_spec aln 0) as [->|]; [unfold splice; cbn [zeros repeat app length]; now rewrite Nat.add_0_r, firstn_skipn|]. rewrite wxor_ok by lia. rewrite xorl_self, length_slice by lia. reflexivity. }
  rewrite E1. cbn [bind]. rewrite zero_tail by (rewrite length_splice; rewrite ?length_zeros; lia). cbn [bind].
  assert (E2 : splice (splice out1 k (zeros aln)) (k + aln) (zeros (len - aln)) = splice out k (zeros len)).
  { replace (k + aln)%nat with (k + length (zeros aln))%nat by (now rewrite length_zeros). rewrite splice_splice_next by (rewrite !length_zeros; lia).
    replace (zeros aln ++ zeros (len - aln)) with (zeros len) by (unfold zeros; rewrite <- repeat_app; f_equal; lia). unfold out1. apply splice_over; rewrite ?length_zeros; lia. }
  rewrite E2. eexists. reflexivity.
Qed.
Lemma c67_in_place ord enc key iv info k out len : profile_ok (t_B c) p -> bytes key -> bytes iv -> bytes info -> taccepted c key iv info = true -> (k + len <= length out)%nat -> (sp_par p = false \/ (len < sp_min p)%nat) ->
  exists o o', T_Initialize cf p (T_new cf false) enc key iv info = Ok o /\ T_Transform cf p ord o None k out k len = Ok (o', splice out k (zeros len), None).
Proof.
  intros HP Bk Bi Bf HA Ho HS. destruct (tInit_ok cf c p false HM HP (T_new cf false) enc key iv info) as (o & E & CA); auto; [left; reflexivity|].
  destruct (proc_none ord o _ k out len CA Ho HS) as (o' & E'). exists o, o'. split; [exact E|]. unfold T_Transform. destruct CA as (_ & _ & _ & _ & _ & _ & C7 & _). rewrite C7. destruct (o_enc o); exact E'.
Qed.
(** * an object that was never initialised *)
Lemma tfresh_plain ord m : short m -> (sp_par p = false \/ (length m < sp_min p)%nat) ->
  exists o', T_Transform cf p ord (T_new cf false) (Some m) 0 (zeros (length m)) 0 (length m) = Ok (o', stream_crypt (t_B c) (t_block c (zeros (t_B c / 8)) (zeros 2)) 0 m, None).
Proof.
  intros Sm HS. unfold T_Transform. cbn [T_new o_enc o_auth]. unfold T_proc, T_new. cbn [o_ctr o_key o_tweak]. rewrite (T_mB _ _ HM).
  assert (LK : length (zeros (t_B c / 8)) = (t_B c / 8)%nat) by apply length_zeros.
  pose proof (perm_ok _ (zeros 2) LK eq_refl) as HPm. assert (HK : forall v, length (t_block c (zeros (t_B c / 8)) (zeros 2) v) = t_B c) by (intros v; now apply (T_len _ _ HM)).
  match goal with |- context [T_Process ?B ?f ?p ?ord ?i ?io ?out ?oo ?len ?ctr] => change ctr with (counter_words 64 0) end.
  assert (F : fit m (zeros (length m)) 0 0 (length m)) by (unfold short in Sm; red; rewrite length_zeros; repeat split; lia).
  rewrite (T_seq_ok (t_B c) _ (B_pos cf c HM) HK _ HPm) by auto. cbn [bind]. rewrite slice_full by reflexivity.
  rewrite splice_all; [eexists; reflexivity|]. rewrite length_zeros. apply (crypt_len (t_B c) _ (B_pos cf c HM) HK).
Qed.
(** * room for KMAC's tag but not for the whole tag *)
Lemma no_room o n A m inp io out oo len ord : profile_ok (t_B c) p -> tabs c true o n -> k_mac n = Some (A, m) -> k_enc n = true -> bytes inp -> bytes out -> proc_pre c p inp io out oo len ord ->
  (oo + len + t_mac c <= length out < oo + len + t_tag c)%nat -> T_Transform cf p ord o (Some inp) io out oo len = UB.
Proof.
  intros HP CA EM EE Bi Bo PP HT. pose proof CA as (C1 & C2 & C3 & C4 & C5 & C6 & C7 & C8 & C9 & C10 & C11). rewrite EM in C11. destruct C11 as (CT & CL & k & x & CK & KA & CX & LX). destruct (T_num _ _ HM) as (R1 & R2 & R3 & R4 & R5 & R6).
  unfold T_Transform. rewrite C8, EE, C7, CK, (T_mmac _ _ HM). pose proof PP as (P1 & P2 & P3 & P4 & _). unfold short in P3, P4.
  replace (Z.of_nat (length out) <? u64 (Z.of_nat len + Z.of_nat oo + Z.of_nat (t_mac c))) with false by (symmetry; apply Z.ltb_ge; unfold u64; rewrite Z.mod_small; lia).
  destruct (nonce_ok cf c true HM o n A m out CA EM) as (o1 & -> & CA1). cbn [tthen].
  destruct (proc_ok cf c p true HM HP o1 _ inp io out oo len ord CA1 PP) as (o2 & -> & CA2). cbn [tthen]. rewrite crypt_withm. set (data := slice inp io len) in *. assert (LD : length data = len) by (apply length_slice; lia).
  assert (SZ : sized c n) by (split; assumption).
  assert (LC : length (tcrypt c n data) = len) by (rewrite (crypt_length cf c HM) by exact SZ; exact LD). set (ct := tcrypt c n data) in *.
  assert (Bct : bytes ct) by (apply (crypt_bytes cf c HM); [exact SZ|now apply bytes_slice]).
  assert (Bo2 : bytes (splice out oo ct)) by (apply bytes_splice; auto).
  assert (Lo2 : length (splice out oo ct) = length out) by (apply length_splice; lia).
  match type of CA2 with tabs _ _ _ ?nn => assert (EM2 : exists mm, k_mac nn = Some (A, mm)) by (eexists; reflexivity); set (n2 := nn) in * end. destruct EM2 as (mm & EM2).
  destruct (mac_ok cf c true HM o2 n2 A mm (splice out oo ct) (splice out oo ct) oo len CA2 EM2 Bo2 ltac:(lia)) as (o3 & -> & CA3). cbn [tthen].
  destruct (fin_ok cf c true HM o3 _ A _ (splice out oo ct) len CA3 (withm_mac _ _ _)) as (o4 & -> & F). cbn [tthen]. cbv zeta in F. destruct F as (F1 & F2 & F3).
  rewrite F1, F2. unfold wcopy. rewrite rd_ok by lia. cbn [bind]. unfold wr. rewrite length_slice by lia.
  replace (oo + len + t_tag c <=? length (splice out oo ct))%nat with false by (symmetry; apply Nat.leb_gt; lia). reflexivity.
Qed.
End place.
Lemma c68_room key iv info p ord inp io out oo len : profile_ok (t_B tsx1024) p -> bytes key -> bytes iv -> bytes info -> taccepted tsx1024 key iv info = true -> bytes inp -> bytes out ->
  (io + len <= length inp)%nat -> short inp -> short out -> Permutation ord (seq 0 (sp_deg p)) -> Z.of_nat (len / t_B tsx1024) < 2 ^ 64 -> (oo + len + 64 <= length out < oo + len + 128)%nat ->
  exists o, T_Initialize tsx1024_conf p (T_new tsx1024_conf true) true key iv info = Ok o /\ T_Transform tsx1024_conf p ord o (Some inp) io out oo len = UB.
Proof.
  intros HP Bk Bi Bf HA Bn Bo HI Sn So PO PC HL. pose proof tsx1024_matches as HM.
  destruct (tInit_ok tsx1024_conf tsx1024 p true HM HP (T_new tsx1024_conf true) true key iv info) as (o & E & CA); auto; [left; reflexivity|]. exists o. split; [exact E|].
  eapply (no_room tsx1024_conf tsx1024 p HM o _ _ _ inp io out oo len ord HP CA); [reflexivity|reflexivity|exact Bn|exact Bo| |exact HL].
  split; [exact HI|]. split; [clear - HL; lia|]. split; [exact Sn|]. split; [exact So|]. split; [exact PO|exact PC].
Qed.
(** * a tweak of 1 to 15 bytes *)
Lemma short_words (l : list Z) : (0 < length l < 16)%nat -> words 8 l 0 2 = UB.
Proof.
  intros H. cbn [words]. unfold LeBytesTo, rd. destruct (Nat.leb_spec (0 + 8) (length l)) as [L|L]; [|reflexivity]. cbn [bind].
  replace (0 + 8 + 8 <=? length l)%nat with false by (symmetry; apply Nat.leb_gt; lia). reflexivity.
Qed.
Lemma c67_short cf c auth p enc key iv info : In (cf, c) tsx_ciphers -> profile_ok (t_B c) p -> length key = t_B c -> length iv = 16%nat -> bytes iv -> (0 < length info < 16)%nat ->
  T_Initialize cf p (T_new cf auth) enc key iv info = if t_exact c then Throw InvalidInfo else UB.
Proof.
  intros HI HP Lk Li Bi HL. pose proof (all_tmatch _ _ HI) as HM. unfold T_Initialize. rewrite (T_mB _ _ HM), (T_strict _ _ HM), Lk, Li, !Nat.eqb_refl. cbn [guard bind].
  replace (0 <? length info)%nat with true by (symmetry; apply Nat.ltb_lt; lia). cbn [andb]. destruct (t_exact c).
  - replace (length info =? 16)%nat with false by (symmetry; apply Nat.eqb_neq; lia). reflexivity.
  - replace (16 <? length info)%nat with false by (symmetry; apply Nat.ltb_ge; lia). cbn [negb guard bind].
    assert (G : (if sp_par p then _ <- guard (negb ((sp_blk p <? sp_min p)%nat || (max_alloc <? Z.of_nat (sp_blk p)))) InvalidSize ;; _ <- safe (negb (sp_min p =? 0)%nat) ;; guard (sp_blk p mod sp_min p =? 0)%nat InvalidParam else Ok tt) = Ok tt).
    { destruct HP as (P1 & P2 & P3 & P4). destruct (sp_par p); [|reflexivity]. destruct (P4 eq_refl) as (Q1 & Q2 & Q3).
      replace (sp_blk p <? sp_min p)%nat with false by (symmetry; apply Nat.ltb_ge; lia). replace (max_alloc <? Z.of_nat (sp_blk p)) with false by (symmetry; apply Z.ltb_ge; lia).
      cbn [orb negb guard bind]. assert (sp_min p <> 0)%nat by nia. replace (sp_min p =? 0)%nat with false by (symmetry; apply Nat.eqb_neq; lia). cbn [negb safe bind]. rewrite Q3. reflexivity. }
    rewrite G. cbn [bind T_new o_init]. rewrite (iv_counter iv Bi Li). cbn [bind].
    replace (length info =? 0)%nat with false by (symmetry; apply Nat.eqb_neq; lia). cbn [negb]. rewrite short_words by exact HL. reflexivity.
Qed.
(** * a refused packet *)
Lemma c68_oracle cf c p key iv info ct tg : In (cf, c) tsx_ciphers -> profile_ok (t_B c) p -> bytes key -> bytes iv -> bytes info -> taccepted c key iv info = true ->
  bytes ct -> bytes tg -> length tg = t_tag c -> 8 * (Z.of_nat (length ct) + Z.of_nat (t_tag c)) < 2 ^ 64 -> Z.of_nat (length ct / t_B c) < 2 ^ 64 ->
  let ask x := XTransform (ct ++ x) 0 (zeros (length ct)) 0 (length ct) (seq 0 (sp_deg p)) in
  exists r t pt, thistory cf p (T_new cf true) [XInit false key iv info; ask tg; XTag] = Ok [XDone; r; XOut t] /\ length t = t_tag c /\
    thistory cf p (T_new cf true) [XInit false key iv info; ask t] = Ok [XDone; XOut pt].
Proof.
  intros HI HP Bk Bi Bf HA Bc Bt Lt HS HC ask. pose proof (all_tmatch _ _ HI) as HM.
  assert (OK : forall x cs, bytes x -> length x = t_tag c -> tcalls_ok c p true false cs -> tcalls_ok c p true false (ask x :: cs)).
  { intros x cs Bx Lx H. split; [|exact H]. unfold ask. cbn [tcall_ok andb negb]. split; [apply Forall_app; auto|]. split; [apply bytes_zeros|]. rewrite app_length, length_zeros, Lx. split; [lia|]. split; [lia|].
    split; [red; rewrite app_length; lia|]. split; [red; rewrite length_zeros; lia|]. split; [apply Permutation_refl|]. split; [exact HC|discriminate]. }
  destruct (c67_hist cf c p true false key iv info [ask tg; XTag] HI HP Bk Bi Bf HA (OK tg [XTag] Bt Lt (conj I I))) as (rs & -> & X).
  set (n := topened c true false key iv info) in *. assert (N : nok c true n) by (apply (opened_ok cf c true HM); auto).
  unfold ask in X. destruct rs as [|r rs]; [contradiction|]. cbn [texpected] in X. cbv zeta in X. pose proof N as [N1 N2]. destruct (k_mac n) as [(A & m)|] eqn:EM; [|discriminate N2]. destruct N2 as (_ & N3 & N4).
  change (k_enc n) with false in X.
  assert (S1 : forall x, slice (ct ++ x) 0 (length ct) = ct) by (intros x; unfold slice; cbn [skipn]; rewrite firstn_app, Nat.sub_diag, firstn_O, app_nil_r; apply firstn_all). rewrite S1 in X.
  set (t := ttag_of c n A m ct) in *. destruct (tag_facts cf c HM n A m ct N3 N4 Bc) as [T1 T2]. fold t in T1. assert (Btt : bytes t) by apply kmac_out_bytes.
  assert (R : exists r', rs = [XOut t] /\ r' = r).
  { destruct X as [(_ & _ & X)|(_ & _ & X)]; (destruct rs as [|r2 rs]; [contradiction|]; cbn [texpected] in X; destruct X as [-> X]; destruct rs; [|contradiction]; exists r; split; [reflexivity|reflexivity]). }
  destruct R as (_ & -> & _).
  destruct (c67_hist cf c p true false key iv info [ask t] HI HP Bk Bi Bf HA (OK t [] Btt T1 I)) as (rs' & E' & X'). unfold ask in E'. fold n in X'. unfold ask in X'. destruct rs' as [|r' rs']; [contradiction|]. cbn [texpected] in X'. cbv zeta in X'. rewrite EM in X'.
  change (k_enc n) with false in X'. rewrite S1 in X'. fold t in X'.
  assert (S2 : slice (ct ++ t) (0 + length ct) (t_tag c) = t) by (unfold slice; rewrite Nat.add_0_l, skipn_app, skipn_all, Nat.sub_diag; cbn [skipn app]; apply firstn_all2; lia). rewrite S2 in X'.
  destruct X' as [(_ & (pt & -> & _) & X')|(F & _)]; [|now elim F]. destruct rs'; [|contradiction].
  exists r, t, pt. split; [reflexivity|]. split; [exact T1|]. exact E'.
Qed.
