(** Glue for Properties_TSX.v. *)
From Coq Require Import Permutation.
From Verif Require Import BaseLemmas Spec_Common Proofs_Common Proofs_GCM Spec_Keccak Proofs_Keccak Proofs_Sponge Proofs_SHA3 Proofs_XOF Proofs_KMAC Proofs_KMAC2 Session_KMAC
  Spec_ChaCha Proofs_ChaCha Proofs_ChaCha2 Model_IntegerTools Model_Modes Proofs_Windows Model_ChaCha Spec_Stream Model_CSX Session_CSX Proofs_CSX Proofs_CSX2 Proofs_CSX3
  Spec_TSX Model_TSX Session_TSX Proofs_TSX Proofs_TSX2 Proofs_TSX3.
Open Scope Z_scope.

(** * histories *)
Lemma c67_hist cf c p auth enc key iv info cs : In (cf, c) tsx_ciphers -> profile_ok (t_B c) p -> bytes key -> bytes iv -> bytes info -> taccepted c key iv info = true ->
  tcalls_ok c p auth enc cs ->
  exists rs, thistory cf p (T_new cf auth) (XInit enc key iv info :: cs) = Ok (XDone :: rs) /\ texpected c auth (topened c auth enc key iv info) cs rs.
Proof.
  intros HI HP Bk Bi Bf HA HC. pose proof (all_tmatch _ _ HI) as HM. cbn [thistory tstep].
  destruct (tInit_ok cf c p auth HM HP (T_new cf auth) enc key iv info) as (o & E & CA); auto; [left; reflexivity|].
  rewrite E. cbn [bind fst snd]. destruct (thistory_ok cf c p auth HM HP cs o _ CA HC) as (rs & -> & X). cbn [bind]. eauto.
Qed.
Section more.
Context (cf : tconf) (c : tcipher) (auth : bool).
Hypothesis HM : tmatches cf c.
Lemma opened_ok enc key iv info : bytes key -> bytes iv -> taccepted c key iv info = true -> nok c auth (topened c auth enc key iv info).
Proof.
  intros Bk Bi HA. unfold taccepted in HA. apply andb_true_iff in HA. destruct HA as [HA H3]. apply andb_true_iff in HA. destruct HA as [H1 H2]. apply Nat.eqb_eq in H1, H2.
  assert (HI : (length info = 0 \/ length info = 16)%nat) by (apply orb_true_iff in H3; destruct H3 as [H3|H3]; apply Nat.eqb_eq in H3; auto).
  destruct (T_num _ _ HM) as (R1 & R2 & R3 & R4 & R5 & R6).
  destruct (tderive cf c HM key Bk H1) as (g & g1 & g2 & E1 & E2 & E3 & L1 & L2).
  unfold topened, nok, sized. cbn [k_key k_tweak k_mac]. split; [split|].
  - destruct auth; apply (key_words cf c HM); assumption.
  - exact (proj2 (tweak_ok cf c HM info HI)).
  - destruct auth; [|reflexivity]. split; [reflexivity|]. split; [|constructor].
    destruct (kmac_start_ok (t_rate c) (t_mac c) R1 R2 ltac:(lia) kmac_name (tmac_key c key) []) as (pad & _ & X); auto.
    + bytelist.
    + unfold tmac_key. apply bytes_skipn, cshake_bytes.
    + constructor.
    + red. cbn. lia.
    + red. rewrite L2. lia.
    + red. cbn. lia.
    + apply kname_fits. exact R1.
Qed.
Lemma crypt_fit n inp io len (out : list Z) oo : nok c auth n -> (io + len <= length inp)%nat -> (oo + len <= length out)%nat -> (oo + length (tcrypt c n (slice inp io len)) <= length out)%nat.
Proof. intros [N _] H1 H2. rewrite (crypt_length cf c HM) by exact N. rewrite length_slice; lia. Qed.
Lemma determined p p' cs : forall n enc cs' rs rs', nok c auth n -> k_enc n = enc -> tcalls_ok c p auth enc cs -> tcalls_ok c p' auth enc cs' -> map unscheduled cs = map unscheduled cs' ->
  texpected c auth n cs rs -> texpected c auth n cs' rs' -> rs = rs'.
Proof.
  induction cs as [|x cs IH]; intros n enc [|x' cs'] rs rs' N EN OK OK' E; try discriminate.
  - cbn [texpected]. destruct rs, rs'; intuition.
  - cbn [map] in E. injection E as EX E. cbn [tcalls_ok] in OK, OK'. destruct OK as [O1 OK]. destruct OK' as [O1' OK']. destruct rs as [|r rs]; [destruct x; contradiction|]. destruct rs' as [|r' rs']; [destruct x'; intros _; contradiction|].
    destruct x as [e key iv info|inp off len|inp io out oo len ord|]; destruct x' as [e' key' iv' info'|inp' off' len'|inp' io' out' oo' len' ord'|]; try discriminate; cbn [unscheduled] in EX.
    + injection EX as <- <- <- <-. cbn [texpected]. intros X X'. cbn [tcall_ok] in O1. destruct O1 as (B1 & B2 & B3 & B4). unfold taccepted in OK, OK'. destruct (length key =? t_B c)%nat eqn:K1; cbn [negb andb] in *; [|destruct X as [-> X], X' as [-> X']; f_equal; now apply (IH n enc cs')].
      destruct (length iv =? 16)%nat eqn:K2; cbn [negb andb] in *; [|destruct X as [-> X], X' as [-> X']; f_equal; now apply (IH n enc cs')].
      destruct ((length info =? 0)%nat || (length info =? 16)%nat) eqn:K3; cbn [negb] in *; (destruct X as [-> X], X' as [-> X']; f_equal); [|now apply (IH n enc cs')].
      apply (IH (topened c auth e key iv info) e cs'); auto. apply opened_ok; auto. unfold taccepted. rewrite K1, K2, K3. reflexivity.
    + injection EX as <- <- <-. cbn [texpected]. cbn [tcall_ok] in O1. destruct O1 as (B1 & B2). destruct (k_mac n) as [(A & m)|] eqn:EM; [|intros [-> X] [-> X']; f_equal; now apply (IH n enc cs')].
      destruct ((len =? 0)%nat); intros [-> X] [-> X']; f_equal; [now apply (IH n enc cs')|]. apply (IH (taad n A m (slice inp off len)) enc cs'); auto.
      assert (Q : nok c auth (heard1 n (slice inp off len))) by (apply (heard1_ok c auth); [exact N|now apply bytes_slice]). unfold heard1 in Q. rewrite EM in Q. exact Q.
    + injection EX as <- <- <- <- <-. cbn [texpected]. cbv zeta. cbn [tcall_ok] in O1. destruct O1 as (B1 & B2 & B3 & B4 & _ & _ & _ & _ & B9).
      assert (LI : (io + len <= length inp)%nat) by lia. pose proof (crypt_fit n inp io len out oo N LI B4) as LF. set (data := slice inp io len) in *. assert (BD : bytes data) by now apply bytes_slice.
      assert (LD : length data = len) by (unfold data; rewrite length_slice; lia).
      assert (BC : bytes (tcrypt c n data)) by (apply (crypt_bytes cf c HM); [apply N|exact BD]).
      pose proof N as [N1 N2]. destruct (k_mac n) as [(A & m)|] eqn:EM.
      * destruct N2 as (N2 & N3 & N4). rewrite EN. destruct enc.
        -- destruct (Nat.ltb_spec (length out) (oo + len + t_mac c)) as [LO|LO]; [intros [-> X] [-> X']; f_equal; now apply (IH n true cs')|]. assert (LO2 : (oo + len + t_tag c <= length out)%nat) by (rewrite N2 in B9; destruct (B9 eq_refl); lia).
           destruct (tag_facts cf c HM n A m (tcrypt c n data) N3 N4 BC) as [T1 T2].
           intros [(o1 & -> & W1) X] [(o2 & -> & W2) X']. assert (LW : (oo + length (tcrypt c n data ++ ttag_of c n A m (tcrypt c n data)) <= length out)%nat) by (rewrite app_length, T1, (crypt_length cf c HM), LD by exact N1; lia).
           f_equal; [f_equal; apply (written_unique out o1 o2 oo _ LW W1 W2)|].
           apply (IH (tmoved c (ttagged c n A m (tcrypt c n data)) len) true cs'); auto. split; [exact N1|]. cbn [tmoved ttagged k_mac]. split; [exact N2|]. split; [exact T2|constructor].
        -- destruct (tag_facts cf c HM n A m data N3 N4 BD) as [T1 T2].
           assert (NT : nok c auth (ttagged c n A m data)) by (split; [exact N1|]; cbn [ttagged k_mac]; split; [exact N2|]; split; [exact T2|constructor]).
           intros [(Y & (o1 & -> & W1) & X)|(Y & -> & X)] [(Y' & (o2 & -> & W2) & X')|(Y' & -> & X')]; try contradiction; f_equal.
           ++ f_equal. apply (written_unique out o1 o2 oo _ LF W1 W2).
           ++ now apply (IH (tmoved c (ttagged c n A m data) len) false cs').
           ++ now apply (IH (ttagged c n A m data) false cs').
      * intros [(o1 & -> & W1) X] [(o2 & -> & W2) X']. f_equal; [f_equal; apply (written_unique out o1 o2 oo _ LF W1 W2)|]. apply (IH (tmoved c n len) enc cs'); auto.
    + cbn [texpected]. intros [-> X] [-> X']; f_equal; now apply (IH n enc cs').
Qed.
End more.
Lemma c67_schedule cf c p p' auth enc key iv info cs cs' : In (cf, c) tsx_ciphers -> profile_ok (t_B c) p -> profile_ok (t_B c) p' -> bytes key -> bytes iv -> bytes info -> taccepted c key iv info = true ->
  tcalls_ok c p auth enc cs -> tcalls_ok c p' auth enc cs' -> map unscheduled cs = map unscheduled cs' ->
  thistory cf p (T_new cf auth) (XInit enc key iv info :: cs) = thistory cf p' (T_new cf auth) (XInit enc key iv info :: cs').
Proof.
  intros HI HP HP' Bk Bi Bf HA HC HC' E. pose proof (all_tmatch _ _ HI) as HM. destruct (c67_hist cf c p auth enc key iv info cs) as (rs & -> & X); auto. destruct (c67_hist cf c p' auth enc key iv info cs') as (rs' & -> & X'); auto.
  do 2 f_equal. eapply (determined cf c auth HM p p' cs); [| | | | |exact X|exact X']; eauto. apply (opened_ok cf c auth HM); auto.
Qed.
(** * conversations *)
Lemma packet_bytes cf c auth (HM : tmatches cf c) n m : nok c auth n -> bytes m -> bytes (packet c n m).
Proof.
  intros N Bm. unfold packet. assert (B1 : bytes (tcrypt c n m)) by (apply (crypt_bytes cf c HM); [apply N|exact Bm]). destruct (k_mac n) as [(A & x)|]; [|exact B1]. apply Forall_app. split; [exact B1|]. apply kmac_out_bytes.
Qed.
Section conv.
Context (cf : tconf) (c : tcipher) (auth : bool) (p p' : sprof).
Hypothesis HM : tmatches cf c.
Lemma app_calls_ok q e a b : (forall x, In x a -> match x with XInit _ _ _ _ => False | _ => True end) -> tcalls_ok c q auth e a -> tcalls_ok c q auth e b -> tcalls_ok c q auth e (a ++ b).
Proof.
  induction a as [|x a IH]; intros H HA HB; [exact HB|]. cbn [app tcalls_ok] in *. destruct HA as [H1 HA]. split; [exact H1|]. pose proof (H x ltac:(now left)) as Hx. destruct x; try contradiction; (apply IH; auto; intros; apply H; now right).
Qed.
Lemma aads_ok q e l : Forall bytes (l_aad l) -> tcalls_ok c q auth e (aad_calls l).
Proof. unfold aad_calls. induction 1; cbn [map tcalls_ok]; [exact I|]. split; [|assumption]. cbn [tcall_ok]. split; [assumption|lia]. Qed.
Lemma aads_noinit l x : In x (aad_calls l) -> match x with XInit _ _ _ _ => False | _ => True end.
Proof. unfold aad_calls. intros H. apply in_map_iff in H. destruct H as (a & <- & _). exact I. Qed.
Lemma seal_ok ls : Forall (tletter_ok c auth p p') ls -> tcalls_ok c p auth true (seal_calls (T c auth) ls).
Proof.
  induction 1 as [|l ls (L1 & L2 & L3 & L4 & L5 & L6 & L7 & L8) H IH]; [exact I|]. unfold seal_calls. cbn [flat_map]. rewrite <- app_assoc. apply app_calls_ok; [apply aads_noinit|now apply aads_ok|].
  cbn [app tcalls_ok]. split; [|exact IH]. cbn [tcall_ok negb]. split; [exact L1|]. split; [apply bytes_zeros|]. rewrite length_zeros. rewrite andb_false_r. split; [lia|]. split; [lia|]. split; [red; lia|]. split; [red; rewrite length_zeros; unfold T; destruct auth; lia|]. split; [exact L7|]. split; [exact L6|]. intros EA. right. unfold T. apply andb_true_iff in EA. destruct EA as [-> _]. lia.
Qed.
Lemma open_ok ls ps : Forall (tletter_ok c auth p p') ls -> Forall2 (fun l x => bytes x /\ length x = (length (l_msg l) + T c auth)%nat) ls ps -> tcalls_ok c p' auth false (open_calls (T c auth) ls ps).
Proof.
  intros HL HF. induction HF as [|l x ls ps [B L] HF IH]; [exact I|]. inversion HL as [|? ? (L1 & L2 & L3 & L4 & L5 & L6 & L7 & L8) HL']; subst. specialize (IH HL').
  unfold open_calls. cbn [combine flat_map fst snd]. rewrite <- app_assoc. apply app_calls_ok; [apply aads_noinit|now apply aads_ok|].
  rewrite L. replace (length (l_msg l) + T c auth - T c auth)%nat with (length (l_msg l)) by lia.
  cbn [app tcalls_ok]. split; [|exact IH]. cbn [tcall_ok negb]. split; [exact B|]. split; [apply bytes_zeros|]. rewrite length_zeros, L. rewrite andb_true_r. unfold T in *. split; [destruct auth; lia|]. split; [lia|]. split; [red; rewrite L; destruct auth; lia|]. split; [red; rewrite length_zeros; lia|]. split; [exact L8|]. split; [exact L6|]. rewrite andb_false_r. discriminate.
Qed.
Lemma lok_of ls : Forall (tletter_ok c auth p p') ls -> Forall (lok auth) ls.
Proof. apply Forall_impl. intros l (L1 & L2 & L3 & L4 & _). repeat split; auto. Qed.
Lemma packets_ok ls : Forall (lok auth) ls -> forall n, nok c auth n -> Forall2 (fun l x => bytes x /\ length x = (length (l_msg l) + T c auth)%nat) ls (packets c n ls).
Proof.
  induction 1 as [|l ls (L1 & L2 & L3 & L4) H IH]; intros n N; cbn [packets]; constructor.
  - pose proof (heard_ok c auth n l N L2) as N1. split; [now apply (packet_bytes cf c auth HM)|]. now apply (packet_len cf c auth HM).
  - apply IH. apply (sent1_ok cf c auth HM); [|exact L1]. now apply (heard_ok c auth).
Qed.
End conv.
Lemma c67_talk cf c auth p p' key iv info ls : In (cf, c) tsx_ciphers -> profile_ok (t_B c) p -> profile_ok (t_B c) p' -> bytes key -> bytes iv -> bytes info -> taccepted c key iv info = true ->
  Forall (tletter_ok c auth p p') ls -> let t := if auth then t_tag c else 0%nat in
  exists rs rs', thistory cf p (T_new cf auth) (XInit true key iv info :: seal_calls t ls) = Ok rs /\ map (@length Z) (outs rs) = map (fun l => (length (l_msg l) + t)%nat) ls /\
    thistory cf p' (T_new cf auth) (XInit false key iv info :: open_calls t ls (outs rs)) = Ok rs' /\ outs rs' = map l_msg ls.
Proof.
  intros HI HP HP' Bk Bi Bf HA HL t. change t with (T c auth). pose proof (all_tmatch _ _ HI) as HM. pose proof (lok_of c auth p p' ls HL) as HK.
  destruct (c67_hist cf c p auth true key iv info (seal_calls (T c auth) ls)) as (rs & E & X); auto; [now apply (seal_ok c auth p p')|]. rewrite E.
  set (n := topened c auth true key iv info) in *. assert (N : nok c auth n) by (apply (opened_ok cf c auth HM); auto).
  rewrite <- (app_nil_r (seal_calls _ _)) in X. destruct (seal_run cf c auth HM ls HK n [] rs N eq_refl X) as (ra & rb & -> & O & N2 & _ & X2). destruct rb; [|contradiction]. rewrite app_nil_r in *.
  pose proof (packets_ok cf c auth HM ls HK n N) as HF.
  destruct (c67_hist cf c p' auth false key iv info (open_calls (T c auth) ls (packets c n ls))) as (rs' & E' & X'); auto; [now apply (open_ok c auth p p')|].
  exists (XDone :: ra), (XDone :: rs'). change (outs (XDone :: ra)) with (outs ra). rewrite O. split; [reflexivity|]. split.
  { clear - HF. induction HF as [|l x ls ps [_ L] HF IH]; [reflexivity|]. cbn [map]. now rewrite IH, L. }
  split; [exact E'|]. rewrite <- (app_nil_r (open_calls _ _ _)) in X'. change (topened c auth false key iv info) with (turn false n) in X'.
  destruct (open_run cf c auth HM ls HK n [] rs' N X') as (rc & rd & -> & O' & _ & X3). destruct rd; [|contradiction]. rewrite app_nil_r. exact O'.
Qed.
(** a different tag is refused *)
Lemma packets_app c ls : forall n l, packets c n (ls ++ [l]) = packets c n ls ++ [packet c (heard (sent c n ls) l) (l_msg l)].
Proof. induction ls as [|x ls IH]; intros n l; [reflexivity|]. cbn [app packets sent]. rewrite IH. reflexivity. Qed.
Lemma c68_tamper cf c p p' key iv info ls l ps ct tg tg' : In (cf, c) tsx_ciphers -> profile_ok (t_B c) p -> profile_ok (t_B c) p' -> bytes key -> bytes iv -> bytes info -> taccepted c key iv info = true ->
  Forall (tletter_ok c true p p') (ls ++ [l]) -> length tg = t_tag c -> length tg' = t_tag c -> bytes tg' -> tg' <> tg ->
  forall rs, thistory cf p (T_new cf true) (XInit true key iv info :: seal_calls (t_tag c) (ls ++ [l])) = Ok rs -> outs rs = ps ++ [ct ++ tg] ->
  exists rs', thistory cf p' (T_new cf true) (XInit false key iv info :: open_calls (t_tag c) (ls ++ [l]) (ps ++ [ct ++ tg'])) = Ok (rs' ++ [XFail AuthenticationFailure (zeros (length (l_msg l)))]) /\ outs rs' = map l_msg ls.
Proof.
  intros HI HP HP' Bk Bi Bf HA HL L1 L2 B2 NE rs E0 EO. pose proof (all_tmatch _ _ HI) as HM. pose proof (lok_of c true p p' _ HL) as HK.
  destruct (c67_hist cf c p true true key iv info (seal_calls (t_tag c) (ls ++ [l]))) as (ra & E & X); auto; [now apply (seal_ok c true p p')|]. rewrite E in E0. injection E0 as <-. change (outs (XDone :: ra)) with (outs ra) in EO.
  set (n := topened c true true key iv info) in *. assert (N : nok c true n) by (apply (opened_ok cf c true HM); auto).
  rewrite <- (app_nil_r (seal_calls _ _)) in X. destruct (seal_run cf c true HM _ HK n [] ra N eq_refl X) as (rb & rx & -> & O & N2 & _ & X2). destruct rx; [|contradiction]. rewrite app_nil_r in *.
  rewrite O, packets_app in EO. apply app_inj_tail in EO. destruct EO as [EP EL].
  apply Forall_app in HK. destruct HK as [HK HKl]. inversion HKl as [|? ? Hl _]; subst. pose proof (packets_ok cf c true HM ls HK n N) as HF. pose proof Hl as (Bm & Ba & _).
  assert (NS : nok c true (sent c n ls)).
  { clear - HK N HM. clearbody n. revert n N. induction HK as [|l ls (L1 & L2 & _) H IH]; intros n N; [exact N|]. cbn [sent]. apply IH. apply (sent1_ok cf c true HM); [|exact L1]. now apply (heard_ok c true). }
  pose proof (heard_ok c true _ l NS Ba) as N1. set (n1 := heard (sent c n ls) l) in *. set (m := l_msg l) in *. pose proof (packet_len cf c true HM n1 m N1 Bm) as PL.
  pose proof (packet_bytes cf c true HM n1 m N1 Bm) as PB. unfold T in PL. rewrite EL in PL, PB. rewrite app_length, L1 in PL. assert (LC : length ct = length m) by lia.
  assert (BC : bytes ct) by (apply Forall_app in PB; apply PB).
  assert (OKc : tcalls_ok c p' true false (open_calls (t_tag c) (ls ++ [l]) (packets c n ls ++ [ct ++ tg']))).
  { apply (open_ok c true p p'); [exact HL|]. apply Forall2_app; [exact HF|]. constructor; [|constructor]. unfold T. rewrite app_length, LC, L2. split; [apply Forall_app; auto|reflexivity]. }
  destruct (c67_hist cf c p' true false key iv info _ HI HP' Bk Bi Bf HA OKc) as (rs' & E' & X'). rewrite E'. change (topened c true false key iv info) with (turn false n) in X'.
  assert (SP : open_calls (t_tag c) (ls ++ [l]) (packets c n ls ++ [ct ++ tg']) = open_calls (T c true) ls (packets c n ls) ++ open_calls (t_tag c) [l] [ct ++ tg']).
  { unfold open_calls, T. rewrite <- flat_map_app. f_equal. clear - HF. induction HF; [reflexivity|]. cbn [app combine]. now rewrite IHHF. }
  rewrite SP in X'. destruct (open_run cf c true HM ls HK n _ rs' N X') as (rc & rd & -> & O' & _ & X3).
  unfold open_calls in X3. cbn [combine flat_map fst snd] in X3. rewrite app_nil_r in X3. destruct (aads_run c true l Hl _ _ rd (turn_ok c true false _ NS) X3) as (re & rf & -> & O2 & X4). rewrite heard_turn in X4. fold n1 in X4.
  replace (length (ct ++ tg') - t_tag c)%nat with (length m) in X4 by (rewrite app_length; lia). destruct rf as [|r rf]; [contradiction|]. cbn [texpected turn k_mac k_enc] in X4. cbv zeta in X4.
  unfold packet in EL. pose proof N1 as [_ Q]. destruct (k_mac n1) as [(A & x)|] eqn:EM; [|discriminate]. destruct Q as (_ & Q1 & Q2).
  assert (S1 : slice (ct ++ tg') 0 (length m) = ct) by (unfold slice; cbn [skipn]; rewrite firstn_app, LC, Nat.sub_diag, firstn_O, app_nil_r; apply firstn_all2; lia).
  assert (S2 : slice (ct ++ tg') (0 + length m) (t_tag c) = tg') by (unfold slice; rewrite skipn_app, skipn_all2 by lia; rewrite <- LC, Nat.add_0_l, Nat.sub_diag; cbn [skipn app]; apply firstn_all2; lia).
  assert (EC : tcrypt c n1 m = ct /\ ttag_of c n1 A x ct = tg).
  { assert (LX : length (tcrypt c n1 m) = length ct) by (rewrite (crypt_length cf c HM) by apply N1; lia).
    assert (EQ : tcrypt c n1 m = ct). { apply (f_equal (firstn (length ct))) in EL. rewrite !firstn_app, LX, Nat.sub_diag, !firstn_O, !app_nil_r, firstn_all in EL. rewrite <- LX, firstn_all in EL. exact EL. }
    split; [exact EQ|]. rewrite EQ in EL. now apply app_inv_head in EL. }
  destruct EC as [_ EC]. rewrite S1, S2 in X4.
  destruct X4 as [(F & _)|(_ & -> & X4)]; [change (tg' = ttag_of c n1 A x ct) in F; now elim NE; rewrite F|]. destruct rf; [|contradiction]. exists (XDone :: rc ++ re). cbn [app]. rewrite <- app_assoc. split; [reflexivity|].
  change (outs (XDone :: rc ++ re)) with (outs (rc ++ re)). rewrite outs_app, O', O2. apply app_nil_r.
Qed.
