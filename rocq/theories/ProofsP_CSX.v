(** Glue for Properties_CSX.v. *)
From Coq Require Import Permutation.
From Verif Require Import BaseLemmas Spec_Common Proofs_Common Proofs_GCM Spec_Keccak Proofs_Keccak Proofs_Sponge Proofs_SHA3 Proofs_XOF Proofs_KMAC Proofs_KMAC2 Session_KMAC
  Spec_ChaCha Proofs_ChaCha Proofs_ChaCha2 Model_IntegerTools Model_Modes Proofs_Windows Model_ChaCha Spec_Stream Model_CSX Session_CSX Proofs_CSX Proofs_CSX2 Proofs_CSX3.
Open Scope Z_scope.

(** * blocks *)
Lemma c42_block st v out oo : length st = 14%nat -> (oo + 64 <= length out)%nat -> PermuteR20P512U out oo (counter_words 32 v) st = Ok (splice out oo (chacha_block 10 st v)).
Proof. intros H HO. rewrite (U_ok st (counter_words 32 v) out oo H eq_refl HO). unfold chacha_block, stream_block, block_of. reflexivity. Qed.
Lemma c42_csx_block rounds st v out oo : Nat.even rounds = true -> length st = 14%nat -> (oo + 128 <= length out)%nat -> PermuteP1024C out oo (counter_words 64 v) st rounds = Ok (splice out oo (csx_block (rounds / 2) st v)).
Proof. intros R H HO. rewrite (csx_ok rounds st (counter_words 64 v) out oo R H eq_refl HO). unfold csx_block, stream_block, block_of. reflexivity. Qed.

Lemma words32 v : Forall (is_word 32) (counter_words 32 v).
Proof. unfold counter_words. constructor; [|constructor; [|constructor]]; apply Z.mod_pos_bound; reflexivity. Qed.
Lemma c42_compact rounds st v out oo : Nat.even rounds = true -> Forall (is_word 32) st -> length st = 14%nat -> (oo + 64 <= length out)%nat ->
  PermuteP512C out oo (counter_words 32 v) st rounds = Ok (splice out oo (chacha_block (rounds / 2) st v)).
Proof. intros R W H HO. rewrite (compact_ok rounds st (counter_words 32 v) out oo R W (words32 v) H eq_refl HO). unfold chacha_block, stream_block, block_of. reflexivity. Qed.

(** * histories *)
Lemma c42_hist cf c s p auth enc key iv info cs : In (cf, c) stream_ciphers -> profile_ok (b_B c) p -> bytes key -> bytes iv -> bytes info -> accepted c key iv info = true ->
  xcalls_ok c p auth enc cs ->
  exists rs, xhistory cf s p (S_new auth) (XInit enc key iv info :: cs) = Ok (XDone :: rs) /\ xexpected c auth (opened c auth (zeros (b_code c)) enc key iv info) cs rs.
Proof.
  intros HI HP Bk Bi Bf HA HC. pose proof (all_match _ _ HI) as HM. cbn [xhistory xstep].
  destruct (Init_ok cf c s p auth HM HP (S_new auth) (zeros (b_code c)) enc key iv info) as (o & E & CA); auto; [left; auto|].
  rewrite E. cbn [bind fst snd]. destruct (xhistory_ok cf c s p auth HM HP cs o _ CA HC) as (rs & -> & X). cbn [bind]. eauto.
Qed.
Section more.
Context (cf : sconf) (c : cipher) (auth : bool).
Hypothesis HM : matches cf c.
Lemma opened_ok prev enc key iv info : length prev = b_code c -> bytes key -> bytes iv -> accepted c key iv info = true -> nok auth (opened c auth prev enc key iv info).
Proof.
  intros LP Bk Bi HA. unfold accepted in HA. apply andb_true_iff in HA. destruct HA as [HA H3]. apply andb_true_iff in HA. destruct HA as [H1 H2]. apply Nat.eqb_eq in H1, H2.
  destruct (M_num _ _ HM) as (R1 & R2 & R3 & R4 & R5). pose proof (code_of_len cf c HM prev info LP) as LC.
  destruct (derive cf c 0%nat HM key Bk H1) as (g & g2 & E1 & (g1 & E2 & E3) & L1 & L2).
  unfold opened, nok. cbv zeta. cbn [n_state n_mac]. split.
  - destruct auth; (eapply (M_load _ _ HM); auto).
  - destruct auth; [|reflexivity]. split; [reflexivity|]. split; [|constructor].
    destruct (kmac_start_ok (b_rate c) (b_tag c) R1 R2 ltac:(lia) kmac_name (mac_key c key) []) as (pad & _ & X); auto.
    + bytelist.
    + unfold mac_key. apply bytes_skipn, cshake_bytes.
    + constructor.
    + red. cbn. lia.
    + red. rewrite L2. lia.
    + red. cbn. lia.
    + apply kname_fits. exact R1.
Qed.
Lemma crypt_fit n inp io len (out : list Z) oo : nok auth n -> (io + len <= length inp)%nat -> (oo + len <= length out)%nat -> (oo + length (crypt c n (slice inp io len)) <= length out)%nat.
Proof. intros [N _] H1 H2. rewrite (crypt_length cf c HM) by exact N. rewrite length_slice; lia. Qed.
Definition code_len (n : conn) : Prop := length (n_code n) = b_code c.
Lemma determined p p' cs : forall n enc cs' rs rs', nok auth n -> code_len n -> n_enc n = enc -> xcalls_ok c p auth enc cs -> xcalls_ok c p' auth enc cs' -> map unscheduled cs = map unscheduled cs' ->
  xexpected c auth n cs rs -> xexpected c auth n cs' rs' -> rs = rs'.
Proof.
  induction cs as [|x cs IH]; intros n enc [|x' cs'] rs rs' N CL EN OK OK' E; try discriminate.
  - cbn [xexpected]. destruct rs, rs'; intuition.
  - cbn [map] in E. injection E as EX E. cbn [xcalls_ok] in OK, OK'. destruct OK as [O1 OK]. destruct OK' as [O1' OK']. destruct rs as [|r rs]; [destruct x; contradiction|]. destruct rs' as [|r' rs']; [destruct x'; intros _; contradiction|].
    destruct x as [e key iv info|inp off len|inp io out oo len ord|]; destruct x' as [e' key' iv' info'|inp' off' len'|inp' io' out' oo' len' ord'|]; try discriminate; cbn [unscheduled] in EX.
    + injection EX as <- <- <- <-. cbn [xexpected]. intros X X'. cbn [xcall_ok] in O1. destruct O1 as (B1 & B2 & B3). unfold accepted in OK, OK'. destruct (length key =? b_key c)%nat eqn:K1; cbn [negb andb] in *; [|destruct X as [-> X], X' as [-> X']; f_equal; now apply (IH n enc cs')].
      destruct (length iv =? b_iv c)%nat eqn:K2; cbn [negb andb] in *; [|destruct X as [-> X], X' as [-> X']; f_equal; now apply (IH n enc cs')].
      destruct (b_exact c && (0 <? length info)%nat && negb (length info =? b_code c)%nat) eqn:K3; cbn [negb] in *; (destruct X as [-> X], X' as [-> X']; f_equal); [now apply (IH n enc cs')|].
      apply (IH (opened c auth (n_code n) e key iv info) e cs'); auto.
      * apply opened_ok; auto. unfold accepted. rewrite K1, K2, K3. reflexivity.
      * red. unfold opened. cbn [n_code]. apply (code_of_len cf c HM). exact CL.
    + injection EX as <- <- <-. cbn [xexpected]. cbn [xcall_ok] in O1. destruct O1 as (B1 & B2). destruct (n_mac n) as [(A & m)|] eqn:EM; [|intros [-> X] [-> X']; f_equal; now apply (IH n enc cs')].
      destruct (b_mark c && (len =? 0)%nat); intros [-> X] [-> X']; f_equal; [now apply (IH n enc cs')|]. apply (IH (aad c n A m (slice inp off len)) enc cs'); auto.
      assert (Q : nok auth (heard1 c n (slice inp off len))) by (apply (heard1_ok c auth); [exact N|now apply bytes_slice]). unfold heard1 in Q. rewrite EM in Q. exact Q.
    + injection EX as <- <- <- <- <-. cbn [xexpected]. cbv zeta. cbn [xcall_ok] in O1. destruct O1 as (B1 & B2 & B3 & B4 & _).
      assert (LI : (io + len <= length inp)%nat) by lia. pose proof (crypt_fit n inp io len out oo N LI B4) as LF. set (data := slice inp io len) in *. assert (BD : bytes data) by now apply bytes_slice.
      assert (LD : length data = len) by (unfold data; rewrite length_slice; lia).
      assert (BC : bytes (crypt c n data)) by (apply (crypt_bytes cf c HM); [apply N|exact BD]).
      pose proof N as [N1 N2]. destruct (n_mac n) as [(A & m)|] eqn:EM.
      * destruct N2 as (N2 & N3 & N4). rewrite EN. destruct enc.
        -- destruct (Nat.ltb_spec (length out) (oo + len + b_tag c)) as [LO|LO]; [intros [-> X] [-> X']; f_equal; now apply (IH n true cs')|].
           destruct (tag_facts cf c HM n A m (crypt c n data) N3 N4 BC) as [T1 T2].
           intros [(o1 & -> & W1) X] [(o2 & -> & W2) X']. assert (LW : (oo + length (crypt c n data ++ tag_of c n A m (crypt c n data)) <= length out)%nat) by (rewrite app_length, T1, (crypt_length cf c HM), LD by exact N1; lia).
           f_equal; [f_equal; apply (written_unique out o1 o2 oo _ LW W1 W2)|].
           apply (IH (moved c (tagged c n A m (crypt c n data)) len) true cs'); auto. split; [exact N1|]. cbn [moved tagged n_mac]. split; [exact N2|]. split; [exact T2|constructor].
        -- destruct (tag_facts cf c HM n A m data N3 N4 BD) as [T1 T2].
           assert (NT : nok auth (tagged c n A m data)) by (split; [exact N1|]; cbn [tagged n_mac]; split; [exact N2|]; split; [exact T2|constructor]).
           intros [(Y & (o1 & -> & W1) & X)|(Y & -> & X)] [(Y' & (o2 & -> & W2) & X')|(Y' & -> & X')]; try contradiction; f_equal.
           ++ f_equal. apply (written_unique out o1 o2 oo _ LF W1 W2).
           ++ now apply (IH (moved c (tagged c n A m data) len) false cs').
           ++ now apply (IH (tagged c n A m data) false cs').
      * intros [(o1 & -> & W1) X] [(o2 & -> & W2) X']. f_equal; [f_equal; apply (written_unique out o1 o2 oo _ LF W1 W2)|]. apply (IH (moved c n len) enc cs'); auto.
    + cbn [xexpected]. destruct (n_mac n) as [(A & m)|]; intros [-> X] [-> X']; f_equal; now apply (IH n enc cs').
Qed.
End more.
Lemma c42_schedule cf c s p s' p' auth enc key iv info cs cs' : In (cf, c) stream_ciphers -> profile_ok (b_B c) p -> profile_ok (b_B c) p' -> bytes key -> bytes iv -> bytes info -> accepted c key iv info = true ->
  xcalls_ok c p auth enc cs -> xcalls_ok c p' auth enc cs' -> map unscheduled cs = map unscheduled cs' ->
  xhistory cf s p (S_new auth) (XInit enc key iv info :: cs) = xhistory cf s' p' (S_new auth) (XInit enc key iv info :: cs').
Proof.
  intros HI HP HP' Bk Bi Bf HA HC HC' E. pose proof (all_match _ _ HI) as HM. destruct (c42_hist cf c s p auth enc key iv info cs) as (rs & -> & X); auto. destruct (c42_hist cf c s' p' auth enc key iv info cs') as (rs' & -> & X'); auto.
  do 2 f_equal. eapply (determined cf c auth HM p p' cs); [| | | | | |exact X|exact X']; eauto.
  - apply (opened_ok cf c auth HM); auto. apply length_zeros.
  - red. unfold opened. cbn [n_code]. apply (code_of_len cf c HM), length_zeros.
Qed.
(** * conversations *)
Lemma packet_bytes cf c auth (HM : matches cf c) n m : nok auth n -> bytes m -> bytes (packet c n m).
Proof.
  intros N Bm. unfold packet. assert (B1 : bytes (crypt c n m)) by (apply (crypt_bytes cf c HM); [apply N|exact Bm]). destruct (n_mac n) as [(A & x)|]; [|exact B1]. apply Forall_app. split; [exact B1|]. apply kmac_out_bytes.
Qed.
Section conv.
Context (cf : sconf) (c : cipher) (auth : bool) (p p' : sprof).
Hypothesis HM : matches cf c.
Lemma app_calls_ok q e a b : (forall x, In x a -> match x with XInit _ _ _ _ => False | _ => True end) -> xcalls_ok c q auth e a -> xcalls_ok c q auth e b -> xcalls_ok c q auth e (a ++ b).
Proof.
  induction a as [|x a IH]; intros H HA HB; [exact HB|]. cbn [app xcalls_ok] in *. destruct HA as [H1 HA]. split; [exact H1|]. pose proof (H x ltac:(now left)) as Hx. destruct x; try contradiction; (apply IH; auto; intros; apply H; now right).
Qed.
Lemma aads_ok q e l : Forall bytes (l_aad l) -> xcalls_ok c q auth e (aad_calls l).
Proof. unfold aad_calls. induction 1; cbn [map xcalls_ok]; [exact I|]. split; [|assumption]. cbn [xcall_ok]. split; [assumption|lia]. Qed.
Lemma aads_noinit l x : In x (aad_calls l) -> match x with XInit _ _ _ _ => False | _ => True end.
Proof. unfold aad_calls. intros H. apply in_map_iff in H. destruct H as (a & <- & _). exact I. Qed.
Lemma seal_ok ls : Forall (letter_ok c auth p p') ls -> xcalls_ok c p auth true (seal_calls (T c auth) ls).
Proof.
  induction 1 as [|l ls (L1 & L2 & L3 & L4 & L5 & L6 & L7 & L8) H IH]; [exact I|]. unfold seal_calls. cbn [flat_map]. rewrite <- app_assoc. apply app_calls_ok; [apply aads_noinit|now apply aads_ok|].
  cbn [app xcalls_ok]. split; [|exact IH]. cbn [xcall_ok negb]. split; [exact L1|]. split; [apply bytes_zeros|]. rewrite length_zeros. rewrite andb_false_r. split; [lia|]. split; [lia|]. split; [red; lia|]. split; [|repeat split; auto].
  red. rewrite length_zeros. unfold T. destruct auth; lia.
Qed.
Lemma open_ok ls ps : Forall (letter_ok c auth p p') ls -> Forall2 (fun l x => bytes x /\ length x = (length (l_msg l) + T c auth)%nat) ls ps -> xcalls_ok c p' auth false (open_calls (T c auth) ls ps).
Proof.
  intros HL HF. induction HF as [|l x ls ps [B L] HF IH]; [exact I|]. inversion HL as [|? ? (L1 & L2 & L3 & L4 & L5 & L6 & L7 & L8) HL']; subst. specialize (IH HL').
  unfold open_calls. cbn [combine flat_map fst snd]. rewrite <- app_assoc. apply app_calls_ok; [apply aads_noinit|now apply aads_ok|].
  rewrite L. replace (length (l_msg l) + T c auth - T c auth)%nat with (length (l_msg l)) by lia.
  cbn [app xcalls_ok]. split; [|exact IH]. cbn [xcall_ok negb]. split; [exact B|]. split; [apply bytes_zeros|]. rewrite length_zeros, L. rewrite andb_true_r. unfold T in *. split; [destruct auth; lia|]. split; [lia|]. split; [red; rewrite L; destruct auth; lia|]. split; [red; rewrite length_zeros; lia|repeat split; auto].
Qed.
Lemma lok_of ls : Forall (letter_ok c auth p p') ls -> Forall (lok c auth) ls.
Proof. apply Forall_impl. intros l (L1 & L2 & L3 & L4 & _). repeat split; auto. Qed.
Lemma packets_ok ls : Forall (lok c auth) ls -> forall n, nok auth n -> Forall2 (fun l x => bytes x /\ length x = (length (l_msg l) + T c auth)%nat) ls (packets c n ls).
Proof.
  induction 1 as [|l ls (L1 & L2 & L3 & L4) H IH]; intros n N; cbn [packets]; constructor.
  - pose proof (heard_ok c auth n l N L2) as N1. split; [now apply (packet_bytes cf c auth HM)|]. now apply (packet_len cf c auth HM).
  - apply IH. apply (sent1_ok cf c auth HM); [|exact L1]. now apply (heard_ok c auth).
Qed.
End conv.
Lemma c42_talk cf c auth s p s' p' key iv info ls : In (cf, c) stream_ciphers -> profile_ok (b_B c) p -> profile_ok (b_B c) p' -> bytes key -> bytes iv -> bytes info -> accepted c key iv info = true ->
  Forall (letter_ok c auth p p') ls -> let t := if auth then b_tag c else 0%nat in
  exists rs rs', xhistory cf s p (S_new auth) (XInit true key iv info :: seal_calls t ls) = Ok rs /\ map (@length Z) (outs rs) = map (fun l => (length (l_msg l) + t)%nat) ls /\
    xhistory cf s' p' (S_new auth) (XInit false key iv info :: open_calls t ls (outs rs)) = Ok rs' /\ outs rs' = map l_msg ls.
Proof.
  intros HI HP HP' Bk Bi Bf HA HL t. change t with (T c auth). pose proof (all_match _ _ HI) as HM. pose proof (lok_of c auth p p' ls HL) as HK.
  destruct (c42_hist cf c s p auth true key iv info (seal_calls (T c auth) ls)) as (rs & E & X); auto; [now apply (seal_ok c auth p p')|]. rewrite E.
  set (n := opened c auth (zeros (b_code c)) true key iv info) in *. assert (N : nok auth n) by (apply (opened_ok cf c auth HM); auto; apply length_zeros).
  rewrite <- (app_nil_r (seal_calls _ _)) in X. destruct (seal_run cf c auth HM ls HK n [] rs N eq_refl X) as (ra & rb & -> & O & N2 & _ & X2). destruct rb; [|contradiction]. rewrite app_nil_r in *.
  pose proof (packets_ok cf c auth HM ls HK n N) as HF.
  destruct (c42_hist cf c s' p' auth false key iv info (open_calls (T c auth) ls (packets c n ls))) as (rs' & E' & X'); auto; [now apply (open_ok c auth p p')|].
  exists (XDone :: ra), (XDone :: rs'). change (outs (XDone :: ra)) with (outs ra). rewrite O. split; [reflexivity|]. split.
  { clear - HF. induction HF as [|l x ls ps [_ L] HF IH]; [reflexivity|]. cbn [map]. now rewrite IH, L. }
  split; [exact E'|]. rewrite <- (app_nil_r (open_calls _ _ _)) in X'. change (opened c auth (zeros (b_code c)) false key iv info) with (turn false n) in X'.
  destruct (open_run cf c auth HM ls HK n [] rs' N X') as (rc & rd & -> & O' & _ & X3). destruct rd; [|contradiction]. rewrite app_nil_r. exact O'.
Qed.
(** a different tag is refused *)
Lemma packets_app c ls : forall n l, packets c n (ls ++ [l]) = packets c n ls ++ [packet c (heard c (sent c n ls) l) (l_msg l)].
Proof. induction ls as [|x ls IH]; intros n l; [reflexivity|]. cbn [app packets sent]. rewrite IH. reflexivity. Qed.
Lemma c46_tamper cf c s p s' p' key iv info ls l ps ct tg tg' : In (cf, c) stream_ciphers -> profile_ok (b_B c) p -> profile_ok (b_B c) p' -> bytes key -> bytes iv -> bytes info -> accepted c key iv info = true ->
  Forall (letter_ok c true p p') (ls ++ [l]) -> length tg = b_tag c -> length tg' = b_tag c -> bytes tg' -> tg' <> tg ->
  forall rs, xhistory cf s p (S_new true) (XInit true key iv info :: seal_calls (b_tag c) (ls ++ [l])) = Ok rs -> outs rs = ps ++ [ct ++ tg] ->
  exists rs', xhistory cf s' p' (S_new true) (XInit false key iv info :: open_calls (b_tag c) (ls ++ [l]) (ps ++ [ct ++ tg'])) = Ok (rs' ++ [XFail AuthenticationFailure (zeros (length (l_msg l)))]) /\ outs rs' = map l_msg ls.
Proof.
  intros HI HP HP' Bk Bi Bf HA HL L1 L2 B2 NE rs E0 EO. pose proof (all_match _ _ HI) as HM. pose proof (lok_of c true p p' _ HL) as HK.
  destruct (c42_hist cf c s p true true key iv info (seal_calls (b_tag c) (ls ++ [l]))) as (ra & E & X); auto; [now apply (seal_ok c true p p')|]. rewrite E in E0. injection E0 as <-. change (outs (XDone :: ra)) with (outs ra) in EO.
  set (n := opened c true (zeros (b_code c)) true key iv info) in *. assert (N : nok true n) by (apply (opened_ok cf c true HM); auto; apply length_zeros).
  rewrite <- (app_nil_r (seal_calls _ _)) in X. destruct (seal_run cf c true HM _ HK n [] ra N eq_refl X) as (rb & rx & -> & O & N2 & _ & X2). destruct rx; [|contradiction]. rewrite app_nil_r in *.
  rewrite O, packets_app in EO. apply app_inj_tail in EO. destruct EO as [EP EL].
  apply Forall_app in HK. destruct HK as [HK HKl]. inversion HKl as [|? ? Hl _]; subst. pose proof (packets_ok cf c true HM ls HK n N) as HF. pose proof Hl as (Bm & Ba & _).
  assert (NS : nok true (sent c n ls)).
  { clear - HK N HM. clearbody n. revert n N. induction HK as [|l ls (L1 & L2 & _) H IH]; intros n N; [exact N|]. cbn [sent]. apply IH. apply (sent1_ok cf c true HM); [|exact L1]. now apply (heard_ok c true). }
  pose proof (heard_ok c true _ l NS Ba) as N1. set (n1 := heard c (sent c n ls) l) in *. set (m := l_msg l) in *. pose proof (packet_len cf c true HM n1 m N1 Bm) as PL.
  pose proof (packet_bytes cf c true HM n1 m N1 Bm) as PB. unfold T in PL. rewrite EL in PL, PB. rewrite app_length, L1 in PL. assert (LC : length ct = length m) by lia.
  assert (BC : bytes ct) by (apply Forall_app in PB; apply PB).
  assert (OKc : xcalls_ok c p' true false (open_calls (b_tag c) (ls ++ [l]) (packets c n ls ++ [ct ++ tg']))).
  { apply (open_ok c true p p'); [exact HL|]. apply Forall2_app; [exact HF|]. constructor; [|constructor]. unfold T. rewrite app_length, LC, L2. split; [apply Forall_app; auto|reflexivity]. }
  destruct (c42_hist cf c s' p' true false key iv info _ HI HP' Bk Bi Bf HA OKc) as (rs' & E' & X'). rewrite E'. change (opened c true (zeros (b_code c)) false key iv info) with (turn false n) in X'.
  assert (SP : open_calls (b_tag c) (ls ++ [l]) (packets c n ls ++ [ct ++ tg']) = open_calls (T c true) ls (packets c n ls) ++ open_calls (b_tag c) [l] [ct ++ tg']).
  { unfold open_calls, T. rewrite <- flat_map_app. f_equal. clear - HF. induction HF; [reflexivity|]. cbn [app combine]. now rewrite IHHF. }
  rewrite SP in X'. destruct (open_run cf c true HM ls HK n _ rs' N X') as (rc & rd & -> & O' & _ & X3).
  unfold open_calls in X3. cbn [combine flat_map fst snd] in X3. rewrite app_nil_r in X3. destruct (aads_run c true l Hl _ _ rd (turn_ok true false _ NS) X3) as (re & rf & -> & O2 & X4). rewrite heard_turn in X4. fold n1 in X4.
  replace (length (ct ++ tg') - b_tag c)%nat with (length m) in X4 by (rewrite app_length; lia). destruct rf as [|r rf]; [contradiction|]. cbn [xexpected turn n_mac n_enc] in X4. cbv zeta in X4.
  unfold packet in EL. pose proof N1 as [_ Q]. destruct (n_mac n1) as [(A & x)|] eqn:EM; [|discriminate]. destruct Q as (_ & Q1 & Q2).
  assert (S1 : slice (ct ++ tg') 0 (length m) = ct) by (unfold slice; cbn [skipn]; rewrite firstn_app, LC, Nat.sub_diag, firstn_O, app_nil_r; apply firstn_all2; lia).
  assert (S2 : slice (ct ++ tg') (0 + length m) (b_tag c) = tg') by (unfold slice; rewrite skipn_app, skipn_all2 by lia; rewrite <- LC, Nat.add_0_l, Nat.sub_diag; cbn [skipn app]; apply firstn_all2; lia).
  assert (EC : crypt c n1 m = ct /\ tag_of c n1 A x ct = tg).
  { assert (LX : length (crypt c n1 m) = length ct) by (rewrite (crypt_length cf c HM) by apply N1; lia).
    assert (EQ : crypt c n1 m = ct). { apply (f_equal (firstn (length ct))) in EL. rewrite !firstn_app, LX, Nat.sub_diag, !firstn_O, !app_nil_r, firstn_all in EL. rewrite <- LX, firstn_all in EL. exact EL. }
    split; [exact EQ|]. rewrite EQ in EL. now apply app_inv_head in EL. }
  destruct EC as [_ EC]. rewrite S1, S2 in X4.
  destruct X4 as [(F & _)|(_ & -> & X4)]; [change (tg' = tag_of c n1 A x ct) in F; now elim NE; rewrite F|]. destruct rf; [|contradiction]. exists (XDone :: rc ++ re). cbn [app]. rewrite <- app_assoc. split; [reflexivity|].
  change (outs (XDone :: rc ++ re)) with (outs (rc ++ re)). rewrite outs_app, O', O2. apply app_nil_r.
Qed.
