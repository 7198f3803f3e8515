(** Glue for Properties_RCS.v: histories, schedules, conversations. *)
From Coq Require Import Permutation.
From Verif Require Import BaseLemmas Spec_Common Proofs_Common Proofs_GCM Spec_Keccak Proofs_Keccak Proofs_Sponge Proofs_SHA3 Proofs_XOF Proofs_KMAC Proofs_KMAC2 Session_KMAC Model_SHAKE Model_Absorb Proofs_Absorb
  Spec_ChaCha Proofs_ChaCha2 Model_ChaCha Spec_Stream Model_CSX Session_CSX Proofs_CSX2 Spec_AES Proofs_AES Spec_RCS Model_RCS Session_RCS Proofs_RCS3 Proofs_RCS4.
Open Scope Z_scope.

Lemma fitting_size w key iv : fitting w key iv = true -> In (length key) (w_sizes w) /\ length iv = w_B w.
Proof. unfold fitting. intros H. apply andb_true_iff in H. destruct H as [H1 H2]. split; [now apply existsb_In|now apply Nat.eqb_eq]. Qed.
Lemma value_le_nonneg l : bytes l -> 0 <= value_le l.
Proof. intros H. rewrite value_le_eq. pose proof (le_val_range l H). lia. Qed.

Section hist.
Context (fam : rfam) (w : wide).
Hypothesis HF : In (fam, w) wide_ciphers.
Lemma c57_hist p auth enc key iv info cs : wide_profile (w_B w) p -> bytes key -> bytes iv -> yinfo info -> fitting w key iv = true ->
  ycalls_ok w p auth enc (length key) (value_le (firstn 16 iv)) cs ->
  exists rs, yhistory fam p (R_new fam auth) (XInit enc key iv info :: cs) = Ok (XDone :: rs) /\ yexpected w auth (begun w auth [] enc key iv info) cs rs.
Proof.
  intros HP Bk Bi (Bf & Sf & Lf) HA HC. destruct (wm_all _ _ HF) as [nb HM]. cbn [yhistory ystep].
  destruct (yInit_ok fam w nb p auth HM HP (R_new fam auth) [] enc key iv info) as (o & E & CA); auto; [left; auto|].
  rewrite E. cbn [bind fst snd]. destruct (yhistory_ok fam w nb p auth HM HP cs o _ (value_le (firstn 16 iv)) CA) as (rs & -> & X); [apply Z.le_refl|exact HC|]. cbn [bind]. eauto.
Qed.
End hist.

Definition noprof : sprof := {| sp_par := false; sp_deg := 1; sp_min := 1; sp_blk := 1 |}.
Lemma noprof_ok B : wide_profile B noprof.
Proof. intros H. discriminate. Qed.

Section more.
Context (fam : rfam) (w : wide) (nb : nat) (auth : bool).
Hypothesis HM : wmatch fam w nb.
Lemma nok_of o n : yabs fam w nb auth o n -> nok w nb auth (y_size n) n.
Proof.
  intros CA. pose proof (pad_ok fam w nb auth HM o n CA) as HP. destruct CA as (_ & _ & _ & (_ & _ & HB & _) & _ & _ & _ & _ & _ & HM'). split; [split; [reflexivity|split; assumption]|].
  destruct (y_mac n) as [(A & m)|]; [|apply HM']. destruct HM' as (-> & _ & k & _ & (_ & K1 & K2)). split; [reflexivity|]. split; [exact K1|]. destruct (km_st k) as [[s buf] pos]. destruct K2 as (_ & B1 & _ & _ & bs & B2 & -> & _). apply Forall_app. split; [|now apply bytes_slice]. clear - B2. induction B2 as [|b bs [Hb _] H IH]; [constructor|]. cbn [concat]. apply Forall_app. auto.
Qed.
Definition custom_good (l : list Z) : Prop := bytes l /\ short l /\ (length l = 0 \/ 4 <= length l)%nat.
(** an object whose last custom string is any good one *)
Lemma some_before key iv prev : bytes key -> bytes iv -> fitting w key iv = true -> custom_good prev -> exists o, ybefore fam w nb auth o prev.
Proof.
  intros Bk Bi HA (P1 & P2 & P3). destruct prev as [|b t] eqn:E; [exists (R_new fam auth); left; auto|]. rewrite <- E in *.
  destruct (yInit_ok fam w nb noprof auth HM (noprof_ok _) (R_new fam auth) [] true key iv prev) as (o & _ & CA); auto; [left; auto|].
  exists o. right. exists (begun w auth [] true key iv prev). split; [exact CA|]. unfold begun, custom_of. cbn [y_custom]. subst prev. reflexivity.
Qed.
Lemma begun_ok prev enc key iv info : custom_good prev -> bytes key -> bytes iv -> yinfo info -> fitting w key iv = true ->
  nok w nb auth (length key) (begun w auth prev enc key iv info) /\ custom_good (y_custom (begun w auth prev enc key iv info)).
Proof.
  intros HP Bk Bi (Bf & Sf & Lf) HA. destruct (some_before key iv prev Bk Bi HA HP) as (o & HB).
  destruct (yInit_ok fam w nb noprof auth HM (noprof_ok _) o prev enc key iv info HB Bk Bi Bf Sf Lf HA) as (o' & _ & CA). split; [exact (nok_of o' _ CA)|].
  destruct CA as (_ & _ & (_ & C) & _). exact C.
Qed.
Lemma crypt_fit n inp io len (out : list Z) oo : nok w nb auth (y_size n) n -> (io + len <= length inp)%nat -> (oo + len <= length out)%nat -> (oo + length (ycrypt w n (slice inp io len)) <= length out)%nat.
Proof. intros [N _] H1 H2. rewrite (kcrypt_length fam w nb (y_size n) HM) by exact N. rewrite length_slice; lia. Qed.

Lemma determined p p' cs : forall n enc k hi hi' cs' rs rs', nok w nb auth k n -> In k (w_sizes w) -> custom_good (y_custom n) -> y_enc n = enc -> ycalls_ok w p auth enc k hi cs -> ycalls_ok w p' auth enc k hi' cs' ->
  map unscheduled cs = map unscheduled cs' -> yexpected w auth n cs rs -> yexpected w auth n cs' rs' -> rs = rs'.
Proof.
  induction cs as [|x cs IH]; intros n enc k hi hi' [|x' cs'] rs rs' N HI CL EN OK OK' E; try discriminate.
  - cbn [yexpected]. destruct rs, rs'; intuition.
  - cbn [map] in E. injection E as EX E. cbn [ycalls_ok] in OK, OK'. destruct OK as [O1 OK]. destruct OK' as [O1' OK']. destruct rs as [|r rs]; [destruct x; contradiction|]. destruct rs' as [|r' rs']; [destruct x'; intros _; contradiction|].
    destruct x as [e key iv info|inp off len|inp io out oo len ord|]; destruct x' as [e' key' iv' info'|inp' off' len'|inp' io' out' oo' len' ord'|]; try discriminate; cbn [unscheduled] in EX.
    + injection EX as <- <- <- <-. cbn [yexpected]. intros X X'. cbn [ycall_ok] in O1. destruct O1 as (B1 & B2 & B3 & B4 & B5). unfold fitting in OK, OK'. destruct (existsb (Nat.eqb (length key)) (w_sizes w)) eqn:K1; cbn [negb andb] in *; [|destruct X as [-> X], X' as [-> X']; f_equal; now apply (IH n enc k hi hi' cs')].
      destruct (length iv =? w_B w)%nat eqn:K2; cbn [negb andb] in *; [|destruct X as [-> X], X' as [-> X']; f_equal; now apply (IH n enc k hi hi' cs')].
      destruct X as [-> X], X' as [-> X']; f_equal. assert (HA : fitting w key iv = true) by (unfold fitting; now rewrite K1, K2).
      destruct (begun_ok (y_custom n) e key iv info CL B1 B2 (conj B3 (conj B4 B5)) HA) as [Q1 Q2].
      apply (IH (begun w auth (y_custom n) e key iv info) e (length key) (value_le (firstn 16 iv)) (value_le (firstn 16 iv)) cs'); auto. now apply existsb_In.
    + injection EX as <- <- <-. cbn [yexpected]. cbn [ycall_ok] in O1. destruct O1 as (B1 & B2). destruct (y_mac n) as [(A & m)|] eqn:EM; [|intros [-> X] [-> X']; f_equal; now apply (IH n enc k hi hi' cs')].
      destruct (len =? 0)%nat; intros [-> X] [-> X']; f_equal; [now apply (IH n enc k hi hi' cs')|]. apply (IH (yaad n A m (slice inp off len)) enc k hi hi' cs'); auto.
      assert (Q : nok w nb auth k (heard1 n (slice inp off len))) by (apply heard1_ok; [exact N|now apply bytes_slice]). unfold heard1 in Q. rewrite EM in Q. exact Q.
    + injection EX as <- <- <- <- <-. cbn [yexpected]. cbv zeta. cbn [ycall_ok] in O1. destruct O1 as (B1 & B2 & B3 & B4 & _).
      pose proof N as [(KS & KL) _]. assert (LI : (io + len <= length inp)%nat) by lia. pose proof (crypt_fit n inp io len out oo) as LF. rewrite KS in LF. specialize (LF N LI B4). set (data := slice inp io len) in *. assert (BD : bytes data) by now apply bytes_slice.
      assert (LD : length data = len) by (unfold data; rewrite length_slice; lia).
      assert (BC : bytes (ycrypt w n data)) by (apply (kcrypt_bytes fam w nb k HM); [apply N|exact BD]).
      pose proof N as [N1 N2]. rewrite KS. destruct (y_mac n) as [(A & m)|] eqn:EM.
      * destruct N2 as (N2 & N3 & N4). rewrite EN. destruct enc.
        -- destruct (Nat.ltb_spec (length out) (oo + len + w_tag w k)) as [LO|LO]; [intros [-> X] [-> X']; f_equal; now apply (IH n true k _ _ cs' _ _ N HI CL EN OK OK' E X X')|].
           destruct (tag_facts fam w nb k HM HI n A m (ycrypt w n data) N1 N3 N4 BC) as [T1 T2].
           intros [(o1 & -> & W1) X] [(o2 & -> & W2) X']. assert (LW : (oo + length (ycrypt w n data ++ ytag_of w n A m (ycrypt w n data)) <= length out)%nat) by (rewrite app_length, T1, (kcrypt_length fam w nb k HM), LD by exact N1; lia).
           f_equal; [f_equal; apply (written_unique out o1 o2 oo _ LW W1 W2)|].
           apply (IH (ymoved w (ytagged w n A m (ycrypt w n data)) len) true k _ _ cs' _ _ ltac:(split; [exact N1|]; cbn [ymoved ytagged y_mac]; split; [exact N2|]; split; [exact T2|constructor]) HI CL EN OK OK' E X X').
        -- destruct (tag_facts fam w nb k HM HI n A m data N1 N3 N4 BD) as [T1 T2].
           assert (NT : nok w nb auth k (ytagged w n A m data)) by (split; [exact N1|]; cbn [ytagged y_mac]; split; [exact N2|]; split; [exact T2|constructor]).
           intros [(Y & (o1 & -> & W1) & X)|(Y & -> & X)] [(Y' & (o2 & -> & W2) & X')|(Y' & -> & X')]; try contradiction; f_equal.
           ++ f_equal. apply (written_unique out o1 o2 oo _ LF W1 W2).
           ++ exact (IH (ymoved w (ytagged w n A m data) len) false k _ _ cs' _ _ NT HI CL EN OK OK' E X X').
           ++ exact (IH (ytagged w n A m data) false k _ _ cs' _ _ NT HI CL EN OK OK' E X X').
      * intros [(o1 & -> & W1) X] [(o2 & -> & W2) X']. f_equal; [f_equal; apply (written_unique out o1 o2 oo _ LF W1 W2)|].
        refine (IH (ymoved w n len) enc k _ _ cs' _ _ _ HI CL EN OK OK' E X X'). split; [exact N1|]. cbn [ymoved y_mac]. rewrite EM. exact N2.
    + cbn [yexpected]. destruct (y_mac n) as [(A & m)|]; intros [-> X] [-> X']; f_equal; now apply (IH n enc k hi hi' cs').
Qed.
End more.
Lemma nil_good : custom_good [].
Proof. split; [constructor|]. split; [red; cbn; lia|left; reflexivity]. Qed.
Lemma c57_schedule fam w p p' auth enc key iv info cs cs' : In (fam, w) wide_ciphers -> wide_profile (w_B w) p -> wide_profile (w_B w) p' -> bytes key -> bytes iv -> yinfo info -> fitting w key iv = true ->
  ycalls_ok w p auth enc (length key) (value_le (firstn 16 iv)) cs -> ycalls_ok w p' auth enc (length key) (value_le (firstn 16 iv)) cs' -> map unscheduled cs = map unscheduled cs' ->
  yhistory fam p (R_new fam auth) (XInit enc key iv info :: cs) = yhistory fam p' (R_new fam auth) (XInit enc key iv info :: cs').
Proof.
  intros HI HP HP' Bk Bi Bf HA HC HC' E. destruct (wm_all _ _ HI) as [nb HM]. destruct (c57_hist fam w HI p auth enc key iv info cs) as (rs & -> & X); auto. destruct (c57_hist fam w HI p' auth enc key iv info cs') as (rs' & -> & X'); auto.
  destruct (begun_ok fam w nb auth HM [] enc key iv info nil_good Bk Bi Bf HA) as [Q1 Q2].
  do 2 f_equal. eapply (determined fam w nb auth HM p p' cs); [exact Q1|apply (fitting_size _ _ _ HA)|exact Q2|reflexivity|exact HC|exact HC'|exact E|exact X|exact X'].
Qed.
(** * conversations *)
Lemma packet_bytes fam w nb auth k (HM : wmatch fam w nb) n m : nok w nb auth k n -> bytes m -> bytes (packet w n m).
Proof.
  intros N Bm. unfold packet. assert (B1 : bytes (ycrypt w n m)) by (apply (kcrypt_bytes fam w nb k HM); [apply N|exact Bm]). destruct (y_mac n) as [(A & x)|]; [|exact B1]. apply Forall_app. split; [exact B1|]. apply kmac_out_bytes.
Qed.
Section conv.
Context (fam : rfam) (w : wide) (nb : nat) (auth : bool) (k : nat) (p p' : sprof).
Hypothesis HM : wmatch fam w nb.
Hypothesis HI : In k (w_sizes w).
Let t := T w auth k.
Lemma aad_calls_ok q e hi l cs : Forall bytes (l_aad l) -> ycalls_ok w q auth e k hi cs -> ycalls_ok w q auth e k hi (aad_calls l ++ cs).
Proof. unfold aad_calls. induction 1; cbn [map app ycalls_ok]; [auto|]. intros HC. split; [|auto]. cbn [ycall_ok]. split; [assumption|lia]. Qed.
Lemma ysum_nonneg ls : 0 <= ysum (w_B w) ls.
Proof. unfold ysum. induction ls; cbn [fold_right]; lia. Qed.
Lemma seal_ok ls : Forall (yletter_ok (w_tag w k) auth p p') ls -> forall hi, (sp_par p = true -> hi + ysum (w_B w) ls <= 2 ^ 128) -> ycalls_ok w p auth true k hi (seal_calls t ls).
Proof.
  induction 1 as [|l ls (L1 & L2 & L3 & L4 & L5 & L6 & L7) H IH]; intros hi HS; [exact I|]. unfold seal_calls. cbn [flat_map]. rewrite <- app_assoc. apply aad_calls_ok; [exact L2|]. pose proof (ysum_nonneg ls).
  cbn [app ycalls_ok]. cbn [ysum fold_right] in HS. fold (ysum (w_B w) ls) in HS. split; [|apply IH; intros Q; specialize (HS Q); lia]. cbn [ycall_ok negb]. split; [exact L1|]. split; [apply bytes_zeros|]. rewrite length_zeros. rewrite andb_false_r. split; [lia|]. split; [lia|]. split; [red; lia|]. split; [|split; [exact L6|intros Q; specialize (HS Q); lia]].
  red. rewrite length_zeros. unfold t, T. destruct auth; lia.
Qed.
Lemma open_ok ls ps : Forall (yletter_ok (w_tag w k) auth p p') ls -> Forall2 (fun l x => bytes x /\ length x = (length (l_msg l) + t)%nat) ls ps ->
  forall hi, (sp_par p' = true -> hi + ysum (w_B w) ls <= 2 ^ 128) -> ycalls_ok w p' auth false k hi (open_calls t ls ps).
Proof.
  intros HL HF. induction HF as [|l x ls ps [B L] HF IH]; intros hi HS; [exact I|]. inversion HL as [|? ? (L1 & L2 & L3 & L4 & L5 & L6 & L7) HL']; subst. specialize (IH HL'). pose proof (ysum_nonneg ls).
  unfold open_calls. cbn [combine flat_map fst snd]. rewrite <- app_assoc. apply aad_calls_ok; [exact L2|].
  rewrite L. replace (length (l_msg l) + t - t)%nat with (length (l_msg l)) by lia. cbn [ysum fold_right] in HS. fold (ysum (w_B w) ls) in HS.
  cbn [app ycalls_ok]. split; [|apply IH; intros Q; specialize (HS Q); lia]. cbn [ycall_ok negb]. split; [exact B|]. split; [apply bytes_zeros|]. rewrite length_zeros, L. rewrite andb_true_r. unfold t, T in *. split; [destruct auth; lia|]. split; [lia|]. split; [red; rewrite L; destruct auth; lia|]. split; [red; rewrite length_zeros; lia|]. split; [exact L7|intros Q; specialize (HS Q); lia].
Qed.
Lemma lok_of ls : Forall (yletter_ok (w_tag w k) auth p p') ls -> Forall (lok auth) ls.
Proof. apply Forall_impl. intros l (L1 & L2 & L3 & L4 & _). repeat split; auto. Qed.
Lemma packets_ok ls : Forall (lok auth) ls -> forall n, nok w nb auth k n -> Forall2 (fun l x => bytes x /\ length x = (length (l_msg l) + t)%nat) ls (packets w n ls).
Proof.
  induction 1 as [|l ls (L1 & L2 & L3 & L4) H IH]; intros n N; cbn [packets]; constructor.
  - pose proof (heard_ok w nb auth k n l N L2) as N1. split; [now apply (packet_bytes fam w nb auth k HM)|]. now apply (packet_len fam w nb auth k HM HI).
  - apply IH. apply (sent1_ok fam w nb auth k HM HI); [|exact L1]. now apply (heard_ok w nb auth k).
Qed.
End conv.
Lemma c57_talk fam w auth p p' key iv info ls : In (fam, w) wide_ciphers -> wide_profile (w_B w) p -> wide_profile (w_B w) p' -> bytes key -> bytes iv -> yinfo info -> fitting w key iv = true ->
  Forall (yletter_ok (w_tag w (length key)) auth p p') ls -> yroom w p iv ls -> yroom w p' iv ls -> let t := if auth then w_tag w (length key) else 0%nat in
  exists rs rs', yhistory fam p (R_new fam auth) (XInit true key iv info :: seal_calls t ls) = Ok rs /\ map (@length Z) (outs rs) = map (fun l => (length (l_msg l) + t)%nat) ls /\
    yhistory fam p' (R_new fam auth) (XInit false key iv info :: open_calls t ls (outs rs)) = Ok rs' /\ outs rs' = map l_msg ls.
Proof.
  intros HI HP HP' Bk Bi Bf HA HL HR HR' t. change t with (T w auth (length key)). destruct (wm_all _ _ HI) as [nb HM]. pose proof (proj1 (fitting_size _ _ _ HA)) as Hk. set (k := length key) in *. pose proof (lok_of w auth k p p' ls HL) as HK.
  destruct (c57_hist fam w HI p auth true key iv info (seal_calls (T w auth k) ls)) as (rs & E & X); auto; [now apply (seal_ok w auth k p p')|]. rewrite E.
  set (n := begun w auth [] true key iv info) in *. assert (N : nok w nb auth k n) by apply (begun_ok fam w nb auth HM [] true key iv info nil_good Bk Bi Bf HA).
  rewrite <- (app_nil_r (seal_calls _ _)) in X. destruct (seal_run fam w nb auth k HM Hk ls HK n [] rs N eq_refl X) as (ra & rb & -> & O & N2 & _ & X2). destruct rb; [|contradiction]. rewrite app_nil_r in *.
  pose proof (packets_ok fam w nb auth k HM Hk ls HK n N) as HF.
  destruct (c57_hist fam w HI p' auth false key iv info (open_calls (T w auth k) ls (packets w n ls))) as (rs' & E' & X'); auto; [now apply (open_ok w auth k p p')|].
  exists (XDone :: ra), (XDone :: rs'). change (outs (XDone :: ra)) with (outs ra). rewrite O. split; [reflexivity|]. split.
  { clear - HF. induction HF as [|l x ls ps [_ L] HF IH]; [reflexivity|]. cbn [map]. now rewrite IH, L. }
  split; [exact E'|]. rewrite <- (app_nil_r (open_calls _ _ _)) in X'. change (begun w auth [] false key iv info) with (turn false n) in X'.
  destruct (open_run fam w nb auth k HM Hk ls HK n [] rs' N X') as (rc & rd & -> & O' & _ & X3). destruct rd; [|contradiction]. rewrite app_nil_r. exact O'.
Qed.
(** a different tag is refused *)
Lemma packets_app w ls : forall n l, packets w n (ls ++ [l]) = packets w n ls ++ [packet w (heard (sent w n ls) l) (l_msg l)].
Proof. induction ls as [|x ls IH]; intros n l; [reflexivity|]. cbn [app packets sent]. rewrite IH. reflexivity. Qed.
Lemma c57_tamper fam w p p' key iv info ls l ps ct tg tg' : In (fam, w) wide_ciphers -> wide_profile (w_B w) p -> wide_profile (w_B w) p' -> bytes key -> bytes iv -> yinfo info -> fitting w key iv = true ->
  let tag := w_tag w (length key) in Forall (yletter_ok tag true p p') (ls ++ [l]) -> yroom w p iv (ls ++ [l]) -> yroom w p' iv (ls ++ [l]) -> length tg = tag -> length tg' = tag -> bytes tg' -> tg' <> tg ->
  forall rs, yhistory fam p (R_new fam true) (XInit true key iv info :: seal_calls tag (ls ++ [l])) = Ok rs -> outs rs = ps ++ [ct ++ tg] ->
  exists rs', yhistory fam p' (R_new fam true) (XInit false key iv info :: open_calls tag (ls ++ [l]) (ps ++ [ct ++ tg'])) = Ok (rs' ++ [XFail AuthenticationFailure (zeros (length (l_msg l)))]) /\ outs rs' = map l_msg ls.
Proof.
  intros HI HP HP' Bk Bi Bf HA tag HL HR HR' L1 L2 B2 NE rs E0 EO. destruct (wm_all _ _ HI) as [nb HM]. pose proof (proj1 (fitting_size _ _ _ HA)) as Hk. set (k := length key) in *. pose proof (lok_of w true k p p' _ HL) as HK.
  destruct (c57_hist fam w HI p true true key iv info (seal_calls tag (ls ++ [l]))) as (ra & E & X); auto; [now apply (seal_ok w true k p p')|]. rewrite E in E0. injection E0 as <-. change (outs (XDone :: ra)) with (outs ra) in EO.
  set (n := begun w true [] true key iv info) in *. assert (N : nok w nb true k n) by apply (begun_ok fam w nb true HM [] true key iv info nil_good Bk Bi Bf HA).
  rewrite <- (app_nil_r (seal_calls _ _)) in X. destruct (seal_run fam w nb true k HM Hk _ HK n [] ra N eq_refl X) as (rb & rx & -> & O & N2 & _ & X2). destruct rx; [|contradiction]. rewrite app_nil_r in *.
  rewrite O, packets_app in EO. apply app_inj_tail in EO. destruct EO as [EP EL].
  apply Forall_app in HK. destruct HK as [HK HKl]. inversion HKl as [|? ? Hl _]; subst. pose proof (packets_ok fam w nb true k HM Hk ls HK n N) as HF. pose proof Hl as (Bm & Ba & _).
  assert (NS : nok w nb true k (sent w n ls)).
  { clear - HK N HM Hk. clearbody n. revert n N. induction HK as [|l ls (L1 & L2 & _) H IH]; intros n N; [exact N|]. cbn [sent]. apply IH. apply (sent1_ok fam w nb true k HM Hk); [|exact L1]. now apply (heard_ok w nb true k). }
  pose proof (heard_ok w nb true k _ l NS Ba) as N1. set (n1 := heard (sent w n ls) l) in *. set (m := l_msg l) in *. pose proof (packet_len fam w nb true k HM Hk n1 m N1 Bm) as PL.
  pose proof (packet_bytes fam w nb true k HM n1 m N1 Bm) as PB. unfold T in PL. rewrite EL in PL, PB. fold tag in PL. rewrite app_length, L1 in PL. assert (LC : length ct = length m) by lia.
  assert (BC : bytes ct) by (apply Forall_app in PB; apply PB).
  assert (OKc : ycalls_ok w p' true false k (value_le (firstn 16 iv)) (open_calls tag (ls ++ [l]) (packets w n ls ++ [ct ++ tg']))).
  { apply (open_ok w true k p p'); [exact HL| |exact HR']. apply Forall2_app; [exact HF|]. constructor; [|constructor]. unfold T. rewrite app_length, LC, L2. split; [apply Forall_app; auto|reflexivity]. }
  destruct (c57_hist fam w HI p' true false key iv info _ HP' Bk Bi Bf HA OKc) as (rs' & E' & X'). rewrite E'. change (begun w true [] false key iv info) with (turn false n) in X'.
  assert (SP : open_calls tag (ls ++ [l]) (packets w n ls ++ [ct ++ tg']) = open_calls (T w true k) ls (packets w n ls) ++ open_calls tag [l] [ct ++ tg']).
  { unfold open_calls, T. rewrite <- flat_map_app. f_equal. clear - HF. induction HF; [reflexivity|]. cbn [app combine]. now rewrite IHHF. }
  rewrite SP in X'. destruct (open_run fam w nb true k HM Hk ls HK n _ rs' N X') as (rc & rd & -> & O' & _ & X3).
  unfold open_calls in X3. cbn [combine flat_map fst snd] in X3. rewrite app_nil_r in X3. destruct (aads_run w nb true k l Hl _ _ rd (turn_ok w nb true k false _ NS) X3) as (re & rf & -> & O2 & X4). rewrite heard_turn in X4. fold n1 in X4.
  replace (length (ct ++ tg') - tag)%nat with (length m) in X4 by (rewrite app_length; lia). destruct rf as [|r rf]; [contradiction|]. cbn [yexpected turn y_mac y_enc] in X4. cbv zeta in X4.
  unfold packet in EL. pose proof N1 as [(EK & _) Q]. change (y_size (turn false n1)) with (y_size n1) in X4. rewrite EK in X4. destruct (y_mac n1) as [(A & x)|] eqn:EM; [|discriminate]. destruct Q as (_ & Q1 & Q2).
  assert (S1 : slice (ct ++ tg') 0 (length m) = ct) by (unfold slice; cbn [skipn]; rewrite firstn_app, LC, Nat.sub_diag, firstn_O, app_nil_r; apply firstn_all2; lia).
  assert (S2 : slice (ct ++ tg') (0 + length m) (w_tag w k) = tg') by (unfold slice; rewrite skipn_app, skipn_all2 by lia; rewrite <- LC, Nat.add_0_l, Nat.sub_diag; cbn [skipn app]; apply firstn_all2; unfold tag in *; lia).
  assert (EC : ycrypt w n1 m = ct /\ ytag_of w n1 A x ct = tg).
  { assert (LX : length (ycrypt w n1 m) = length ct) by (rewrite (kcrypt_length fam w nb k HM) by apply N1; lia).
    assert (EQ : ycrypt w n1 m = ct). { apply (f_equal (firstn (length ct))) in EL. rewrite !firstn_app, LX, Nat.sub_diag, !firstn_O, !app_nil_r, firstn_all in EL. rewrite <- LX, firstn_all in EL. exact EL. }
    split; [exact EQ|]. rewrite EQ in EL. now apply app_inv_head in EL. }
  destruct EC as [_ EC]. rewrite S1, S2 in X4.
  destruct X4 as [(F & _)|(_ & -> & X4)]; [change (tg' = ytag_of w n1 A x ct) in F; now elim NE; rewrite F|]. destruct rf; [|contradiction]. exists (XDone :: rc ++ re). cbn [app]. rewrite <- app_assoc. split; [reflexivity|].
  change (outs (XDone :: rc ++ re)) with (outs (rc ++ re)). rewrite outs_app, O', O2. apply app_nil_r.
Qed.
