(** Glue for Properties_RCS.v: Serialize after other calls, objects that are initialised again. *)
From Coq Require Import Permutation.
From Verif Require Import BaseLemmas Model_IntegerTools Spec_Common Proofs_Common Proofs_GCM Spec_Keccak Proofs_Keccak Proofs_Sponge Proofs_SHA3 Proofs_XOF Proofs_KMAC Proofs_KMAC2 Session_KMAC Model_SHAKE Model_Absorb Proofs_Absorb
  Spec_ChaCha Proofs_ChaCha2 Model_ChaCha Spec_Stream Model_CSX Session_CSX Proofs_CSX2 Spec_AES Proofs_AES Proofs_Windows Model_Modes Model_KDF Proofs_KDF Spec_RCS Model_RCS Session_RCS Proofs_RCS Proofs_RCS2 Proofs_RCS3 Proofs_RCS4 ProofsP_RCS ProofsP_RCS2.
Open Scope Z_scope.

(** what Initialize leaves in the parts the other calls never change *)
Definition fixed (fam : rfam) (auth : bool) (k : nat) (o : robj) : Prop :=
  (length (r_name o) <= 17)%nat /\ r_amode o = (if auth then f_amode fam k else 0) /\ r_smode o = f_smode fam k /\
  if auth then (1 <= length (r_mkey o) <= 190)%nat /\ exists m, KMAC_Initialize (kmac_rate (r_amode o)) KMAC_new (r_mkey o) [] [] = Ok m /\ r_mac o = Some (r_amode o, m)
  else r_mkey o = [] /\ r_mac o = None.
Lemma init_fixed fam w nb p auth enc key iv info o : wmatch fam w nb -> wide_profile (w_B w) p -> bytes key -> bytes iv -> yinfo info -> fitting w key iv = true ->
  R_Initialize fam p (R_new fam auth) enc key iv info = Ok (o, None) -> fixed fam auth (length key) o.
Proof.
  intros HM HP Bk Bi (Bf & Sf & Lf) HA. destruct (fitting_size _ _ _ HA) as [Hk Hi]. rewrite init_profile.
  2:{ intros Q. destruct (HP Q) as (P1 & P2 & P3 & P4 & P5 & P6 & _). auto. }
  destruct (V_size _ _ _ HM _ Hk) as (K1 & K2 & K3 & K4 & K5 & K6 & K7 & K8 & K9 & K10 & K11).
  unfold R_Initialize. rewrite (V_legal _ _ _ HM), (proj2 (existsb_In _ _) Hk), (V_B _ _ _ HM), Hi, (V_Bw _ _ _ HM), Nat.eqb_refl. change (sp_par noprof) with false. cbn [negb andb safe bind]. cbn [R_new r_init bind r_auth r_custom]. cbv zeta.
  assert (LN : length (r_nonce (R_new fam auth)) = (4 * nb)%nat) by (unfold R_new; cbn [r_nonce]; rewrite length_zeros; apply (V_B _ _ _ HM)).
  assert (CU : (if (length info =? 0)%nat then Ok [] else wcopy info 0 (resized [] (length info)) 0 (length info)) = Ok info).
  { destruct (Nat.eqb_spec (length info) 0) as [E|E]; [destruct info; [reflexivity|discriminate]|]. rewrite wcopy_ok by (rewrite ?resized_len; lia). rewrite slice_all by reflexivity. rewrite splice_all by (rewrite resized_len; reflexivity). reflexivity. }
  rewrite CU. cbn [bind]. rewrite wcopy_ok by (rewrite ?LN, ?Hi, ?(V_Bw _ _ _ HM); lia). cbn [bind]. set (k := length key) in *.
  assert (NM : le_bytes 8 (f_start fam) ++ le_bytes 2 (u16 (Z.of_nat (k * 8))) ++ f_name fam (if auth then (if auth then f_amode fam k else r_amode (R_new fam auth)) else 0) = full_name w auth k).
  { unfold full_name. rewrite (V_first _ _ _ HM). f_equal. replace (u16 (Z.of_nat (k * 8))) with (8 * Z.of_nat k) by (unfold u16; rewrite Z.mod_small; lia). f_equal. destruct auth; auto. }
  rewrite NM, K2. destruct (ykeys fam w nb HM auth key info Hk Bk Bf Sf Lf) as (g & g1 & g2 & E1 & E2 & E3 & L1 & L2). fold k in E1, E2, E3, L1, L2. rewrite E1.
  replace (4 * nb / 4)%nat with nb by (rewrite Nat.mul_comm, Nat.div_mul; lia). rewrite K1.
  assert (KB : (nb * (w_rounds w k + 1) * 4 = key_bytes w k)%nat) by (unfold key_bytes; rewrite (V_Bw _ _ _ HM); lia). rewrite KB, E2. cbn [bind].
  assert (LF : (length (full_name w auth k) <= 17)%nat) by (unfold full_name; rewrite !app_length, !length_le_bytes; pose proof (proj2 (V_label _ _ _ HM auth k)); lia).
  destruct (be_words _ _ _) as [rk| |]; cbn [bind]; try discriminate. destruct auth.
  - rewrite K4, E3. cbn [bind]. rewrite K3. destruct (KMAC_Initialize _ _ _ _ _) as [m| |] eqn:EK; cbn [bind]; try discriminate. intros [= <-]. red. cbn [r_name r_amode r_smode r_mkey r_mac].
    split; [exact LF|]. split; [reflexivity|]. split; [reflexivity|]. split; [rewrite L2; lia|]. exists m. rewrite K3. split; [exact EK|reflexivity].
  - intros [= <-]. red. cbn [r_name r_amode r_smode r_mkey r_mac R_new]. split; [exact LF|]. repeat split.
Qed.

(** what calls other than Initialize keep *)
Definition rkeeps (o o' : robj) : Prop := r_mkey o' = r_mkey o /\ r_name o' = r_name o /\ r_amode o' = r_amode o /\ r_smode o' = r_smode o /\ r_custom o' = r_custom o.
Lemma rkeeps_refl o : rkeeps o o. Proof. repeat split. Qed.
Lemma rkeeps_trans a b d : rkeeps a b -> rkeeps b d -> rkeeps a d. Proof. intros (A1 & A2 & A3 & A4 & A5) (B1 & B2 & B3 & B4 & B5). repeat split; congruence. Qed.
Definition rkeep (o : robj) (r : rres) : Prop := forall o' out e, r = Ok (o', out, e) -> rkeeps o o'.
Lemma rkeep_then o r f : rkeep o r -> (forall o' out, rkeeps o o' -> rkeep o (f o' out)) -> rkeep o (rthen r f).
Proof. intros H1 H2 o' out e. unfold rthen. destruct r as [[[o1 x1] [e1|]]| |] eqn:E; try discriminate; [intros [= <- <- <-]; eapply H1; reflexivity|]. intros X. eapply H2; [eapply H1; reflexivity|exact X]. Qed.
Lemma rkeep_mac o0 o out inp io len : rkeeps o0 o -> rkeep o0 (R_mac o out inp io len).
Proof. intros K o' x e. unfold R_mac. destruct (r_mac o) as [[a m]|]; [|discriminate]. destruct (KMAC_Update _ _ _ _ _); try discriminate; intros [= <- <- <-]; [|exact K]. eapply rkeeps_trans; [exact K|]. repeat split. Qed.
Lemma rkeep_proc fam p ord o0 o inp io out oo len : rkeeps o0 o -> rkeep o0 (R_proc fam p ord o inp io out oo len).
Proof. intros K o' x e. unfold R_proc. destruct (W_Process _ _ _ _ _ _ _ _ _ _) as [[a b]| |]; cbn [bind]; try discriminate. intros [= <- <- <-]. eapply rkeeps_trans; [exact K|]. repeat split. Qed.
Lemma rkeep_add o0 o len : rkeeps o0 o -> rkeeps o0 (R_add o len).
Proof. intros K. eapply rkeeps_trans; [exact K|]. repeat split. Qed.
Lemma rkeep_fin o0 o out : rkeeps o0 o -> rkeep o0 (R_Finalize o out).
Proof.
  intros K. unfold R_Finalize. apply rkeep_then; [now apply rkeep_mac|]. intros o1 x1 K1 o' x e. destruct (r_mac o1) as [[a m]|]; [|discriminate]. destruct (KMAC_Finalize _ _ _ _ _) as [[m1 t]| |]; try discriminate; intros [= <- <- <-]; [|exact K1].
  eapply rkeeps_trans; [exact K1|]. repeat split.
Qed.
Lemma rkeep_transform fam p ord o inp io out oo len : rkeep o (R_Transform fam p ord o inp io out oo len).
Proof.
  pose proof (rkeeps_refl o) as K. unfold R_Transform. destruct (r_enc o), (r_auth o); try (now apply rkeep_proc).
  - destruct (r_mac o) as [[a m]|]; [|intros ? ? ?; discriminate]. destruct (_ <? _); [intros ? ? ? [= <- <- <-]; exact K|].
    apply rkeep_then; [now apply rkeep_mac|]. intros. apply rkeep_then; [now apply rkeep_proc|]. intros. apply rkeep_then; [now apply rkeep_mac|]. intros. apply rkeep_then; [apply rkeep_fin; now apply rkeep_add|].
    intros o4 x4 K4 o5 x e. destruct (wcopy _ _ _ _ _); cbn [bind]; try discriminate. intros [= <- <- <-]. exact K4.
  - apply rkeep_then; [now apply rkeep_mac|]. intros. apply rkeep_then; [now apply rkeep_mac|]. intros. apply rkeep_then; [apply rkeep_fin; now apply rkeep_add|]. intros o4 x4 K4 o5 x e.
    destruct (Compare _ _ _ _ _) as [[|]| |]; cbn [bind]; try discriminate; [now apply rkeep_proc|]. intros [= <- <- <-]. exact K4.
Qed.
Lemma rkeep_aad o inp off len : rkeep o (R_SetAssociatedData o inp off len).
Proof.
  pose proof (rkeeps_refl o) as K. unfold R_SetAssociatedData. destruct (negb (r_init o)); [intros ? ? ? [= <- <- <-]; exact K|]. destruct (r_mac o) as [q|] eqn:EQ; [|intros ? ? ? [= <- <- <-]; exact K].
  destruct (len =? 0)%nat; [intros ? ? ? [= <- <- <-]; exact K|]. destruct (r_auth o); [|intros ? ? ? [= <- <- <-]; exact K]. apply rkeep_then; [now apply rkeep_mac|]. intros. now apply rkeep_mac.
Qed.
Lemma rkeep_step fam p o x o' r : other_call x -> ystep fam p o x = Ok (o', r) -> rkeeps o o'.
Proof.
  assert (R : forall q (y : rres), rkeep o y -> yreturn q y = Ok (o', r) -> rkeeps o o').
  { intros q y H. destruct y as [[[o1 x1] [e|]]| |]; cbn [yreturn]; try discriminate; intros [= <- <-]; eapply H; reflexivity. }
  destruct x; cbn [ystep other_call]; try contradiction; intros _.
  - apply R. apply rkeep_aad.
  - apply R. apply rkeep_transform.
  - destruct (R_Tag o); try discriminate; intros [= <- <-]; apply rkeeps_refl.
Qed.
Lemma yend_ok fam w nb p auth (HM : wmatch fam w nb) (HP : wide_profile (w_B w) p) cs : forall o n hi, yabs fam w nb auth o n -> y_pos n <= hi -> Forall other_call cs -> ycalls_ok w p auth (y_enc n) (y_size n) hi cs ->
  exists o' n', yend fam p o cs = Ok o' /\ yabs fam w nb auth o' n' /\ y_size n' = y_size n /\ rkeeps o o'.
Proof.
  induction cs as [|x cs IH]; intros o n hi CA HH HO HC; [exists o, n; split; [reflexivity|]; split; [exact CA|]; split; [reflexivity|apply rkeeps_refl]|]. cbn [ycalls_ok] in HC. destruct HC as [Hx HC]. inversion HO as [|? ? Ox HO']; subst. cbn [yend].
  destruct (ystep_ok fam w nb p auth HM HP o n x cs hi CA HH Hx) as (o1 & n1 & r & E & CA1 & EE & _). rewrite E. cbn [bind fst].
  assert (X : exists hi', y_pos n1 <= hi' /\ ycalls_ok w p auth (y_enc n1) (y_size n1) hi' cs /\ y_size n1 = y_size n).
  { destruct x; cbn [yturned] in EE; [contradiction| | |]; destruct EE as (-> & -> & EP); eexists; (split; [exact EP|split; [exact HC|reflexivity]]). }
  destruct X as (hi' & HH' & HC' & SZ). destruct (IH o1 n1 hi' CA1 HH' HO' HC') as (o' & n' & E' & CA' & SZ' & K). exists o', n'. split; [exact E'|]. split; [exact CA'|]. split; [congruence|].
  eapply rkeeps_trans; [|exact K]. now apply (rkeep_step fam p o x o1 r).
Qed.
Lemma restored fam w auth nb o o' n : In (fam, w) wide_ciphers -> wmatch fam w nb -> yabs fam w nb auth o' n -> fixed fam auth (y_size n) o -> rkeeps o o' -> Z.of_nat (length (y_custom n)) < 65536 ->
  R_restore fam (R_Serialize o') = Ok (set_rmac o' (r_mac o)).
Proof.
  intros HI HM CA (F1 & F2 & F3 & F4) (K1 & K2 & K3 & K4 & K5) HU. destruct CA as (C1 & (C2 & C2' & C2w & C2r) & (C3 & _) & (C4 & C4l & _) & (C5 & C5') & C6 & C7 & C8 & C9 & C10).
  destruct (V_size _ _ _ HM _ C1) as (S1 & S2 & S3 & S4 & S5 & S6 & S7 & S8 & S9 & S10 & S11). pose proof (V_nb _ _ _ HM) as NB.
  assert (LT : (length (y_tag n) <= 190)%nat) by (destruct (y_mac n) as [(A & m)|]; [destruct C10 as (_ & -> & _); lia|destruct C10 as (_ & -> & _); cbn; lia]).
  assert (LK : (length (r_mkey o) <= 190)%nat) by (destruct auth; [apply F4|destruct F4 as (-> & _); cbn; lia]).
  assert (LN : length (r_nonce o') = (4 * nb)%nat) by (rewrite C4; unfold nonce_at; rewrite app_length, length_le_bytes, C4l; lia).
  assert (LR : (length (r_rk o') <= 16 * 81)%nat) by (rewrite C2'; clear - NB S11; nia).
  assert (MD : is_byte (r_amode o') /\ is_byte (r_smode o') /\ (auth = true -> r_amode o' =? 0 = false /\ (r_amode o' =? 16) || (r_amode o' =? 17) || (r_amode o' =? 18) = true)).
  { rewrite K3, K4, F2, F3. clear - HI C1. revert C1. generalize (y_size n). destruct HI as [HI|[HI|[]]]; injection HI as <- <-; intros k Hk; cbn in Hk.
    - destruct Hk as [<-|[<-|[]]]; destruct auth; (split; [cbn; red; lia|]; split; [cbn; red; lia|]; intros Q; first [discriminate Q|cbn; auto]).
    - destruct Hk as [<-|[<-|[<-|[]]]]; destruct auth; (split; [cbn; red; lia|]; split; [cbn; red; lia|]; intros Q; first [discriminate Q|cbn; auto]). }
  destruct MD as (M1 & M2 & M3).
  assert (TH : (f_thresh fam < length (R_Serialize o'))%nat).
  { rewrite serial_len, C2'. clear - HI C1 HM. revert C1. generalize (y_size n). assert (B := V_B _ _ _ HM). destruct HI as [HI|[HI|[]]]; injection HI as <- <-; cbn in B; intros k Hk; cbn in Hk.
    - replace nb with 8%nat by lia. destruct Hk as [<-|[<-|[]]]; cbn [rcs w_rounds rcs_fam f_thresh Nat.eqb]; lia.
    - replace nb with 16%nat by lia. destruct Hk as [<-|[<-|[<-|[]]]]; cbn [rws w_rounds rws_fam f_thresh Nat.eqb]; lia. }
  rewrite restore_ok; auto.
  - assert (X : (if r_amode o' =? 0 then Ok None
          else
            _ <- guard ((r_amode o' =? 16) || (r_amode o' =? 17) || (r_amode o' =? 18)) InvalidParam ;;
            _ <- guard (negb (length (r_mkey o') =? 0)%nat) InvalidParam ;;
            m <- KMAC_Initialize (kmac_rate (r_amode o')) KMAC_new (r_mkey o') [] [] ;; Ok (Some (r_amode o', m))) = Ok (r_mac o)).
    { destruct auth.
      - destruct M3 as [M3 M4]; [reflexivity|]. rewrite M3, M4. cbn [guard bind]. destruct F4 as (F4 & m & F5 & F6). rewrite K1, K3. replace (length (r_mkey o) =? 0)%nat with false by (symmetry; apply Nat.eqb_neq; lia). cbn [negb guard bind]. rewrite F5, F6. reflexivity.
      - rewrite K3, F2. destruct F4 as (_ & ->). reflexivity. }
    rewrite X. cbn [bind]. unfold set_rmac. reflexivity.
  - clear - LR. lia.
  - now rewrite C3.
  - rewrite K1. clear - LK. lia.
  - rewrite C9. clear - LT. lia.
  - rewrite K2. clear - F1. lia.
  - rewrite LN. clear - NB. lia.
  - now rewrite C5.
  - rewrite C2r. clear - S11. lia.
Qed.
Lemma c57_serial fam w p auth enc key iv info o cs : In (fam, w) wide_ciphers -> wide_profile (w_B w) p -> bytes key -> bytes iv -> yinfo info -> Z.of_nat (length info) < 65536 -> fitting w key iv = true ->
  R_Initialize fam p (R_new fam auth) enc key iv info = Ok (o, None) -> Forall other_call cs -> ycalls_ok w p auth enc (length key) (value_le (firstn 16 iv)) cs ->
  exists o', yend fam p o cs = Ok o' /\ R_restore fam (R_Serialize o') = Ok (set_rmac o' (r_mac o)).
Proof.
  intros HI HP Bk Bi Yf Lf HA E HO HC. destruct (wm_all _ _ HI) as [nb HM]. pose proof (init_fixed fam w nb p auth enc key iv info o HM HP Bk Bi Yf HA E) as F.
  destruct Yf as (Bf & Sf & Lf'). destruct (yInit_ok fam w nb p auth HM HP (R_new fam auth) [] enc key iv info) as (o1 & E1 & CA); auto; [left; auto|]. rewrite E in E1. injection E1 as <-.
  destruct (yend_ok fam w nb p auth HM HP cs o _ (value_le (firstn 16 iv)) CA) as (o' & n' & E' & CA' & SZ' & K); auto; [apply Z.le_refl|]. exists o'. split; [exact E'|].
  assert (SZ : y_size n' = length key /\ y_custom n' = custom_of [] info).
  { split; [exact SZ'|destruct CA' as (_ & _ & (X & _) & _); rewrite <- X, (proj2 (proj2 (proj2 (proj2 K)))); apply CA]. }
  destruct SZ as [SZ SC]. apply (restored fam w auth nb o o' n'); auto; [now rewrite SZ|]. rewrite SC. destruct info; exact Lf.
Qed.

(** * Initialize again *)
Lemma reinit fam w p auth enc key iv info o cs o' : In (fam, w) wide_ciphers -> wide_profile (w_B w) p -> bytes key -> bytes iv -> yinfo info -> fitting w key iv = true ->
  R_Initialize fam p (R_new fam auth) enc key iv info = Ok (o, None) -> Forall other_call cs -> ycalls_ok w p auth enc (length key) (value_le (firstn 16 iv)) cs -> yend fam p o cs = Ok o' ->
  forall enc2 key2 iv2 info2 info3 cs2, bytes key2 -> bytes iv2 -> yinfo info2 -> yinfo info3 -> fitting w key2 iv2 = true -> ycalls_ok w p auth enc2 (length key2) (value_le (firstn 16 iv2)) cs2 ->
    custom_of info info2 = custom_of [] info3 ->
    yhistory fam p o' (XInit enc2 key2 iv2 info2 :: cs2) = yhistory fam p (R_new fam auth) (XInit enc2 key2 iv2 info3 :: cs2).
Proof.
  intros HI HP Bk Bi (Bf & Sf & Lf) HA E HO HC EE enc2 key2 iv2 info2 info3 cs2 Bk2 Bi2 Yf2 Yf3 HA2 HC2 CU. destruct (wm_all _ _ HI) as [nb HM].
  destruct (yInit_ok fam w nb p auth HM HP (R_new fam auth) [] enc key iv info) as (o1 & E1 & CA); auto; [left; auto|]. rewrite E in E1. injection E1 as <-.
  destruct (yend_ok fam w nb p auth HM HP cs o _ (value_le (firstn 16 iv)) CA) as (o2 & n' & E' & CA' & SZ' & K); auto; [apply Z.le_refl|]. rewrite EE in E'. injection E' as <-.
  assert (SC : y_custom n' = info) by (destruct CA' as (_ & _ & (X & _) & _); rewrite <- X, (proj2 (proj2 (proj2 (proj2 K)))); rewrite (proj1 (proj1 (proj2 (proj2 CA)))); destruct info; reflexivity).
  destruct (c57_hist fam w HI p auth enc2 key2 iv2 info3 cs2) as (rs & -> & X); auto. cbn [yhistory ystep].
  destruct Yf2 as (B2 & S2 & L2). destruct (yInit_ok fam w nb p auth HM HP o' info enc2 key2 iv2 info2) as (o3 & -> & CB); auto; [right; exists n'; auto|]. cbn [bind fst snd].
  destruct (yhistory_ok fam w nb p auth HM HP cs2 o3 _ (value_le (firstn 16 iv2)) CB) as (rs' & -> & X'); [apply Z.le_refl|exact HC2|]. cbn [bind]. do 2 f_equal.
  assert (BB : begun w auth info enc2 key2 iv2 info2 = begun w auth [] enc2 key2 iv2 info3) by (unfold begun; cbv zeta; rewrite CU; reflexivity). rewrite BB in X'.
  destruct (begun_ok fam w nb auth HM [] enc2 key2 iv2 info3 nil_good Bk2 Bi2 Yf3 HA2) as [Q1 Q2].
  eapply (determined fam w nb auth HM p p cs2); [exact Q1|apply (fitting_size _ _ _ HA2)|exact Q2|reflexivity|exact HC2|exact HC2|reflexivity|exact X'|exact X].
Qed.
Lemma c57_reinit fam w p auth enc key iv info o cs o' : In (fam, w) wide_ciphers -> wide_profile (w_B w) p -> bytes key -> bytes iv -> yinfo info -> fitting w key iv = true ->
  R_Initialize fam p (R_new fam auth) enc key iv info = Ok (o, None) -> Forall other_call cs -> ycalls_ok w p auth enc (length key) (value_le (firstn 16 iv)) cs -> yend fam p o cs = Ok o' ->
  forall enc2 key2 iv2 info2 cs2, bytes key2 -> bytes iv2 -> yinfo info2 -> (info2 <> [] \/ info = []) -> fitting w key2 iv2 = true -> ycalls_ok w p auth enc2 (length key2) (value_le (firstn 16 iv2)) cs2 ->
    yhistory fam p o' (XInit enc2 key2 iv2 info2 :: cs2) = yhistory fam p (R_new fam auth) (XInit enc2 key2 iv2 info2 :: cs2).
Proof.
  intros HI HP Bk Bi Yf HA E HO HC EE enc2 key2 iv2 info2 cs2 Bk2 Bi2 Yf2 NE HA2 HC2. apply (reinit fam w p auth enc key iv info o cs o'); auto. destruct NE as [NE| ->]; [|reflexivity]. destruct info2; [now elim NE|reflexivity].
Qed.
Lemma c57_reinit_default fam w p auth enc key iv info o cs o' : In (fam, w) wide_ciphers -> wide_profile (w_B w) p -> bytes key -> bytes iv -> yinfo info -> fitting w key iv = true ->
  R_Initialize fam p (R_new fam auth) enc key iv info = Ok (o, None) -> Forall other_call cs -> ycalls_ok w p auth enc (length key) (value_le (firstn 16 iv)) cs -> yend fam p o cs = Ok o' ->
  forall enc2 key2 iv2 cs2, bytes key2 -> bytes iv2 -> fitting w key2 iv2 = true -> ycalls_ok w p auth enc2 (length key2) (value_le (firstn 16 iv2)) cs2 ->
    yhistory fam p o' (XInit enc2 key2 iv2 [] :: cs2) = yhistory fam p (R_new fam auth) (XInit enc2 key2 iv2 (zeros (length info)) :: cs2).
Proof.
  intros HI HP Bk Bi Yf HA E HO HC EE enc2 key2 iv2 cs2 Bk2 Bi2 HA2 HC2. apply (reinit fam w p auth enc key iv info o cs o'); auto.
  - split; [constructor|]. split; [red; cbn; lia|left; reflexivity].
  - destruct Yf as (_ & S & L). split; [apply bytes_zeros|]. unfold short in *. rewrite length_zeros. auto.
  - unfold custom_of. destruct info as [|x t]; [reflexivity|]. cbn [length zeros repeat]. reflexivity.
Qed.
(** * objects that are not initialised *)
Lemma c57_uninit_auth fam p ord inp io out oo len : R_Transform fam p ord (R_new fam true) inp io out oo len = UB.
Proof. reflexivity. Qed.
Lemma c57_uninit fam w p ord inp io out oo len : In (fam, w) wide_ciphers -> sp_par p = false -> (0 < len)%nat -> R_Transform fam p ord (R_new fam false) inp io out oo len = UB.
Proof.
  intros HI HP HL. assert (BK : forall x y, R_block fam [] 0 (zeros (f_B fam)) x y = UB) by (intros x y; destruct HI as [HI|[HI|[]]]; injection HI as <- <-; reflexivity).
  assert (B0 : (0 < f_B fam)%nat) by (destruct HI as [HI|[HI|[]]]; injection HI as <- <-; cbn; lia).
  unfold R_Transform. change (r_enc (R_new fam false)) with false. change (r_auth (R_new fam false)) with false. cbv iota. unfold R_proc. change (r_rk (R_new fam false)) with (@nil Z). change (r_rounds (R_new fam false)) with 0%nat. change (r_nonce (R_new fam false)) with (zeros (f_B fam)).
  unfold W_Process. rewrite HP. cbn [andb]. unfold W_Sequential, W_Generate. destruct (len / f_B fam)%nat as [|q] eqn:EQ.
  - cbn [for_up bind]. assert (len mod f_B fam = len)%nat by (apply Nat.mod_small; apply Nat.div_small_iff in EQ; lia). rewrite H. replace (len =? 0)%nat with false by (symmetry; apply Nat.eqb_neq; lia). rewrite BK. reflexivity.
  - cbn [for_up]. rewrite BK. reflexivity.
Qed.
