(** Conversations over HBA objects. *)
From Verif Require Import BaseLemmas Spec_Common Proofs_Common Proofs_GCM Spec_Modes Model_Modes ProofsP_Modes2 Session_KMAC Proofs_CSX3 Spec_HBA Model_HBA Session_HBA Proofs_HBA.
Open Scope Z_scope.

Section talk.
Context {M : Type} (a : engine M) (A : hauth) (E : list Z -> list Z -> list Z -> list Z) (legal : nat -> bool) (nm : list Z) (iok : list Z -> Prop) (hk : bool).
Context (K : nat -> nat) (RM : M -> list Z -> list Z -> Prop) (Rany : M -> Prop).
Hypothesis HA : implements a A legal K RM Rany.
Hypothesis HC : hba_cipher E legal nm iok hk.
Local Notation tag := (ha_tag A).
Definition turn (n : hconn) : hconn := HConn false (h_ksz n) (h_ck n) (h_info n) (h_pos n) (h_cust n) (h_label n) (h_mk n) (h_msg n) (h_total n) (h_tag n).
Definition nok (n : hconn) : Prop := conn_ok A legal iok K n /\ exists m, RM m (h_mk n) (h_msg n).
Definition heard (n : hconn) (l : hletter) : hconn := fold_left haad (hl_aad l) n.
Definition packet (n : hconn) (m : list Z) : list Z := hcrypt E n m ++ htag_of A n (hcrypt E n m).
Definition sent1 (n : hconn) (m : list Z) : hconn := hmoved (htagged A n (hcrypt E n m)) (length m).
Fixpoint packets (n : hconn) (ls : list hletter) : list (list Z) :=
  match ls with [] => [] | l :: t => packet (heard n l) (hl_msg l) :: packets (sent1 (heard n l) (hl_msg l)) t end.
Fixpoint sent (n : hconn) (ls : list hletter) : hconn :=
  match ls with [] => n | l :: t => sent (sent1 (heard n l) (hl_msg l)) t end.
Definition lok (l : hletter) : Prop := bytes (hl_msg l) /\ Forall bytes (hl_aad l).

Lemma crypt_facts n m : nok n -> length (hcrypt E n m) = length m /\ hcrypt E n (hcrypt E n m) = m /\ (bytes m -> bytes (hcrypt E n m)).
Proof.
  intros [(_ & _ & _ & _ & _ & _ & _ & P) _]. destruct (E_ok E legal nm iok hk HC (h_ck n) (h_info n) P) as (E1 & E2). unfold hcrypt. split; [apply crypt_len_le|]. split.
  - apply ctr_twice; [intros; apply length_le_bytes|exact E1].
  - intros B. now apply crypt_bytes_le.
Qed.
Lemma hear n d : nok n -> bytes d -> nok (hheard n d).
Proof.
  intros [H1 (m & H2)] B. split; [exact H1|]. cbn [hheard h_mk h_msg]. destruct (i_upd _ _ _ _ _ _ HA m _ _ d 0 (length d) H2 B ltac:(lia)) as (m' & _ & R). rewrite slice_all in R by reflexivity. eexists. exact R.
Qed.
Lemma haad_ok n d : nok n -> bytes d -> nok (haad n d).
Proof. intros N B. unfold haad. destruct d as [|x d]; [exact N|]. apply hear; [exact N|]. apply bytes_app. split; [exact B|apply bytes_le_bytes]. Qed.
Lemma heard_ok n l : nok n -> Forall bytes (hl_aad l) -> nok (heard n l).
Proof. unfold heard. revert n. induction (hl_aad l) as [|d t IH]; intros n N F; [exact N|]. inversion F; subst. cbn [fold_left]. apply IH; [|assumption]. now apply haad_ok. Qed.
Lemma heard_turn n l : heard (turn n) l = turn (heard n l).
Proof. unfold heard. revert n. induction (hl_aad l) as [|d t IH]; intros n; [reflexivity|]. cbn [fold_left]. rewrite <- IH. f_equal. destruct d; reflexivity. Qed.
Lemma heard_enc n l : h_enc (heard n l) = h_enc n.
Proof. unfold heard. revert n. induction (hl_aad l) as [|d t IH]; intros n; [reflexivity|]. cbn [fold_left]. rewrite IH. destruct d; reflexivity. Qed.
Lemma tag_facts n ct : nok n -> bytes ct -> length (htag_of A n ct) = tag /\ bytes (htag_of A n ct) /\ nok (htagged A n ct).
Proof.
  intros N B. pose proof (hear n (le_bytes 16 (h_pos n) ++ ct ++ le_bytes 8 (htotal n (length ct) + 24)) N) as X.
  destruct X as [H1 (m & H2)]; [apply bytes_app; split; [apply bytes_le_bytes|apply bytes_app; split; [exact B|apply bytes_le_bytes]]|]. cbn [hheard h_mk h_msg] in H2. rewrite app_assoc in H2.
  assert (LT : length (htag_of A n ct) = tag).
  { destruct (i_fin _ _ _ _ _ _ HA m _ _ (zeros tag) H2 (length_zeros _)) as (m' & _ & _ & L). exact L. }
  split; [exact LT|]. split; [apply (i_mac _ _ _ _ _ _ HA)|].
  destruct N as [(P1 & P2 & P3 & (P4 & P4') & P5 & P6 & P7 & P8) _]. set (t := htotal n (length ct)).
  assert (LB : length (le_bytes 8 t) = 8%nat) by apply length_le_bytes.
  assert (LL : bytes (label_of t (h_label n)) /\ (10 <= length (label_of t (h_label n)) <= 58)%nat) by (unfold label_of; rewrite app_length, LB; split; [apply bytes_app; split; [apply bytes_le_bytes|exact P6]|lia]).
  destruct LL as (LL1 & LL2). pose proof (i_K _ _ _ _ _ _ HA (h_ksz n)) as KK.
  destruct (i_next _ _ _ _ _ _ HA (h_ksz n) (h_mk n) (h_cust n) _ P3 ltac:(lia) P4 P4' LL1 LL2 P5) as (_ & N1 & N2).
  destruct (i_init _ _ _ _ _ _ HA (a_new a) _ (i_new _ _ _ _ _ _ HA) N1 ltac:(lia)) as (m3 & _ & R3).
  split; [|exists m3; exact R3]. red. cbn [htagged h_ck h_info h_pos h_cust h_mk h_tag h_label h_total h_ksz h_enc h_msg]. split; [exact LT|]. split; [exact N2|]. split; [exact N1|]. split; [split; assumption|]. auto.
Qed.
Lemma sent1_ok n m : nok n -> bytes m -> nok (sent1 n m).
Proof. intros N B. destruct (crypt_facts n m N) as (_ & _ & BC). exact (proj2 (proj2 (tag_facts n _ N (BC B)))). Qed.
Lemma packet_ok n m : nok n -> bytes m -> length (packet n m) = (length m + tag)%nat /\ bytes (packet n m).
Proof.
  intros N B. destruct (crypt_facts n m N) as (L & _ & BC). destruct (tag_facts n _ N (BC B)) as (T1 & T2 & _). unfold packet. rewrite app_length, L, T1. split; [reflexivity|]. apply bytes_app. auto.
Qed.
Lemma sent_ok ls : Forall lok ls -> forall n, nok n -> nok (sent n ls).
Proof. induction 1 as [|l ls (L1 & L2) H IH]; intros n N; [exact N|]. cbn [sent]. apply IH. apply sent1_ok; [|exact L1]. now apply heard_ok. Qed.
Lemma sent_enc ls : forall n, h_enc (sent n ls) = h_enc n.
Proof. induction ls as [|l ls IH]; intros n; [reflexivity|]. cbn [sent]. rewrite IH. cbn [sent1 hmoved htagged h_enc]. apply heard_enc. Qed.
Lemma packets_app n ls l : packets n (ls ++ [l]) = packets n ls ++ [packet (heard (sent n ls) l) (hl_msg l)].
Proof. revert n. induction ls as [|x ls IH]; intros n; [reflexivity|]. cbn [app packets sent]. now rewrite IH. Qed.
Lemma houts_app x y : houts (x ++ y) = houts x ++ houts y.
Proof. unfold houts. apply flat_map_app. Qed.
Lemma aads_run l : forall n cs rs, hexpected A E legal nm (HOn n) (haad_calls l ++ cs) rs ->
  exists ra rb, rs = ra ++ rb /\ houts ra = [] /\ hexpected A E legal nm (HOn (heard n l)) cs rb.
Proof.
  unfold haad_calls, heard. induction (hl_aad l) as [|d t IH]; intros n cs rs H; [exists [], rs; auto|]. cbn [map app] in H. destruct rs as [|r rs]; [contradiction|]. cbn [hexpected] in H.
  replace (length d <? 0)%nat with false in H by reflexivity. destruct H as [-> H]. rewrite slice_all in H by reflexivity. cbn [fold_left].
  destruct (IH _ cs rs H) as (ra & rb & -> & O & H'). exists (HDone :: ra), rb. auto.
Qed.
Lemma seal_run ls : Forall lok ls -> forall n cs rs, nok n -> h_enc n = true -> hexpected A E legal nm (HOn n) (hseal_calls tag ls ++ cs) rs ->
  exists ra rb, rs = ra ++ rb /\ houts ra = packets n ls /\ hexpected A E legal nm (HOn (sent n ls)) cs rb.
Proof.
  intros HL. induction HL as [|l ls (Bm & Ba) HL IH]; intros n cs rs N EN H; [exists [], rs; auto|].
  unfold hseal_calls in H. cbn [flat_map] in H. rewrite <- !app_assoc in H. destruct (aads_run l n _ rs H) as (ra & rb & -> & O & H1).
  pose proof (heard_ok n l N Ba) as N1. assert (E1 : h_enc (heard n l) = true) by now rewrite heard_enc. cbn [packets sent map]. set (n1 := heard n l) in *. set (m := hl_msg l) in *.
  cbn [app] in H1. destruct rb as [|r rb]; [contradiction|]. cbn [hexpected] in H1. cbv zeta in H1. rewrite slice_all in H1 by reflexivity. rewrite E1, length_zeros in H1.
  replace (length m + tag <? 0 + length m + tag)%nat with false in H1 by (symmetry; apply Nat.ltb_ge; lia). destruct H1 as [(out' & -> & W) H1].
  destruct (packet_ok n1 m N1 Bm) as (PL & PB). assert (W' : out' = packet n1 m) by (apply (written_zeros (length m + tag)); auto). subst out'.
  destruct (IH (sent1 n1 m) cs rb (sent1_ok n1 m N1 Bm) E1 H1) as (rc & rd & -> & O2 & H3). exists (ra ++ HOut (packet n1 m) :: rc), rd. rewrite <- app_assoc. cbn [app]. split; [reflexivity|].
  rewrite houts_app, O. cbn [app]. change (houts (HOut (packet n1 m) :: rc)) with (packet n1 m :: houts rc). rewrite O2. auto.
Qed.
Lemma slice_left (x y : list Z) : slice (x ++ y) 0 (length x) = x.
Proof. unfold slice. rewrite skipn_O, firstn_app, Nat.sub_diag, firstn_O, app_nil_r. apply firstn_all2. lia. Qed.
Lemma slice_right (x y : list Z) k : length y = k -> slice (x ++ y) (length x) k = y.
Proof. intros L. unfold slice. rewrite skipn_app, Nat.sub_diag, skipn_all2 by lia. cbn [app skipn]. apply firstn_all2. lia. Qed.
Lemma open_run ls : Forall lok ls -> forall n cs rs, nok n -> hexpected A E legal nm (HOn (turn n)) (hopen_calls tag ls (packets n ls) ++ cs) rs ->
  exists ra rb, rs = ra ++ rb /\ houts ra = map hl_msg ls /\ hexpected A E legal nm (HOn (turn (sent n ls))) cs rb.
Proof.
  intros HL. induction HL as [|l ls (Bm & Ba) HL IH]; intros n cs rs N H; [exists [], rs; auto|].
  cbn [packets] in H. unfold hopen_calls in H. cbn [combine flat_map fst snd] in H. rewrite <- !app_assoc in H. destruct (aads_run l _ _ rs H) as (ra & rb & -> & O & H1).
  rewrite heard_turn in H1. pose proof (heard_ok n l N Ba) as N1. cbn [packets sent map]. set (n1 := heard n l) in *. set (m := hl_msg l) in *.
  destruct (packet_ok n1 m N1 Bm) as (PL & PB). destruct (crypt_facts n1 m N1) as (LC & C2 & BC). destruct (tag_facts n1 _ N1 (BC Bm)) as (T1 & T2 & N2).
  cbn [app] in H1. destruct rb as [|r rb]; [contradiction|]. cbn [hexpected turn h_enc] in H1. cbv zeta in H1. rewrite PL in H1. replace (length m + tag - tag)%nat with (length m) in H1 by lia.
  rewrite length_zeros in H1. replace (length m <? 0 + length m + 0)%nat with false in H1 by (symmetry; apply Nat.ltb_ge; lia).
  assert (S1 : slice (packet n1 m) 0 (length m) = hcrypt E n1 m) by (rewrite <- LC; apply slice_left).
  assert (S2 : slice (packet n1 m) (0 + length m) tag = htag_of A n1 (hcrypt E n1 m)) by (rewrite <- LC; now apply slice_right).
  rewrite S1, S2 in H1.
  destruct H1 as [(_ & (out' & -> & W) & H1)|(F & _)]; [|now elim F].
  match type of W with written ?o ?p ?a ?d => change (written o p a (hcrypt E n1 (hcrypt E n1 m))) in W end. rewrite C2 in W. apply (written_zeros (length m)) in W; [|reflexivity]. subst out'.
  destruct (IH (sent1 n1 m) cs rb (sent1_ok n1 m N1 Bm) H1) as (rc & rd & -> & O2 & H3). exists (ra ++ HOut m :: rc), rd. rewrite <- app_assoc. cbn [app]. split; [reflexivity|].
  rewrite houts_app, O. cbn [app]. change (houts (HOut m :: rc)) with (m :: houts rc). rewrite O2. auto.
Qed.
(** the calls of a conversation are legal *)
Lemma app_calls_ok q e x y : (forall c, In c x -> match c with HInit _ _ _ _ => False | _ => True end) -> hcalls_ok legal q iok tag e x -> hcalls_ok legal q iok tag e y -> hcalls_ok legal q iok tag e (x ++ y).
Proof.
  induction x as [|c x IH]; intros H H1 H2; [exact H2|]. cbn [app hcalls_ok] in *. destruct H1 as [H0 H1]. split; [exact H0|]. pose proof (H c ltac:(now left)) as Hc. destruct c; try contradiction; (apply IH; auto; intros; apply H; now right).
Qed.
Lemma aads_ok q e l : Forall (fun a => bytes a /\ short a) (hl_aad l) -> hcalls_ok legal q iok tag e (haad_calls l).
Proof. unfold haad_calls. induction 1 as [|x t (B & S) H IH]; cbn [map hcalls_ok]; [exact I|]. split; [|assumption]. cbn [hcall_ok]. split; [assumption|]. split; [assumption|lia]. Qed.
Lemma aads_noinit l c : In c (haad_calls l) -> match c with HInit _ _ _ _ => False | _ => True end.
Proof. unfold haad_calls. intros H. apply in_map_iff in H. destruct H as (x & <- & _). exact I. Qed.
Lemma seal_ok p p' ls : Forall (hletter_ok tag p p') ls -> hcalls_ok legal p iok tag true (hseal_calls tag ls).
Proof.
  induction 1 as [|l ls (L1 & L2 & L3 & L4 & L5) H IH]; [exact I|]. unfold hseal_calls. cbn [flat_map]. rewrite <- app_assoc. apply app_calls_ok; [apply aads_noinit|now apply aads_ok|].
  cbn [app hcalls_ok]. split; [|exact IH]. cbn [hcall_ok]. split; [exact L1|]. split; [apply bytes_zeros|]. rewrite length_zeros. split; [red; lia|]. split; [red; rewrite length_zeros; lia|]. split; [lia|]. split; [lia|]. exact L4.
Qed.
Definition sized (l : hletter) (x : list Z) : Prop := bytes x /\ length x = (length (hl_msg l) + tag)%nat.
Lemma open_ok p p' ls ps : Forall (hletter_ok tag p p') ls -> Forall2 sized ls ps -> hcalls_ok legal p' iok tag false (hopen_calls tag ls ps).
Proof.
  intros HL HF. induction HF as [|l x ls ps [B L] HF IH]; [exact I|]. inversion HL as [|? ? (L1 & L2 & L3 & L4 & L5) HL']; subst. specialize (IH HL').
  unfold hopen_calls. cbn [combine flat_map fst snd]. rewrite <- app_assoc. apply app_calls_ok; [apply aads_noinit|now apply aads_ok|].
  rewrite L. replace (length (hl_msg l) + tag - tag)%nat with (length (hl_msg l)) by lia.
  cbn [app hcalls_ok]. split; [|exact IH]. cbn [hcall_ok]. split; [exact B|]. split; [apply bytes_zeros|]. rewrite length_zeros, L. split; [red; rewrite L; lia|]. split; [red; rewrite length_zeros; lia|]. split; [lia|]. split; [lia|]. exact L5.
Qed.
Lemma lok_of p p' ls : Forall (hletter_ok tag p p') ls -> Forall lok ls.
Proof. apply Forall_impl. intros l (L1 & L2 & _). split; [exact L1|]. eapply Forall_impl; [|exact L2]. intros x (B & _). exact B. Qed.
Lemma packets_ok ls : Forall lok ls -> forall n, nok n -> Forall2 sized ls (packets n ls).
Proof.
  induction 1 as [|l ls (L1 & L2) H IH]; intros n N; cbn [packets]; constructor.
  - pose proof (heard_ok n l N L2) as N1. destruct (packet_ok _ _ N1 L1). split; assumption.
  - apply IH. apply sent1_ok; [|exact L1]. now apply heard_ok.
Qed.
(** Initialize on a new object *)
Definition opened (enc : bool) (key iv info : list Z) : hconn := hopened A nm (HIdle [] []) enc key iv info.
Lemma opened_ok enc key iv info : haccepted A legal iok key iv info -> nok (opened enc key iv info).
Proof.
  intros (B1 & B2 & B3 & B4 & B5' & B5 & B6 & B7). destruct (Init_legal a A E legal nm 0%nat iok hk K RM Rany HA HC (H_new a) (HIdle [] []) enc key iv info (new_abs a A legal iok K RM Rany HA) B1 B2 B3 B4 B5' B5 B6) as (_ & X).
  destruct X as (o & _ & X).
  { assert (C : cust_of (HIdle [] []) info = info) by (destruct info; reflexivity). rewrite C. destruct (ha_strict A); [|reflexivity]. specialize (B7 eq_refl). cbn [andb]. destruct (Nat.ltb_spec 0 (length info)), (Nat.ltb_spec (length info) 4); try reflexivity; lia. }
  cbn [habs] in X. destruct X as (_ & _ & _ & _ & _ & _ & _ & _ & _ & _ & _ & R & C). split; [exact C|]. eexists. exact R.
Qed.
Lemma start_history s p enc key iv info cs : haccepted A legal iok key iv info -> hcalls_ok legal p iok tag enc cs ->
  exists rs, hhistory a E legal nm s p (H_new a) (HInit enc key iv info :: cs) = Ok (HDone :: rs) /\ hexpected A E legal nm (HOn (opened enc key iv info)) cs rs.
Proof.
  intros (B1 & B2 & B3 & B4 & B5' & B5 & B6 & B7) OK. destruct (hba_history a A E legal nm s p iok hk K RM Rany HA HC (HInit enc key iv info :: cs) enc) as (rs & H & X).
  { cbn [hcalls_ok hcall_ok]. rewrite B5, B6, Nat.eqb_refl. cbn [andb]. auto 10. }
  cbn [hexpected] in X. destruct rs as [|r rs]; [contradiction|]. rewrite B5, B6, Nat.eqb_refl in X. cbn [negb] in X.
  assert (C : cust_of (HIdle [] []) info = info) by (destruct info; reflexivity). rewrite C in X.
  replace (ha_strict A && (0 <? length info)%nat && (length info <? 4)%nat) with false in X.
  2:{ symmetry. destruct (ha_strict A); [|reflexivity]. specialize (B7 eq_refl). cbn [andb]. destruct (Nat.ltb_spec 0 (length info)), (Nat.ltb_spec (length info) 4); try reflexivity; lia. }
  destruct X as [-> X]. eauto.
Qed.
Lemma talk s s' p p' key iv info ls : haccepted A legal iok key iv info -> Forall (hletter_ok tag p p') ls ->
  exists rs rs', hhistory a E legal nm s p (H_new a) (HInit true key iv info :: hseal_calls tag ls) = Ok rs /\ map (@length Z) (houts rs) = map (fun l => (length (hl_msg l) + tag)%nat) ls /\
    hhistory a E legal nm s' p' (H_new a) (HInit false key iv info :: hopen_calls tag ls (houts rs)) = Ok rs' /\ houts rs' = map hl_msg ls.
Proof.
  intros AC HL. pose proof (lok_of p p' ls HL) as HK. destruct (start_history s p true key iv info _ AC (seal_ok p p' ls HL)) as (rs & H & X).
  set (n := opened true key iv info) in *. assert (N : nok n) by now apply opened_ok.
  rewrite <- (app_nil_r (hseal_calls _ _)) in X. destruct (seal_run ls HK n [] rs N eq_refl X) as (ra & rb & -> & O & X2). destruct rb; [|contradiction]. rewrite app_nil_r in *.
  pose proof (packets_ok ls HK n N) as PF. change (houts (HDone :: ra)) with (houts ra) in *.
  destruct (start_history s' p' false key iv info _ AC (open_ok p p' ls _ HL PF)) as (rs' & H' & X'). change (opened false key iv info) with (turn n) in X'.
  rewrite <- (app_nil_r (hopen_calls _ _ _)) in X'. destruct (open_run ls HK n [] rs' N X') as (rc & rd & -> & O' & X3). destruct rd; [|contradiction]. rewrite app_nil_r in *.
  exists (HDone :: ra), (HDone :: rc). split; [exact H|]. change (houts (HDone :: ra)) with (houts ra). rewrite O. split; [|split; [exact H'|exact O']].
  clear - PF. induction PF as [|l x ls ps (_ & L) F IH]; [reflexivity|]. cbn [map]. now rewrite L, IH.
Qed.
Lemma tamper s s' p p' key iv info ls l ps ct tg tg' : haccepted A legal iok key iv info -> Forall (hletter_ok tag p p') (ls ++ [l]) -> length tg = tag -> length tg' = tag -> bytes tg' -> tg' <> tg ->
  forall rs, hhistory a E legal nm s p (H_new a) (HInit true key iv info :: hseal_calls tag (ls ++ [l])) = Ok rs -> houts rs = ps ++ [ct ++ tg] ->
  exists rs', hhistory a E legal nm s' p' (H_new a) (HInit false key iv info :: hopen_calls tag (ls ++ [l]) (ps ++ [ct ++ tg'])) = Ok (rs' ++ [HFail AuthenticationFailure (zeros (length (hl_msg l)))]) /\ houts rs' = map hl_msg ls.
Proof.
  intros AC HL L1 L2 B2 NE rs E0 EO. pose proof (lok_of p p' _ HL) as HK. destruct (start_history s p true key iv info _ AC (seal_ok p p' _ HL)) as (ra & H & X). rewrite H in E0. injection E0 as <-. change (houts (HDone :: ra)) with (houts ra) in EO.
  set (n := opened true key iv info) in *. assert (N : nok n) by now apply opened_ok.
  rewrite <- (app_nil_r (hseal_calls _ _)) in X. destruct (seal_run _ HK n [] ra N eq_refl X) as (rb & rx & -> & O & X2). destruct rx; [|contradiction]. rewrite app_nil_r in *.
  rewrite O, packets_app in EO. apply app_inj_tail in EO. destruct EO as [EP EL].
  apply Forall_app in HK. destruct HK as [HK HKl]. inversion HKl as [|? ? (Bm & Ba) _]; subst. pose proof (packets_ok ls HK n N) as HF.
  pose proof (sent_ok ls HK n N) as NS. pose proof (heard_ok _ l NS Ba) as N1. set (n1 := heard (sent n ls) l) in *. set (m := hl_msg l) in *.
  destruct (packet_ok n1 m N1 Bm) as (PL & PB). rewrite EL in PL, PB. rewrite app_length, L1 in PL. assert (LC : length ct = length m) by lia. assert (BC : bytes ct) by (apply bytes_app in PB; apply PB).
  assert (OKc : hcalls_ok legal p' iok tag false (hopen_calls tag (ls ++ [l]) (packets n ls ++ [ct ++ tg']))).
  { apply (open_ok p p'); [exact HL|]. apply Forall2_app; [exact HF|]. constructor; [|constructor]. unfold sized. rewrite app_length, LC, L2. split; [apply bytes_app; auto|reflexivity]. }
  destruct (start_history s' p' false key iv info _ AC OKc) as (rs' & E' & X'). rewrite E'. change (opened false key iv info) with (turn n) in X'.
  assert (SP : hopen_calls tag (ls ++ [l]) (packets n ls ++ [ct ++ tg']) = hopen_calls tag ls (packets n ls) ++ hopen_calls tag [l] [ct ++ tg']).
  { unfold hopen_calls. rewrite <- flat_map_app. f_equal. clear - HF. induction HF; [reflexivity|]. cbn [app combine]. now rewrite IHHF. }
  rewrite SP in X'. destruct (open_run ls HK n _ rs' N X') as (rc & rd & -> & O' & X3).
  unfold hopen_calls in X3. cbn [combine flat_map fst snd] in X3. rewrite app_nil_r in X3. destruct (aads_run l _ _ rd X3) as (re & rf & -> & O2 & X4). rewrite heard_turn in X4. fold n1 in X4.
  replace (length (ct ++ tg') - tag)%nat with (length m) in X4 by (rewrite app_length; lia). destruct rf as [|r rf]; [contradiction|]. cbn [hexpected turn h_enc] in X4. cbv zeta in X4.
  rewrite length_zeros in X4. replace (length m <? 0 + length m + 0)%nat with false in X4 by (symmetry; apply Nat.ltb_ge; lia).
  assert (S1 : slice (ct ++ tg') 0 (length m) = ct) by (rewrite <- LC; apply slice_left).
  assert (S2 : slice (ct ++ tg') (0 + length m) tag = tg') by (rewrite <- LC; now apply slice_right).
  rewrite S1, S2 in X4.
  destruct (crypt_facts n1 m N1) as (LX & _ & _). unfold packet in EL. assert (EC : hcrypt E n1 m = ct /\ htag_of A n1 (hcrypt E n1 m) = tg).
  { assert (X5 : firstn (length m) (hcrypt E n1 m ++ htag_of A n1 (hcrypt E n1 m)) = firstn (length m) (ct ++ tg)) by now rewrite EL.
    rewrite !firstn_app, LX, LC, Nat.sub_diag, !firstn_O, !app_nil_r, !firstn_all2 in X5 by lia. split; [exact X5|]. rewrite X5 in EL |- *. now apply app_inv_head in EL. }
  destruct EC as (EC & ET). rewrite EC in ET.
  destruct X4 as [(F & _)|(_ & -> & X5)]; [elim NE; rewrite F; exact ET|]. destruct rf; [|contradiction].
  exists (HDone :: rc ++ re). split; [cbn [app]; now rewrite <- app_assoc|]. change (houts (HDone :: rc ++ re)) with (houts (rc ++ re)). rewrite houts_app, O', O2, app_nil_r. reflexivity.
Qed.
End talk.
