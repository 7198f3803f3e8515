(** Histories of an HBA object, for every authenticator and key derivation that do what their specification says. *)
From Verif Require Import BaseLemmas Spec_Common Proofs_Common Model_IntegerTools Proofs_IntegerTools Proofs_IntegerTools2 Spec_Modes Model_Modes Proofs_Modes4 Proofs_Modes5 ProofsP_Modes2 Proofs_Windows Model_KDF Proofs_KDF Proofs_KDF2
  Session_KMAC Spec_HBA Model_HBA Session_HBA Proofs_CSX.
Open Scope Z_scope.

Record implements {M : Type} (a : engine M) (A : hauth) (legal : nat -> bool) (K : nat -> nat) (RM : M -> list Z -> list Z -> Prop) (Rany : M -> Prop) : Prop := {
  i_tag : a_tag a = ha_tag A;
  i_tag1 : (1 <= ha_tag A <= 64)%nat;
  i_K : forall n, (16 <= K n <= 64)%nat;
  i_new : Rany (a_new a);
  i_any : forall m k x, RM m k x -> Rany m;
  i_reset : forall m, Rany m -> exists m', a_reset a m = Ok m' /\ Rany m';
  i_init : forall m k, Rany m -> bytes k -> (16 <= length k <= 64)%nat -> exists m', a_init a m k = Ok m' /\ RM m' k [];
  i_upd : forall m k x inp io len, RM m k x -> bytes inp -> (io + len <= length inp)%nat -> exists m', a_upd a m inp io len = Ok m' /\ RM m' k (x ++ slice inp io len);
  i_fin : forall m k x out, RM m k x -> length out = ha_tag A -> exists m', a_fin a m out 0 = Ok (m', ha_mac A k x) /\ Rany m' /\ length (ha_mac A k x) = ha_tag A;
  i_mac : forall k x, bytes (ha_mac A k x);
  i_first : forall key cust label, bytes key -> (16 <= length key)%nat -> Z.of_nat (length key) <= 1024 -> bytes cust -> short cust -> bytes label -> (10 <= length label <= 58)%nat ->
    (ha_strict A = true -> length cust = 0 \/ 4 <= length cust)%nat -> a_first a key cust label = Ok (ha_first A key cust label) /\
    bytes (fst (ha_first A key cust label)) /\ bytes (snd (ha_first A key cust label)) /\ length (snd (ha_first A key cust label)) = K (length key) /\
    (legal (length key) = true -> legal (length (fst (ha_first A key cust label))) = true);
  i_short : forall key cust label, (4 <= length key)%nat -> ha_strict A = true -> (0 < length cust < 4)%nat -> a_first a key cust label = Throw InvalidSalt;
  i_next : forall ksz mk cust label, bytes mk -> (16 <= length mk <= 64)%nat -> bytes cust -> short cust -> bytes label -> (10 <= length label <= 58)%nat ->
    (ha_strict A = true -> length cust = 0 \/ 4 <= length cust)%nat -> a_next a ksz mk cust label = Ok (ha_next A ksz mk cust label) /\
    bytes (ha_next A ksz mk cust label) /\ length (ha_next A ksz mk cust label) = K ksz }.

Lemma le16 iv : bytes iv -> length iv = 16%nat -> le_bytes 16 (value_le iv) = iv.
Proof. intros B L. rewrite value_le_eq, <- L. now apply le_bytes_le_val. Qed.
Lemma crypt_bytes_le E v m : block_fun E -> (forall b, length b = 16%nat -> bytes (E b)) -> bytes m -> bytes (ctr_crypt E (le_bytes 16) v m).
Proof.
  intros HE HB Hm. apply Forall_map, Forall_forall. intros i _. apply lxor_byte; apply bytes_nth; auto.
Qed.
Lemma crypt_len_le E v m : length (ctr_crypt E (le_bytes 16) v m) = length m.
Proof. unfold ctr_crypt. now rewrite map_length, seq_length. Qed.

Section obj.
Context {M : Type} (a : engine M) (A : hauth) (E : list Z -> list Z -> list Z -> list Z) (legal : nat -> bool) (nm : list Z) (s : nat) (p : prof) (iok : list Z -> Prop) (hk : bool).
Context (K : nat -> nat) (RM : M -> list Z -> list Z -> Prop) (Rany : M -> Prop).
Hypothesis HA : implements a A legal K RM Rany.
Hypothesis HC : hba_cipher E legal nm iok hk.
Local Notation tag := (ha_tag A).

Definition cust_ok (c : list Z) : Prop := bytes c /\ short c.
Definition strict_ok (c : list Z) : Prop := (ha_strict A = true -> length c = 0 \/ 4 <= length c)%nat.
Definition key_ok (k i : list Z) : Prop := legal (length k) = true /\ bytes k /\ bytes i /\ iok i.
Definition conn_ok (n : hconn) : Prop :=
  length (h_tag n) = tag /\ length (h_mk n) = K (h_ksz n) /\ bytes (h_mk n) /\ cust_ok (h_cust n) /\ strict_ok (h_cust n) /\ bytes (h_label n) /\ (2 <= length (h_label n) <= 50)%nat /\
  key_ok (h_ck n) (h_info n).
Definition habs (o : hobj M) (st : hstate) : Prop :=
  match st with
  | HIdle c t => b_ready o = false /\ b_custom o = c /\ cust_ok c /\ b_mtag o = t /\ (t = [] \/ t = zeros tag) /\ Rany (b_auth o)
  | HOn n => b_ready o = true /\ b_ckey o = h_ck n /\ b_cinfo o = h_info n /\ b_nonce o = le_bytes 16 (h_pos n) /\ b_custom o = h_cust n /\ b_mkey o = h_mk n /\ b_mtag o = h_tag n /\
    (exists x, b_label o = x ++ h_label n /\ length x = 8%nat) /\ b_count o = h_total n /\ b_ksz o = h_ksz n /\ b_dir o = h_enc n /\ RM (b_auth o) (h_mk n) (h_msg n) /\ conn_ok n
  end.
Lemma E_ok k i : key_ok k i -> block_fun (E k i) /\ forall b, length b = 16%nat -> bytes (E k i b).
Proof. intros (H1 & H2 & H3 & H4). destruct HC as (C1 & _). split; intros b L; now apply C1. Qed.
Lemma nm_ok : bytes nm /\ (length nm <= 48)%nat. Proof. destruct HC as (_ & _ & _ & C4 & C5). auto. Qed.

Lemma label_made l k : (length l = 10 + length nm)%nat ->
  bind (wr l 0 (le_bytes 8 1)) (fun l => bind (wr l 8 (le_bytes 2 (u16 (Z.of_nat k * 8)))) (fun l => wcopy nm 0 l 10 (length nm))) = Ok (label_of 1 (le_bytes 2 (8 * Z.of_nat k) ++ nm)).
Proof.
  intros L. pose proof (length_le_bytes 8 1) as L1. pose proof (length_le_bytes 2 (u16 (Z.of_nat k * 8))) as L2.
  rewrite wr_ok by lia. cbn [bind]. rewrite wr_ok by (rewrite ?length_splice; lia). cbn [bind]. rewrite wcopy_ok by (rewrite ?length_splice by (rewrite ?length_splice; lia); lia).
  rewrite slice_full by reflexivity.
  pose proof (splice_splice_next l 0 (le_bytes 8 1) (le_bytes 2 (u16 (Z.of_nat k * 8)))) as S1. rewrite L1 in S1. cbn [Nat.add] in S1. rewrite S1 by lia.
  pose proof (splice_splice_next l 0 (le_bytes 8 1 ++ le_bytes 2 (u16 (Z.of_nat k * 8))) nm) as S2. rewrite app_length, L1, L2 in S2. cbn [Nat.add] in S2. rewrite S2 by lia.
  rewrite splice_all by (rewrite !app_length; lia). unfold label_of. rewrite <- app_assoc. do 3 f_equal. apply le_bytes_cong. unfold u16. change (256 ^ Z.of_nat 2) with (2 ^ 16). rewrite Z.mod_mod by lia. f_equal. lia.
Qed.
Lemma label_bytes k total : bytes (le_bytes 2 (8 * Z.of_nat k) ++ nm) /\ (2 <= length (le_bytes 2 (8 * Z.of_nat k) ++ nm) <= 50)%nat /\
  bytes (label_of total (le_bytes 2 (8 * Z.of_nat k) ++ nm)) /\ (10 <= length (label_of total (le_bytes 2 (8 * Z.of_nat k) ++ nm)) <= 58)%nat.
Proof.
  destruct nm_ok as (B & L). unfold label_of. rewrite !app_length, !length_le_bytes.
  assert (B2 : bytes (le_bytes 2 (8 * Z.of_nat k) ++ nm)) by (apply bytes_app; split; [apply bytes_le_bytes|exact B]).
  split; [exact B2|]. split; [lia|]. split; [apply bytes_app; split; [apply bytes_le_bytes|exact B2]|lia].
Qed.

Lemma Init_legal o st enc key iv info : habs o st -> bytes key -> bytes iv -> bytes info -> short info -> iok info -> legal (length key) = true -> length iv = 16%nat ->
  let cust := cust_of st info in
  (ha_strict A && (0 <? length cust)%nat && (length cust <? 4)%nat = true -> exists o', H_Initialize a legal nm o enc key iv info = Ok (o', [], Some InvalidSalt) /\ habs o' (HIdle cust (zeros tag))) /\
  (ha_strict A && (0 <? length cust)%nat && (length cust <? 4)%nat = false -> exists o', H_Initialize a legal nm o enc key iv info = Ok (o', [], None) /\ habs o' (HOn (hopened A nm st enc key iv info))).
Proof.
  intros HO Bk Bv Bf Sf Hi LK LV cust. unfold H_Initialize. rewrite LK. cbn [negb]. rewrite LV, Nat.eqb_refl. cbn [negb].
  assert (RS : exists o1, (if b_ready o then m <- a_reset a (b_auth o) ;; Ok (HObj (b_ckey o) (b_cinfo o) (b_nonce o) [] [] [] [] 0 (b_ksz o) false false m) else Ok o) = Ok o1 /\
    b_ready o1 = false /\ b_custom o1 = left_cust st /\ resized (b_mtag o1) tag = zeros tag /\ Rany (b_auth o1) /\ cust_ok (left_cust st)).
  { destruct st as [c t|n]; cbn [habs left_cust] in *.
    - destruct HO as (O1 & O2 & O3 & O4 & O5 & O6). rewrite O1. exists o. split; [reflexivity|]. split; [exact O1|]. split; [exact O2|]. split; [|auto]. rewrite O4. destruct O5 as [->| ->]; [apply (resized_zeros 0)|apply resized_zeros].
    - destruct HO as (O1 & O). rewrite O1. destruct O as (_ & _ & _ & _ & _ & _ & _ & _ & _ & _ & O & _). destruct (i_reset _ _ _ _ _ _ HA _ (i_any _ _ _ _ _ _ HA _ _ _ O)) as (m' & -> & R). cbn [bind].
      eexists. split; [reflexivity|]. cbn [b_ready b_custom b_mtag b_auth]. split; [reflexivity|]. split; [reflexivity|]. split; [apply (resized_zeros 0)|]. split; [exact R|]. split; [constructor|red; cbn; lia]. }
  destruct RS as (o1 & -> & O1 & O2 & O3 & O4 & O5). cbn [bind]. cbv zeta.
  pose proof (label_made (resized (b_label o1) (10 + length nm)) (length key) (resized_len _ _)) as LM.
  destruct (wr (resized (b_label o1) (10 + length nm)) 0 (le_bytes 8 1)) as [l1|e|]; [|discriminate LM|discriminate LM]. cbn [bind] in LM |- *.
  destruct (wr l1 8 (le_bytes 2 (u16 (Z.of_nat (length key) * 8)))) as [l2|e|]; [|discriminate LM|discriminate LM]. cbn [bind] in LM |- *. rewrite LM. clear LM l1 l2. cbn [bind].
  assert (EC : (if negb (length info =? 0)%nat then info else b_custom o1) = cust) by (unfold cust, cust_of; rewrite O2; now destruct info). rewrite EC, (i_tag _ _ _ _ _ _ HA), O3, O1.
  assert (CO : cust_ok cust) by (unfold cust, cust_of; destruct info; [exact O5|split; assumption]).
  destruct HC as (C1 & C2 & C3 & C4 & C5). destruct (C2 _ LK) as (K1 & K2). destruct (label_bytes (length key) 1) as (B1 & B2 & B3 & B4). fold (label_rest nm key) in *.
  split; intros ST.
  - apply andb_true_iff in ST. destruct ST as [ST S3]. apply andb_true_iff in ST. destruct ST as [S1 S2]. apply Nat.ltb_lt in S2, S3.
    rewrite (i_short _ _ _ _ _ _ HA) by (auto; lia). eexists. split; [reflexivity|]. cbn [habs b_ready b_custom b_mtag b_auth]. auto 10.
  - assert (SO : strict_ok cust).
    { intros S1. rewrite S1 in ST. cbn [andb] in ST. destruct (Nat.ltb_spec 0 (length cust)), (Nat.ltb_spec (length cust) 4); cbn [andb] in ST; try discriminate; lia. }
    destruct CO as (CB & CS). destruct (i_first _ _ _ _ _ _ HA key cust (label_of 1 (label_rest nm key)) Bk K1 K2 CB CS B3 B4 SO) as (-> & F0 & F1 & F2 & F3).
    destruct (ha_first A key cust (label_of 1 (label_rest nm key))) as (ck, mk) eqn:EF. cbn [fst snd] in *. rewrite (F3 LK). cbn [negb b_auth].
    pose proof (i_K _ _ _ _ _ _ HA (length key)) as KK.
    destruct (i_init _ _ _ _ _ _ HA _ mk O4 F1 ltac:(lia)) as (m & -> & R). cbn [bind]. eexists. split; [reflexivity|].
    unfold hopened. fold cust. rewrite EF. cbn [habs fst snd b_ready b_ckey b_cinfo b_nonce b_custom b_mkey b_mtag b_label b_count b_ksz b_dir b_auth h_ck h_info h_pos h_cust h_mk h_tag h_label h_total h_ksz h_enc h_msg].
    rewrite le16 by assumption. repeat (split; [reflexivity|]). split; [exists (le_bytes 8 1); split; [reflexivity|apply length_le_bytes]|]. repeat (split; [reflexivity|]). split; [exact R|].
    red. cbn [h_ck h_info h_pos h_cust h_mk h_tag h_label h_total h_ksz h_enc h_msg]. rewrite length_zeros. split; [reflexivity|]. split; [exact F2|]. split; [exact F1|]. split; [split; assumption|]. split; [exact SO|]. split; [exact B1|]. split; [exact B2|]. split; [exact (F3 LK)|]. auto.
Qed.

Lemma mac_ok o n out inp io len : habs o (HOn n) -> bytes inp -> (io + len <= length inp)%nat ->
  exists o', H_mac a o out inp io len = Ok (o', out, None) /\ habs o' (HOn (hheard n (slice inp io len))).
Proof.
  intros (O1 & O2 & O3 & O4 & O5 & O6 & O7 & O8 & O9 & O10 & O11 & O12 & O13) Bi L. unfold H_mac.
  destruct (i_upd _ _ _ _ _ _ HA _ _ _ inp io len O12 Bi L) as (m & -> & R). eexists. split; [reflexivity|]. cbn [habs hheard b_ready b_ckey b_cinfo b_nonce b_custom b_mkey b_mtag b_label b_count b_ksz b_dir b_auth h_ck h_info h_pos h_cust h_mk h_tag h_label h_total h_ksz h_enc h_msg].
  repeat (split; [assumption|]). exact O13.
Qed.
(** Counter += Length; Finalize *)
Definition fin_state (n : hconn) (len : nat) : hconn :=
  let t := htotal n len in
  HConn (h_enc n) (h_ksz n) (h_ck n) (h_info n) (h_pos n) (h_cust n) (h_label n) (ha_next A (h_ksz n) (h_mk n) (h_cust n) (label_of t (h_label n))) [] t (ha_mac A (h_mk n) (h_msg n ++ le_bytes 8 (t + 24))).
Lemma fin_ok o n len out oo : habs o (HOn n) -> (oo + tag <= length out)%nat ->
  exists o', H_Finalize a (H_add o len) out oo = Ok (o', splice out oo (h_tag (fin_state n len))) /\ habs o' (HOn (fin_state n len)).
Proof.
  intros (O1 & O2 & O3 & O4 & O5 & O6 & O7 & O8 & O9 & O10 & O11 & O12 & O13) L. destruct O13 as (P1 & P2 & P3 & P4 & P5 & P6 & P7 & P8). unfold H_Finalize. cbv zeta.
  cbn [H_add b_ready b_ckey b_cinfo b_nonce b_custom b_mkey b_mtag b_label b_count b_ksz b_dir b_auth]. rewrite O4, O9, length_le_bytes, O7, O10, O6, O5.
  change (u64 (h_total n + Z.of_nat len)) with (htotal n len). set (t := htotal n len).
  assert (EL : le_bytes 8 (u64 (t + Z.of_nat 16 + 8)) = le_bytes 8 (t + 24)) by (apply le_bytes_cong; unfold u64; change (256 ^ Z.of_nat 8) with (2 ^ 64); rewrite Z.mod_mod by lia; f_equal; lia). rewrite EL.
  destruct (i_upd _ _ _ _ _ _ HA _ _ _ (le_bytes 8 (t + 24)) 0 8 O12 (bytes_le_bytes _ _) ltac:(rewrite length_le_bytes; lia)) as (m1 & -> & R1). cbn [bind]. rewrite slice_full in R1 by apply length_le_bytes.
  destruct (i_fin _ _ _ _ _ _ HA _ _ _ (h_tag n) R1 P1) as (m2 & -> & R2 & LT). cbn [bind]. rewrite (i_tag _ _ _ _ _ _ HA). rewrite wcopy_ok by lia. cbn [bind]. rewrite slice_full by exact LT.
  destruct O8 as (x & -> & LX). assert (LB : length (le_bytes 8 t) = 8%nat) by apply length_le_bytes. rewrite wr_ok by (rewrite LB, app_length; lia). cbn [bind].
  assert (SP : splice (x ++ h_label n) 0 (le_bytes 8 t) = label_of t (h_label n)).
  { unfold splice, label_of. rewrite firstn_O, LB. cbn [app Nat.add]. f_equal. rewrite skipn_app, LX. rewrite skipn_all2 by lia. reflexivity. }
  rewrite SP. pose proof (i_K _ _ _ _ _ _ HA (h_ksz n)) as KK.
  assert (LL : bytes (label_of t (h_label n)) /\ (10 <= length (label_of t (h_label n)) <= 58)%nat) by (unfold label_of; rewrite app_length, LB; split; [apply bytes_app; split; [apply bytes_le_bytes|exact P6]|lia]).
  destruct LL as (LL1 & LL2). destruct P4 as (P4 & P4').
  destruct (i_next _ _ _ _ _ _ HA (h_ksz n) (h_mk n) (h_cust n) _ P3 ltac:(lia) P4 P4' LL1 LL2 P5) as (-> & N1 & N2). cbn [bind].
  destruct (i_init _ _ _ _ _ _ HA m2 _ R2 N1 ltac:(lia)) as (m3 & -> & R3). cbn [bind]. rewrite wcopy_ok by lia. cbn [bind]. rewrite slice_full by reflexivity. rewrite splice_all by lia.
  eexists. split; [reflexivity|]. unfold fin_state. fold t. cbn [habs b_ready b_ckey b_cinfo b_nonce b_custom b_mkey b_mtag b_label b_count b_ksz b_dir b_auth h_ck h_info h_pos h_cust h_mk h_tag h_label h_total h_ksz h_enc h_msg].
  do 7 (split; [assumption || reflexivity|]). split; [exists (le_bytes 8 t); split; [reflexivity|exact LB]|]. do 2 (split; [assumption || reflexivity|]). split; [exact O11|]. split; [exact R3|].
  red. cbn [h_ck h_info h_pos h_cust h_mk h_tag h_label h_total h_ksz h_enc h_msg]. split; [exact LT|]. split; [exact N2|]. split; [exact N1|]. split; [split; assumption|]. auto.
Qed.
Lemma verify_ok o n len inp io : habs o (HOn n) -> bytes inp -> (io + tag <= length inp)%nat ->
  exists o' b, H_Verify a (H_add o len) inp io = Ok (o', b) /\ habs o' (HOn (fin_state n len)) /\ (b = true <-> slice inp io tag = h_tag (fin_state n len)).
Proof.
  intros HO Bi L. unfold H_Verify. rewrite (i_tag _ _ _ _ _ _ HA). destruct (fin_ok o n len (zeros tag) 0 HO ltac:(rewrite length_zeros; lia)) as (o1 & -> & H1). cbn [bind].
  pose proof H1 as (O1 & O2 & O3 & O4 & O5 & O6 & O7 & O8 & O9 & O10 & O11 & O12 & O13). destruct O13 as (P1 & P2 & P3 & P4 & P5 & P6 & P7 & P8).
  assert (BT : bytes (h_tag (fin_state n len))) by apply (i_mac _ _ _ _ _ _ HA).
  destruct (i_tag1 _ _ _ _ _ _ HA) as (T1 & T2). set (t := h_tag (fin_state n len)) in *. rewrite splice_all by (rewrite length_zeros; exact P1). rewrite O7, P1. replace (tag =? 0)%nat with false by (symmetry; apply Nat.eqb_neq; lia). cbn [negb].
  rewrite resized_zeros. rewrite wcopy_ok by (rewrite ?length_zeros; lia). cbn [bind]. rewrite length_zeros, slice_full by exact P1. rewrite splice_all by (rewrite length_zeros; exact P1).
  destruct (Compare_correct t 0 inp io tag ltac:(lia) ltac:(lia) BT Bi) as (b & -> & HB). cbn [bind]. rewrite slice_full in HB by exact P1.
  exists (HObj (b_ckey o1) (b_cinfo o1) (b_nonce o1) (b_custom o1) (b_mkey o1) t (b_label o1) (b_count o1) (b_ksz o1) (b_dir o1) (b_ready o1) (b_auth o1)), b. split; [reflexivity|]. split.
  - cbn [habs b_ready b_ckey b_cinfo b_nonce b_custom b_mkey b_mtag b_label b_count b_ksz b_dir b_auth]. do 6 (split; [assumption|]). split; [reflexivity|]. do 5 (split; [assumption|]). do 7 (split; [assumption|]). exact P8.
  - rewrite HB. split; congruence.
Qed.
Definition prof_ok (ord : nat -> list nat) : Prop := par p = true -> good_profile (deg p) (pblk p) /\ (forall i, schedule (deg p) (ord i)) /\ Z.of_nat (pblk p) <= 1044480.
Lemma crypt_ok o n ord inp io out oo len : habs o (HOn n) -> prof_ok ord -> (io + len <= length inp)%nat -> (oo + len <= length out)%nat ->
  exists o', H_crypt E s p ord o inp io out oo len = Ok (o', splice out oo (hcrypt E n (slice inp io len))) /\ habs o' (HOn (hmoved n len)).
Proof.
  intros (O1 & O2 & O3 & O4 & O5 & O6 & O7 & O8 & O9 & O10 & O11 & O12 & O13) PO L1 L2. pose proof O13 as (P1 & P2 & P3 & P4 & P5 & P6 & P7 & P8). unfold H_crypt. rewrite O2, O3, O4.
  rewrite (icm_counter_mode s p ord PO (E (h_ck n) (h_info n)) inp io out oo len (h_pos n) (proj1 (E_ok _ _ P8)) L2 L1). cbn [bind]. eexists. split; [reflexivity|].
  cbn [habs hmoved b_ready b_ckey b_cinfo b_nonce b_custom b_mkey b_mtag b_label b_count b_ksz b_dir b_auth h_ck h_info h_pos h_cust h_mk h_tag h_label h_total h_ksz h_enc h_msg].
  do 3 (split; [assumption || reflexivity|]). split; [reflexivity|]. do 8 (split; [assumption|]). exact O13.
Qed.
Lemma hcrypt_len n m : length (hcrypt E n m) = length m. Proof. apply crypt_len_le. Qed.
Lemma hcrypt_bytes n m : conn_ok n -> bytes m -> bytes (hcrypt E n m).
Proof. intros (P1 & P2 & P3 & P4 & P5 & P6 & P7 & P8) B. destruct (E_ok _ (h_info n) P8). now apply crypt_bytes_le. Qed.
Lemma tagged_eq n ct k : length ct = k -> fin_state (hheard (hnonce n) ct) k = htagged A n ct.
Proof. intros <-. unfold fin_state, htagged, htag_of. cbn [hheard hnonce h_ck h_info h_pos h_cust h_mk h_tag h_label h_total h_ksz h_enc h_msg]. rewrite <- !app_assoc. reflexivity. Qed.
Lemma tagged_moved n ct len k : length ct = k -> fin_state (hheard (hmoved (hnonce n) len) ct) k = hmoved (htagged A n ct) len.
Proof. intros <-. unfold fin_state, htagged, htag_of, hmoved. cbn [hheard hnonce h_ck h_info h_pos h_cust h_mk h_tag h_label h_total h_ksz h_enc h_msg]. rewrite <- !app_assoc. reflexivity. Qed.
Lemma nonce_ok o n out : habs o (HOn n) -> exists o', H_mac a o out (b_nonce o) 0 (length (b_nonce o)) = Ok (o', out, None) /\ habs o' (HOn (hnonce n)).
Proof.
  intros HO. assert (EN : b_nonce o = le_bytes 16 (h_pos n)) by apply HO. rewrite EN. destruct (mac_ok o n out (le_bytes 16 (h_pos n)) 0 (length (le_bytes 16 (h_pos n))) HO (bytes_le_bytes _ _) ltac:(lia)) as (o' & E' & H').
  exists o'. split; [exact E'|]. rewrite slice_full in H' by reflexivity. exact H'.
Qed.

(** the direction after a call *)
Definition dir_ok (st : hstate) (enc : bool) : Prop := match st with HIdle _ _ => True | HOn n => h_enc n = enc end.
Definition turned (enc : bool) (c : hcall) : bool := match c with HInit e key iv _ => if legal (length key) && (length iv =? 16)%nat then e else enc | _ => enc end.
Definition good_step (o : hobj M) (st : hstate) (enc : bool) (c : hcall) (cs : list hcall) : Prop :=
  exists o' st' r, hstep a E legal nm s p o c = Ok (o', r) /\ habs o' st' /\ dir_ok st' (turned enc c) /\
    (forall rs, hexpected A E legal nm st' cs rs -> hexpected A E legal nm st (c :: cs) (r :: rs)).

Lemma step_init o st enc e key iv info cs : habs o st -> dir_ok st enc -> hcall_ok p iok tag enc (HInit e key iv info) -> good_step o st enc (HInit e key iv info) cs.
Proof.
  intros HO HD (Bk & Bv & Bf & Sf & Hi). unfold good_step, turned. cbn [hstep]. destruct (legal (length key)) eqn:LK.
  2:{ exists o, st, (HFail InvalidKey []). unfold H_Initialize. rewrite LK. cbn [negb hreturn]. split; [reflexivity|]. split; [exact HO|]. split; [exact HD|]. intros rs H. cbn [hexpected]. rewrite LK. cbn [negb]. auto. }
  destruct (length iv =? 16)%nat eqn:LV.
  2:{ exists o, st, (HFail InvalidNonce []). unfold H_Initialize. rewrite LK, LV. cbn [negb hreturn]. split; [reflexivity|]. split; [exact HO|]. split; [exact HD|]. intros rs H. cbn [hexpected]. rewrite LK, LV. cbn [negb]. auto. }
  destruct (Init_legal o st e key iv info HO Bk Bv Bf Sf Hi LK (proj1 (Nat.eqb_eq _ _) LV)) as (I1 & I2). cbv zeta in I1, I2.
  destruct (ha_strict A && (0 <? length (cust_of st info))%nat && (length (cust_of st info) <? 4)%nat) eqn:ST.
  - destruct (I1 eq_refl) as (o' & -> & H1). eexists o', _, (HFail InvalidSalt []). split; [reflexivity|]. split; [exact H1|]. split; [exact I|]. intros rs H. cbn [hexpected]. rewrite LK, LV, ST. cbn [negb]. auto.
  - destruct (I2 eq_refl) as (o' & -> & H1). eexists o', _, HDone. split; [reflexivity|]. split; [exact H1|]. split; [reflexivity|]. intros rs H. cbn [hexpected]. rewrite LK, LV, ST. cbn [negb]. auto.
Qed.
Lemma step_aad o st enc inp off len cs : habs o st -> dir_ok st enc -> hcall_ok p iok tag enc (HAad inp off len) -> good_step o st enc (HAad inp off len) cs.
Proof.
  intros HO HD (Bi & Si & L). unfold good_step, turned. cbn [hstep]. unfold H_SetAssociatedData. destruct st as [c t|n].
  { exists o, (HIdle c t), (HFail NotInitialized []). pose proof HO as (O1 & _). rewrite O1. cbn [negb hreturn]. split; [reflexivity|]. split; [exact HO|]. split; [exact I|]. intros rs H. cbn [hexpected]. auto. }
  pose proof HO as (O1 & _). rewrite O1. cbn [negb]. unfold short in Si. destruct (Nat.ltb_spec len off) as [LT|GE].
  - exists o, (HOn n), (HFail InvalidSize []). replace (Z.of_nat (length inp) <? u64 (Z.of_nat len - Z.of_nat off)) with true.
    2:{ symmetry. apply Z.ltb_lt. unfold u64. replace (Z.of_nat len - Z.of_nat off) with (2 ^ 64 - (Z.of_nat off - Z.of_nat len) + (-1) * 2 ^ 64) by lia. rewrite Z.mod_add by lia. rewrite Z.mod_small by lia. lia. }
    cbn [hreturn]. split; [reflexivity|]. split; [exact HO|]. split; [exact HD|]. intros rs H. cbn [hexpected]. rewrite (proj2 (Nat.ltb_lt _ _) LT). auto.
  - replace (Z.of_nat (length inp) <? u64 (Z.of_nat len - Z.of_nat off)) with false by (symmetry; apply Z.ltb_ge; unfold u64; rewrite Z.mod_small; lia).
    assert (LS : length (slice inp off len) = len) by (apply length_slice; lia).
    destruct (Nat.eqb_spec len 0) as [Z0|NZ].
    + exists o, (HOn n), HDone. cbn [hreturn]. split; [reflexivity|]. split; [exact HO|]. split; [exact HD|]. intros rs H. cbn [hexpected]. rewrite (proj2 (Nat.ltb_ge _ _) GE). split; [reflexivity|].
      destruct (slice inp off len); [exact H|cbn in LS; lia].
    + destruct (mac_ok o n [] inp off len HO Bi L) as (o1 & -> & H1). cbn [hthen].
      destruct (mac_ok o1 _ [] (le_bytes 4 (u32 (Z.of_nat len))) 0 4 H1 (bytes_le_bytes _ _) ltac:(rewrite length_le_bytes; lia)) as (o2 & -> & H2). cbn [hreturn].
      exists o2, (HOn (haad n (slice inp off len))), HDone. split; [reflexivity|]. split; [|split; [destruct (slice inp off len); exact HD|]].
      * rewrite slice_full in H2 by apply length_le_bytes. unfold haad. destruct (slice inp off len) as [|b l] eqn:ES; [cbn in LS; lia|]. rewrite LS.
        replace (le_bytes 4 (Z.of_nat len)) with (le_bytes 4 (u32 (Z.of_nat len))) by (apply le_bytes_mod).
        unfold hheard in *. cbn [h_ck h_info h_pos h_cust h_mk h_tag h_label h_total h_ksz h_enc h_msg] in *. rewrite <- app_assoc in H2. exact H2.
      * intros rs H. cbn [hexpected]. rewrite (proj2 (Nat.ltb_ge _ _) GE). auto.
Qed.
Lemma step_transform o st enc inp io out oo len ord cs : habs o st -> dir_ok st enc -> hcall_ok p iok tag enc (HTransform inp io out oo len ord) -> good_step o st enc (HTransform inp io out oo len ord) cs.
Proof.
  intros HO HD (Bi & Bo & Si & So & L1 & L2 & PO). unfold good_step, turned. cbn [hstep]. unfold H_Transform. destruct st as [c t|n].
  { exists o, (HIdle c t), (HFail NotInitialized out). pose proof HO as (O1 & _). rewrite O1. cbn [negb hreturn]. split; [reflexivity|]. split; [exact HO|]. split; [exact I|]. intros rs H. cbn [hexpected]. auto. }
  cbn [dir_ok] in HD. subst enc. pose proof HO as (O1 & _). rewrite O1. cbn [negb]. unfold short in Si, So.
  destruct (nonce_ok o n out HO) as (o1 & -> & H1). cbn [hthen]. cbv zeta. pose proof (i_tag1 _ _ _ _ _ _ HA) as T1. rewrite (i_tag _ _ _ _ _ _ HA).
  assert (OD : b_dir o1 = h_enc n) by apply H1. rewrite OD.
  assert (RO : u64 (Z.of_nat (length out) - Z.of_nat oo) = Z.of_nat (length out) - Z.of_nat oo) by (unfold u64; rewrite Z.mod_small; lia). rewrite RO.
  assert (TG : u64 (Z.of_nat len + Z.of_nat tag) = Z.of_nat len + Z.of_nat tag) by (unfold u64; rewrite Z.mod_small; destruct (h_enc n); lia). rewrite TG.
  assert (CN : conn_ok n) by apply HO. set (data := slice inp io len). assert (LD : length data = len) by (apply length_slice; destruct (h_enc n); lia).
  destruct (h_enc n) eqn:EE.
  - destruct (Z.ltb_spec (Z.of_nat (length out) - Z.of_nat oo) (Z.of_nat len + Z.of_nat tag)) as [LT|GE].
    + exists o1, (HOn (hnonce n)), (HFail InvalidSize out). cbn [hreturn]. split; [reflexivity|]. split; [exact H1|]. split; [exact EE|]. intros rs H. cbn [hexpected]. rewrite EE. replace (length out <? oo + len + tag)%nat with true by (symmetry; apply Nat.ltb_lt; lia). auto.
    + destruct (crypt_ok o1 _ ord inp io out oo len H1 PO ltac:(lia) ltac:(lia)) as (o2 & -> & H2). cbn [bind]. fold data. change (hcrypt E (hnonce n) data) with (hcrypt E n data). set (ct := hcrypt E n data) in *.
      assert (LC : length ct = len) by (unfold ct; now rewrite hcrypt_len). assert (BC : bytes ct) by (apply hcrypt_bytes; [exact CN|now apply bytes_slice]).
      assert (LO : length (splice out oo ct) = length out) by (apply length_splice; lia).
      destruct (mac_ok o2 _ (splice out oo ct) (splice out oo ct) oo len H2 ltac:(apply bytes_splice; auto) ltac:(lia)) as (o3 & -> & H3). cbn [hthen].
      assert (SS : slice (splice out oo ct) oo len = ct) by (rewrite <- LC; apply slice_splice_same; lia). rewrite SS in H3.
      destruct (fin_ok o3 _ len (splice out oo ct) (oo + len) H3 ltac:(lia)) as (o4 & -> & H4). cbn [bind fst snd hreturn].
      rewrite (tagged_moved n ct len len LC) in *. change (h_tag (hmoved (htagged A n ct) len)) with (htag_of A n ct).
      assert (LT : length (htag_of A n ct) = tag) by (destruct H4 as (_ & _ & _ & _ & _ & _ & _ & _ & _ & _ & _ & _ & (Q & _)); exact Q).
      replace (splice (splice out oo ct) (oo + len) (htag_of A n ct)) with (splice out oo (ct ++ htag_of A n ct)) by (rewrite <- LC; symmetry; apply splice_splice_next; lia).
      exists o4, (HOn (hmoved (htagged A n ct) len)), (HOut (splice out oo (ct ++ htag_of A n ct))). split; [reflexivity|]. split; [exact H4|]. split; [exact EE|].
      intros rs H. cbn [hexpected]. rewrite EE. replace (length out <? oo + len + tag)%nat with false by (symmetry; apply Nat.ltb_ge; lia). split; [|exact H].
      eexists. split; [reflexivity|]. apply splice_written. rewrite app_length. fold data. fold ct. lia.
  - destruct (Z.ltb_spec (Z.of_nat (length out) - Z.of_nat oo) (Z.of_nat len)) as [LT|GE].
    + exists o1, (HOn (hnonce n)), (HFail InvalidSize out). cbn [hreturn]. split; [reflexivity|]. split; [exact H1|]. split; [exact EE|]. intros rs H. cbn [hexpected]. rewrite EE. replace (length out <? oo + len + 0)%nat with true by (symmetry; apply Nat.ltb_lt; lia). auto.
    + destruct (mac_ok o1 _ out inp io len H1 Bi ltac:(lia)) as (o2 & -> & H2). cbn [hthen]. fold data in H2 |- *.
      destruct (verify_ok o2 _ len inp (io + len) H2 Bi ltac:(lia)) as (o3 & b & -> & H3 & HB). cbn [bind]. rewrite (tagged_eq n data len LD) in H3, HB. change (h_tag (htagged A n data)) with (htag_of A n data) in HB.
      destruct b; cbn [negb].
      * destruct (crypt_ok o3 _ ord inp io out oo len H3 PO ltac:(lia) ltac:(lia)) as (o4 & -> & H4). cbn [bind fst snd hreturn]. fold data. change (hcrypt E (htagged A n data) data) with (hcrypt E n data).
        eexists o4, _, _. split; [reflexivity|]. split; [exact H4|]. split; [exact EE|]. intros rs H. cbn [hexpected]. rewrite EE. replace (length out <? oo + len + 0)%nat with false by (symmetry; apply Nat.ltb_ge; lia).
        left. split; [now apply HB|]. split; [|exact H]. eexists. split; [reflexivity|]. apply splice_written. rewrite hcrypt_len. fold data. lia.
      * cbn [hreturn]. eexists o3, _, _. split; [reflexivity|]. split; [exact H3|]. split; [exact EE|]. intros rs H. cbn [hexpected]. rewrite EE. replace (length out <? oo + len + 0)%nat with false by (symmetry; apply Nat.ltb_ge; lia).
        right. split; [intros Q; apply HB in Q; discriminate|]. split; [reflexivity|exact H].
Qed.
Lemma step_ok o st enc c cs : habs o st -> dir_ok st enc -> hcall_ok p iok tag enc c -> good_step o st enc c cs.
Proof.
  intros HO HD HX. destruct c as [e key iv info|inp off len|inp io out oo len ord|]; [now apply step_init|now apply step_aad|now apply step_transform|].
  red. cbn [hstep turned]. exists o, st, (HOut (match st with HIdle _ t => t | HOn n => h_tag n end)). unfold H_Tag. split; [|split; [exact HO|split; [exact HD|intros rs H; cbn [hexpected]; auto]]].
  destruct st as [c t|n]; [destruct HO as (_ & _ & _ & -> & _)|destruct HO as (_ & _ & _ & _ & _ & _ & -> & _)]; reflexivity.
Qed.
Lemma hhistory_ok cs : forall o st enc, habs o st -> dir_ok st enc -> hcalls_ok legal p iok tag enc cs -> exists rs, hhistory a E legal nm s p o cs = Ok rs /\ hexpected A E legal nm st cs rs.
Proof.
  induction cs as [|c cs IH]; intros o st enc HO HD HX; [exists []; split; [reflexivity|exact I]|]. cbn [hcalls_ok] in HX. destruct HX as [Hc HX]. cbn [hhistory].
  destruct (step_ok o st enc c cs HO HD Hc) as (o' & st' & r & -> & H1 & H2 & H3). cbn [bind fst snd]. destruct (IH o' st' (turned enc c) H1 H2 HX) as (rs & -> & H4). cbn [bind]. exists (r :: rs). split; [reflexivity|]. now apply H3.
Qed.
Lemma new_abs : habs (H_new a) (HIdle [] []).
Proof. cbn [habs H_new b_ready b_custom b_mtag b_auth]. do 2 (split; [reflexivity|]). split; [split; [constructor|red; cbn; lia]|]. split; [reflexivity|]. split; [left; reflexivity|]. exact (i_new _ _ _ _ _ _ HA). Qed.
Lemma hba_history cs enc : hcalls_ok legal p iok tag enc cs -> exists rs, hhistory a E legal nm s p (H_new a) cs = Ok rs /\ hexpected A E legal nm (HIdle [] []) cs rs.
Proof. intros H. exact (hhistory_ok cs _ _ enc new_abs I H). Qed.
End obj.
