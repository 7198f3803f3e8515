(** The HBA properties, assembled. *)
From Verif Require Import BaseLemmas Spec_Common Proofs_Common Proofs_GCM Spec_Modes Spec_MAC Spec_KDF Model_Modes ProofsP_Modes2 Spec_SHA2 Model_SHA2 Session_SHA2 Proofs_SHA2obj Proofs_SHA2cmp Session_Digest ProofsP_SHA2 ProofsP_MAC ProofsP_KDF
  Session_KMAC Proofs_CSX3 Session_Block Proofs_RHX ProofsP_RHX Session_SHX ProofsP_SHX Spec_HBA Model_HBA Session_HBA Proofs_HBA Proofs_HBA2 Proofs_HBA3.
Open Scope Z_scope.

Lemma kdf_all : kdf_ok SHA2256_Update SHA2256_Finalize SHA2256_new SHA2512_Update SHA2512_Finalize SHA2512_new.
Proof.
  intros key cust label Bk Bc Bl Ll. split; intros HM ->; split.
  - refine (hkdf_first_ok 64 32 SHA2256_Update SHA2256_Finalize SHA2256_new after256 sha256 _ _ after256_new upd256 final256 sha256_len sha256_bytes key cust label Bk Bc Bl Ll); lia.
  - refine (hkdf_next_ok 64 32 SHA2256_Update SHA2256_Finalize SHA2256_new after256 sha256 _ _ after256_new upd256 final256 sha256_len sha256_bytes key cust label Bk Bc Bl Ll); lia.
  - refine (hkdf_first_ok 128 64 SHA2512_Update SHA2512_Finalize SHA2512_new after512 sha512_code _ _ after512_new upd512 c31_final sha512_code_len sha512_code_bytes key cust label Bk Bc Bl Ll); lia.
  - refine (hkdf_next_ok 128 64 SHA2512_Update SHA2512_Finalize SHA2512_new after512 sha512_code _ _ after512_new upd512 c31_final sha512_code_len sha512_code_bytes key cust label Bk Bc Bl Ll); lia.
Qed.
Lemma all_implement {M} (a : engine M) A hk E legal nm iok : hba_authenticator a A hk -> hba_cipher E legal nm iok hk -> exists K RM Rany, implements a A legal K RM Rany.
Proof.
  intros HA (_ & _ & C & _). destruct HA.
  - do 3 eexists. apply kmac_implements; [lia|reflexivity|lia].
  - do 3 eexists. apply kmac_implements; [lia|reflexivity|lia].
  - do 3 eexists. refine (hmac_implements 64 32 SHA2256_Update SHA2256_Finalize SHA2256_new after256 sha256 _ _ after256_new upd256 final256 sha256_len sha256_bytes _ _ _ _ _ _ kdf_all sha256_len sha256_bytes sha512_code_len sha512_code_bytes legal (C eq_refl)); lia.
  - do 3 eexists. refine (hmac_implements 128 64 SHA2512_Update SHA2512_Finalize SHA2512_new after512 sha512_code _ _ after512_new upd512 c31_final sha512_code_len sha512_code_bytes _ _ _ _ _ _ kdf_all sha256_len sha256_bytes sha512_code_len sha512_code_bytes legal (C eq_refl)); lia.
Qed.
Lemma tag_range {M} (a : engine M) A hk : hba_authenticator a A hk -> (0 < ha_tag A <= 64)%nat.
Proof. intros []; cbn [kmac_auth hmac_auth ha_tag]; lia. Qed.
(** the block ciphers of C40 and C41 *)
Lemma legal_sizes n : rhx_legal n = true -> (n = 16 \/ n = 24 \/ n = 32 \/ n = 64)%nat.
Proof. unfold rhx_legal. rewrite !Bool.orb_true_iff, !Nat.eqb_eq. tauto. Qed.
Lemma u8_bytes l : bytes (map u8 l).
Proof. apply Forall_map. apply Forall_forall. intros x _. apply Z.mod_pos_bound. lia. Qed.
Lemma c72_cipher v nm hk : In v (rhx_variants ++ shx_variants) -> bytes nm -> (length nm <= 48)%nat -> hba_cipher (fun k i b => cp_enc (v_cipher v) k i (map u8 b)) (cp_legal (v_cipher v)) nm (v_info v) hk.
Proof.
  intros HI BN LN. assert (X : works v /\ forall n, cp_legal (v_cipher v) n = rhx_legal n).
  { apply in_app_or in HI. destruct HI as [HI|HI]; [split; [now apply rhx_works|intros n; now apply rhx_small]|split; [now apply shx_works|intros n; now apply shx_small]]. }
  destruct X as ((_ & IV) & SM). split; [|split; [|split; [|auto]]].
  - intros k i b L Bk Bi Hi Lb. destruct (IV k i (map u8 b) L Bk Bi Hi) as ((I1 & I2 & _) & _); [rewrite map_length; exact Lb|apply u8_bytes|]. auto.
  - intros n. rewrite SM. intros L. destruct (legal_sizes n L) as [->|[->|[->| ->]]]; lia.
  - intros _ n _. rewrite SM. reflexivity.
Qed.

Section all.
Context {M : Type} (a : engine M) (A : hauth) (hk : bool) (E : list Z -> list Z -> list Z -> list Z) (legal : nat -> bool) (nm : list Z) (iok : list Z -> Prop).
Hypothesis HA : hba_authenticator a A hk.
Hypothesis HC : hba_cipher E legal nm iok hk.
Local Notation tag := (ha_tag A).
Lemma c72_hist s p enc cs : hcalls_ok legal p iok tag enc cs -> exists rs, hhistory a E legal nm s p (H_new a) cs = Ok rs /\ hexpected A E legal nm (HIdle [] []) cs rs.
Proof. destruct (all_implement a A hk E legal nm iok HA HC) as (K & RM & Rany & HI). exact (hba_history a A E legal nm s p iok hk K RM Rany HI HC cs enc). Qed.
Lemma c72_trip s s' p p' key iv info ls : haccepted A legal iok key iv info -> Forall (hletter_ok tag p p') ls ->
  exists rs rs', hhistory a E legal nm s p (H_new a) (HInit true key iv info :: hseal_calls tag ls) = Ok rs /\ map (@length Z) (houts rs) = map (fun l => (length (hl_msg l) + tag)%nat) ls /\
    hhistory a E legal nm s' p' (H_new a) (HInit false key iv info :: hopen_calls tag ls (houts rs)) = Ok rs' /\ houts rs' = map hl_msg ls.
Proof. destruct (all_implement a A hk E legal nm iok HA HC) as (K & RM & Rany & HI). exact (talk a A E legal nm iok hk K RM Rany HI HC s s' p p' key iv info ls). Qed.
Lemma c73_tamper s s' p p' key iv info ls l ps ct tg tg' : haccepted A legal iok key iv info -> Forall (hletter_ok tag p p') (ls ++ [l]) -> length tg = tag -> length tg' = tag -> bytes tg' -> tg' <> tg ->
  forall rs, hhistory a E legal nm s p (H_new a) (HInit true key iv info :: hseal_calls tag (ls ++ [l])) = Ok rs -> houts rs = ps ++ [ct ++ tg] ->
  exists rs', hhistory a E legal nm s' p' (H_new a) (HInit false key iv info :: hopen_calls tag (ls ++ [l]) (ps ++ [ct ++ tg'])) = Ok (rs' ++ [HFail AuthenticationFailure (zeros (length (hl_msg l)))]) /\ houts rs' = map hl_msg ls.
Proof. destruct (all_implement a A hk E legal nm iok HA HC) as (K & RM & Rany & HI). exact (tamper a A E legal nm iok hk K RM Rany HI HC s s' p p' key iv info ls l ps ct tg tg'). Qed.

(** ** one call at a time *)
Lemma hask_ok p x len ord : bytes x -> length x = (len + tag)%nat -> short x -> fair p ord -> hcall_ok p iok tag false (hask x len ord).
Proof. intros B L S F. cbn [hask hcall_ok]. split; [exact B|]. split; [apply bytes_zeros|]. split; [exact S|]. unfold short in *. rewrite length_zeros, L in *. split; [lia|]. split; [lia|]. split; [lia|]. exact F. Qed.
Lemma hsend_ok p m ord : bytes m -> 8 * (Z.of_nat (length m) + Z.of_nat tag) < 2 ^ 64 -> fair p ord -> hcall_ok p iok tag true (hsend tag m ord).
Proof. intros B L F. cbn [hsend hcall_ok]. split; [exact B|]. split; [apply bytes_zeros|]. unfold short. rewrite length_zeros. split; [lia|]. split; [lia|]. split; [lia|]. split; [lia|]. exact F. Qed.

(** ** associated data *)
Lemma c73_aad s p enc key iv info inp off len : haccepted A legal iok key iv info -> bytes inp -> short inp -> (off + len <= length inp)%nat -> (len < off)%nat ->
  hhistory a E legal nm s p (H_new a) [HInit enc key iv info; HAad inp off len] = Ok [HDone; HFail InvalidSize []].
Proof.
  intros AC B S W L. destruct (all_implement a A hk E legal nm iok HA HC) as (K & RM & Rany & HI).
  destruct (start_history a A E legal nm iok hk K RM Rany HI HC s p enc key iv info [HAad inp off len] AC) as (rs & -> & X); [cbn [hcalls_ok hcall_ok]; auto|].
  destruct rs as [|r rs]; [contradiction|]. cbn [hexpected] in X. destruct (Nat.ltb_spec len off); [|lia]. destruct X as [-> X]. destruct rs; [reflexivity|contradiction].
Qed.

(** ** a refused Transform *)
Lemma c73_refused s s' p p' key iv info m ord ord0 ord' : haccepted A legal iok key iv info -> bytes m -> 8 * (Z.of_nat (length m) + Z.of_nat tag) < 2 ^ 64 -> fair p ord -> fair p ord0 -> fair p' ord' ->
  let mk := snd (ha_first A key info (label_of 1 (label_rest nm key))) in let total := le_bytes 8 ((1 + Z.of_nat (length m)) mod 2 ^ 64 + 24) in
  exists ct, length ct = length m /\
    hhistory a E legal nm s p (H_new a) [HInit true key iv info; HTransform m 0 [] 0 (length m) ord0; hsend tag m ord] =
      Ok [HDone; HFail InvalidSize []; HOut (ct ++ ha_mac A mk (iv ++ iv ++ ct ++ total))] /\
    (ha_mac A mk (iv ++ iv ++ ct ++ total) <> ha_mac A mk (iv ++ ct ++ total) ->
     hhistory a E legal nm s' p' (H_new a) [HInit false key iv info; hask (ct ++ ha_mac A mk (iv ++ iv ++ ct ++ total)) (length m) ord'] = Ok [HDone; HFail AuthenticationFailure (zeros (length m))]).
Proof.
  intros AC B S F F0 F' mk total. destruct (all_implement a A hk E legal nm iok HA HC) as (K & RM & Rany & HI). pose proof (tag_range a A hk HA) as TR.
  pose proof AC as (Bk & Bi & _ & _ & _ & _ & Li & _).
  set (n := opened A nm true key iv info). assert (N : nok A legal iok K RM n) by (apply (opened_ok a A E legal nm iok hk K RM Rany HI HC); exact AC).
  assert (IV : le_bytes 16 (h_pos n) = iv) by (unfold n; cbn [opened hopened h_pos]; rewrite <- Li; rewrite value_le_eq; now apply le_bytes_le_val).
  assert (N0 : nok A legal iok K RM (hnonce n)) by (apply (hear a A legal iok K RM Rany HI n); [exact N|apply bytes_le_bytes]).
  destruct (crypt_facts A E legal nm iok hk K RM HC n m N) as (LC & _ & BC).
  assert (CU : cust_of (HIdle [] []) info = info) by (destruct info; reflexivity).
  assert (MK : mk = h_mk n) by (unfold mk, n; cbn [opened hopened h_mk]; now rewrite CU).
  assert (TT : total = le_bytes 8 (htotal n (length (hcrypt E n m)) + 24)) by (rewrite LC; reflexivity). rewrite MK, TT. clear MK TT mk total.
  exists (hcrypt E n m). split; [exact LC|].
  assert (M0 : h_msg n = []) by reflexivity.
  assert (T0 : htag_of A (hnonce n) (hcrypt E n m) = ha_mac A (h_mk n) (iv ++ iv ++ hcrypt E n m ++ le_bytes 8 (htotal n (length (hcrypt E n m)) + 24))).
  { unfold htag_of. cbn [hnonce hheard h_msg h_mk h_pos]. rewrite M0, IV. cbn [app]. now rewrite <- !app_assoc. }
  assert (T1 : htag_of A n (hcrypt E n m) = ha_mac A (h_mk n) (iv ++ hcrypt E n m ++ le_bytes 8 (htotal n (length (hcrypt E n m)) + 24))).
  { unfold htag_of. cbn [hnonce hheard h_msg h_mk h_pos]. rewrite M0, IV. reflexivity. }
  rewrite <- T0, <- T1. destruct (tag_facts a A legal iok K RM Rany HI (hnonce n) _ N0 (BC B)) as (TL & TB & _). split.
  - destruct (start_history a A E legal nm iok hk K RM Rany HI HC s p true key iv info [HTransform m 0 [] 0 (length m) ord0; hsend tag m ord] AC) as (rs & -> & X).
    { cbn [hcalls_ok]. split; [|split; [|exact I]].
      - cbn [hcall_ok]. split; [exact B|]. split; [constructor|]. unfold short. split; [lia|]. split; [cbn [length]; lia|]. split; [lia|]. split; [cbn [length]; lia|]. exact F0.
      - now apply hsend_ok. }
    fold n in X. destruct rs as [|r rs]; [contradiction|]. cbn [hexpected] in X. cbv zeta in X. change (h_enc n) with true in X. cbv iota in X.
    destruct (Nat.ltb_spec (@length Z []) (0 + length m + tag)); [|cbn [length] in *; lia]. destruct X as [-> X].
    destruct rs as [|r rs]; [contradiction|]. unfold hsend in X. cbn [hexpected] in X. cbv zeta in X. change (h_enc (hnonce n)) with true in X. cbv iota in X. rewrite length_zeros in X.
    destruct (Nat.ltb_spec (length m + tag) (0 + length m + tag)); [lia|]. destruct X as [(out' & -> & W) X]. destruct rs; [|contradiction].
    rewrite slice_all in W by reflexivity. change (hcrypt E (hnonce n) m) with (hcrypt E n m) in W. apply (written_zeros (length m + tag)) in W; [|rewrite app_length, LC, TL; reflexivity]. now subst out'.
  - intros NE. assert (LX : length (hcrypt E n m ++ htag_of A (hnonce n) (hcrypt E n m)) = (length m + tag)%nat) by (rewrite app_length, LC, TL; reflexivity).
    destruct (start_history a A E legal nm iok hk K RM Rany HI HC s' p' false key iv info [hask (hcrypt E n m ++ htag_of A (hnonce n) (hcrypt E n m)) (length m) ord'] AC) as (rs & -> & X).
    { cbn [hcalls_ok]. split; [|exact I]. apply hask_ok; [apply bytes_app; split; [exact (BC B)|exact TB]|exact LX|red; rewrite LX; lia|exact F']. }
    change (opened A nm false key iv info) with (turn n) in X. destruct rs as [|r rs]; [contradiction|]. unfold hask in X. cbn [hexpected] in X. cbv zeta in X. change (h_enc (turn n)) with false in X. cbv iota in X. rewrite length_zeros in X.
    destruct (Nat.ltb_spec (length m) (0 + length m + 0)); [lia|]. assert (S1 : slice (hcrypt E n m ++ htag_of A (hnonce n) (hcrypt E n m)) 0 (length m) = hcrypt E n m) by (rewrite <- LC; apply slice_left).
    assert (S2 : slice (hcrypt E n m ++ htag_of A (hnonce n) (hcrypt E n m)) (0 + length m) tag = htag_of A (hnonce n) (hcrypt E n m)) by (cbn [Nat.add]; rewrite <- LC; now apply slice_right).
    rewrite S1, S2 in X.
    change (htag_of A (turn n) (hcrypt E n m)) with (htag_of A n (hcrypt E n m)) in X. destruct X as [(EQ & _)|(_ & -> & X)]; [contradiction|]. destruct rs; [reflexivity|contradiction].
Qed.

(** ** a refused packet *)
(** one packet through the receiver *)
Lemma one_ask n ct tg ord cs r rs : length tg = tag -> h_enc n = false -> hexpected A E legal nm (HOn n) (hask (ct ++ tg) (length ct) ord :: cs) (r :: rs) ->
  (tg = htag_of A n ct /\ (exists pt, r = HOut pt /\ length pt = length ct /\ (length (hcrypt E n ct) = length ct -> pt = hcrypt E n ct)) /\ hexpected A E legal nm (HOn (hmoved (htagged A n ct) (length ct))) cs rs)
  \/ (tg <> htag_of A n ct /\ r = HFail AuthenticationFailure (zeros (length ct)) /\ hexpected A E legal nm (HOn (htagged A n ct)) cs rs).
Proof.
  intros LT EN X. unfold hask in X. cbn [hexpected] in X. cbv zeta in X. rewrite EN, length_zeros in X. destruct (Nat.ltb_spec (length ct) (0 + length ct + 0)); [lia|].
  rewrite slice_left in X. cbn [Nat.add] in X. rewrite (slice_right _ _ tag LT) in X. destruct X as [(EQ & (pt & -> & W) & X)|(NE & -> & X)]; [left|right; auto].
  split; [exact EQ|]. split; [|exact X]. exists pt. split; [reflexivity|]. destruct W as (L1 & W). rewrite length_zeros in L1. split; [exact L1|]. intros LC. apply (written_zeros (length ct)); [exact LC|]. split; [now rewrite length_zeros|exact W].
Qed.
Lemma c73_oracle s p key iv info ct tg ord : haccepted A legal iok key iv info -> bytes ct -> bytes tg -> length tg = tag -> 8 * (Z.of_nat (length ct) + Z.of_nat tag) < 2 ^ 64 -> fair p ord ->
  exists r t pt, hhistory a E legal nm s p (H_new a) [HInit false key iv info; hask (ct ++ tg) (length ct) ord; HTag] = Ok [HDone; r; HOut t] /\ length t = tag /\
    hhistory a E legal nm s p (H_new a) [HInit false key iv info; hask (ct ++ t) (length ct) ord] = Ok [HDone; HOut pt].
Proof.
  intros AC Bc Bt Lt S F. destruct (all_implement a A hk E legal nm iok HA HC) as (K & RM & Rany & HI).
  set (n := opened A nm false key iv info). assert (N : nok A legal iok K RM n) by (apply (opened_ok a A E legal nm iok hk K RM Rany HI HC); exact AC).
  assert (OK : forall x, bytes x -> length x = tag -> hcall_ok p iok tag false (hask (ct ++ x) (length ct) ord)).
  { intros x Bx Lx. apply hask_ok; [apply bytes_app; auto|rewrite app_length, Lx; reflexivity|red; rewrite app_length, Lx; lia|exact F]. }
  destruct (start_history a A E legal nm iok hk K RM Rany HI HC s p false key iv info [hask (ct ++ tg) (length ct) ord; HTag] AC) as (rs & -> & X); [cbn [hcalls_ok hask]; split; [now apply OK|]; split; exact I|].
  fold n in X. destruct (tag_facts a A legal iok K RM Rany HI n ct N Bc) as (TL & TB & _).
  assert (Y : exists r, rs = [r; HOut (htag_of A n ct)]).
  { destruct rs as [|r rs]; [contradiction|]. exists r. apply (one_ask n ct tg ord [HTag] r rs Lt eq_refl) in X. destruct X as [(_ & _ & X)|(_ & _ & X)]; (destruct rs as [|r2 rs]; [contradiction|]; cbn [hexpected] in X; destruct X as (-> & X); destruct rs; [reflexivity|contradiction]). }
  destruct Y as (r & ->). exists r, (htag_of A n ct).
  destruct (start_history a A E legal nm iok hk K RM Rany HI HC s p false key iv info [hask (ct ++ htag_of A n ct) (length ct) ord] AC) as (rs & -> & X2); [cbn [hcalls_ok hask]; split; [now apply OK|exact I]|].
  fold n in X2. destruct rs as [|r2 rs]; [contradiction|]. apply (one_ask n ct _ ord [] r2 rs TL eq_refl) in X2. destruct X2 as [(_ & (pt & -> & _) & X2)|(NE & _)]; [|now elim NE]. destruct rs; [|contradiction]. exists pt. auto.
Qed.
(** the counter block does not move when a packet is refused *)
Lemma c73_desync s s' p p' key iv info m1 m2 bad o1 o2 o1' o2' : haccepted A legal iok key iv info -> bytes m1 -> bytes m2 ->
  8 * (Z.of_nat (length m1) + Z.of_nat tag) < 2 ^ 64 -> 8 * (Z.of_nat (length m2) + Z.of_nat tag) < 2 ^ 64 -> fair p o1 -> fair p o2 -> fair p' o1' -> fair p' o2' -> bytes bad -> length bad = tag ->
  let mk1 := snd (ha_first A key info (label_of 1 (label_rest nm key))) in
  let total1 := (1 + Z.of_nat (length m1)) mod 2 ^ 64 in
  let mk := ha_next A (length key) mk1 info (label_of total1 (label_rest nm key)) in
  let total := le_bytes 8 ((total1 + Z.of_nat (length m2)) mod 2 ^ 64 + 24) in
  exists c1 t1 c2, length c1 = length m1 /\ length c2 = length m2 /\
    let next := le_bytes 16 (value_le iv + Z.of_nat (Spec_Modes.blocks_for (length m1))) in
    let t2 := ha_mac A mk (next ++ c2 ++ total) in
    hhistory a E legal nm s p (H_new a) [HInit true key iv info; hsend tag m1 o1; hsend tag m2 o2] = Ok [HDone; HOut (c1 ++ t1); HOut (c2 ++ t2)] /\
    (bad <> t1 -> t2 <> ha_mac A mk (iv ++ c2 ++ total) ->
     hhistory a E legal nm s' p' (H_new a) [HInit false key iv info; hask (c1 ++ bad) (length m1) o1'; hask (c2 ++ t2) (length m2) o2'] =
       Ok [HDone; HFail AuthenticationFailure (zeros (length m1)); HFail AuthenticationFailure (zeros (length m2))]).
Proof.
  intros AC B1 B2 S1 S2 F1 F2 F1' F2' Bb Lb mk1 total1 mk total. destruct (all_implement a A hk E legal nm iok HA HC) as (K & RM & Rany & HI). pose proof (tag_range a A hk HA) as TR.
  pose proof AC as (Bk & Bi & _ & _ & _ & _ & Li & _).
  set (n := opened A nm true key iv info). assert (N : nok A legal iok K RM n) by (apply (opened_ok a A E legal nm iok hk K RM Rany HI HC); exact AC).
  assert (IV : le_bytes 16 (h_pos n) = iv) by (unfold n; cbn [opened hopened h_pos]; rewrite <- Li; rewrite value_le_eq; now apply le_bytes_le_val).
  destruct (crypt_facts A E legal nm iok hk K RM HC n m1 N) as (L1 & _ & BC1). set (c1 := hcrypt E n m1) in *. specialize (BC1 B1).
  destruct (tag_facts a A legal iok K RM Rany HI n c1 N BC1) as (TL1 & TB1 & N1).
  set (n2 := hmoved (htagged A n c1) (length m1)). assert (N2 : nok A legal iok K RM n2) by exact N1.
  destruct (crypt_facts A E legal nm iok hk K RM HC n2 m2 N2) as (L2 & _ & BC2). set (c2 := hcrypt E n2 m2) in *. specialize (BC2 B2).
  destruct (tag_facts a A legal iok K RM Rany HI n2 c2 N2 BC2) as (TL2 & TB2 & _).
  assert (CU : cust_of (HIdle [] []) info = info) by (destruct info; reflexivity).
  assert (TA : total1 = htotal n (length c1)) by (rewrite L1; reflexivity).
  assert (MK : mk = h_mk n2) by (unfold mk, mk1; rewrite TA; unfold n2, n; cbn [opened hopened hmoved htagged h_ksz h_cust h_label h_mk]; rewrite CU; reflexivity).
  assert (TT : total = le_bytes 8 (htotal n2 (length c2) + 24)) by (unfold total; rewrite TA, L2; reflexivity). rewrite MK, TT. clear MK TT TA mk total mk1 total1.
  exists c1, (htag_of A n c1), c2. split; [exact L1|]. split; [exact L2|]. cbv zeta.
  assert (T2 : htag_of A n2 c2 = ha_mac A (h_mk n2) (le_bytes 16 (value_le iv + Z.of_nat (Spec_Modes.blocks_for (length m1))) ++ c2 ++ le_bytes 8 (htotal n2 (length c2) + 24))) by reflexivity.
  assert (T2' : htag_of A (htagged A n c1) c2 = ha_mac A (h_mk n2) (iv ++ c2 ++ le_bytes 8 (htotal n2 (length c2) + 24))).
  { unfold htag_of. cbn [htagged hnonce hheard h_msg h_mk h_pos app]. rewrite IV. reflexivity. }
  rewrite <- T2, <- T2'. split.
  - destruct (start_history a A E legal nm iok hk K RM Rany HI HC s p true key iv info [hsend tag m1 o1; hsend tag m2 o2] AC) as (rs & -> & X).
    { cbn [hcalls_ok hsend]. split; [now apply hsend_ok|]. split; [now apply hsend_ok|exact I]. }
    fold n in X. destruct rs as [|r rs]; [contradiction|]. unfold hsend in X. cbn [hexpected] in X. cbv zeta in X. change (h_enc n) with true in X. cbv iota in X. rewrite !length_zeros in X.
    destruct (Nat.ltb_spec (length m1 + tag) (0 + length m1 + tag)); [lia|]. rewrite !slice_all in X by reflexivity. fold c1 in X. fold n2 in X. destruct X as [(x1 & -> & W1) X].
    destruct rs as [|r rs]; [contradiction|]. change (h_enc n2) with true in X. cbv iota in X. destruct (Nat.ltb_spec (length m2 + tag) (0 + length m2 + tag)); [lia|]. fold c2 in X. destruct X as [(x2 & -> & W2) X]. destruct rs; [|contradiction].
    apply (written_zeros (length m1 + tag)) in W1; [|rewrite app_length, L1, TL1; reflexivity]. apply (written_zeros (length m2 + tag)) in W2; [|rewrite app_length, L2, TL2; reflexivity]. subst x1 x2. reflexivity.
  - intros NB NE. rewrite <- L1, <- L2.
    destruct (start_history a A E legal nm iok hk K RM Rany HI HC s' p' false key iv info [hask (c1 ++ bad) (length c1) o1'; hask (c2 ++ htag_of A n2 c2) (length c2) o2'] AC) as (rs & -> & X).
    { cbn [hcalls_ok hask]. split; [apply hask_ok; [apply bytes_app; auto|rewrite app_length, Lb; reflexivity|red; rewrite app_length, Lb, L1; lia|exact F1']|]. split; [|exact I]. apply hask_ok; [apply bytes_app; auto|rewrite app_length, TL2; reflexivity|red; rewrite app_length, TL2, L2; lia|exact F2']. }
    change (opened A nm false key iv info) with (turn n) in X. destruct rs as [|r rs]; [contradiction|]. apply (one_ask (turn n) c1 bad o1' _ r rs Lb eq_refl) in X.
    change (htag_of A (turn n) c1) with (htag_of A n c1) in X. destruct X as [(EQ & _)|(_ & -> & X)]; [contradiction|].
    destruct rs as [|r rs]; [contradiction|]. apply (one_ask (htagged A (turn n) c1) c2 (htag_of A n2 c2) o2' _ r rs TL2 eq_refl) in X.
    change (htag_of A (htagged A (turn n) c1) c2) with (htag_of A (htagged A n c1) c2) in X. destruct X as [(EQ & _)|(_ & -> & X)]; [contradiction|]. destruct rs; [reflexivity|contradiction].
Qed.
(** ** a customization string of one to three bytes *)
Lemma c73_short s p enc key iv info : ha_strict A = true -> bytes key -> bytes iv -> bytes info -> iok info -> iok [] -> legal (length key) = true -> length iv = 16%nat -> (0 < length info < 4)%nat ->
  hhistory a E legal nm s p (H_new a) [HInit enc key iv info; HInit enc key iv []] = Ok [HFail InvalidSalt []; HFail InvalidSalt []] /\
  hhistory a E legal nm s p (H_new a) [HInit enc key iv []] = Ok [HDone].
Proof.
  intros ST Bk Bi Bf HI HI0 LK LV LI. split.
  - destruct (c72_hist s p enc [HInit enc key iv info; HInit enc key iv []]) as (rs & -> & X).
    { cbn [hcalls_ok hcall_ok]. unfold short. cbn [length]. split; [split; [exact Bk|]; split; [exact Bi|]; split; [exact Bf|]; split; [lia|exact HI]|].
      split; [split; [exact Bk|]; split; [exact Bi|]; split; [constructor|]; split; [lia|exact HI0]|exact I]. }
    destruct rs as [|r rs]; [contradiction|]. cbn [hexpected] in X. rewrite LK, LV, Nat.eqb_refl, ST in X. cbn [negb andb] in X.
    assert (C : cust_of (HIdle [] []) info = info) by (destruct info; [cbn [length] in LI; lia|reflexivity]). rewrite C in X.
    destruct (Nat.ltb_spec 0 (length info)); [|lia]. destruct (Nat.ltb_spec (length info) 4); [|lia]. cbn [andb] in X. destruct X as [-> X].
    destruct rs as [|r rs]; [contradiction|]. cbn [cust_of left_cust] in X. destruct (Nat.ltb_spec 0 (length info)); [|lia]. destruct (Nat.ltb_spec (length info) 4); [|lia]. destruct X as [-> X]. destruct rs; [reflexivity|contradiction].
  - destruct (c72_hist s p enc [HInit enc key iv []]) as (rs & -> & X).
    { cbn [hcalls_ok hcall_ok]. unfold short. cbn [length]. split; [split; [exact Bk|]; split; [exact Bi|]; split; [constructor|]; split; [lia|exact HI0]|exact I]. }
    destruct rs as [|r rs]; [contradiction|]. cbn [hexpected] in X. rewrite LK, LV, Nat.eqb_refl, ST in X. cbn in X. destruct X as [-> X]. destruct rs; [reflexivity|contradiction].
Qed.
(** ** the key of the cipher *)
Lemma c73_key enc key iv info : haccepted A legal iok key iv info -> hk = true ->
  exists o, H_Initialize a legal nm (H_new a) enc key iv info = Ok (o, [], None) /\ length (b_ckey o) = (if (length key =? 64)%nat then 64 else 32)%nat.
Proof.
  intros (B1 & B2 & B3 & B4 & B5' & B5 & B6 & B7) HK. destruct (all_implement a A hk E legal nm iok HA HC) as (K & RM & Rany & HI).
  destruct (Init_legal a A E legal nm 0%nat iok hk K RM Rany HI HC (H_new a) (HIdle [] []) enc key iv info (new_abs a A legal iok K RM Rany HI) B1 B2 B3 B4 B5' B5 B6) as (_ & X).
  destruct X as (o & EQ & X). { replace (ha_strict A) with false; [reflexivity|]. clear - HA HK. destruct HA; try discriminate HK; reflexivity. }
  exists o. split; [exact EQ|]. cbn [habs] in X. assert (CK : b_ckey o = fst (ha_first A key (cust_of (HIdle [] []) info) (label_of 1 (label_rest nm key)))) by (cbn [hopened h_ck] in X; tauto).
  rewrite CK. clear - HA HK. destruct HA; try discriminate HK; cbn [hmac_auth ha_first fst]; unfold hkdf_mac; (destruct (length key =? 64)%nat; unfold hkdf_T; cbn [hkdf_T]; unfold hmac; [apply sha512_code_len|apply sha256_len]).
Qed.
End all.
(** tactics for the examples *)
Ltac workers := match goal with
  | |- good_profile _ _ => exists 4%nat; cbn; lia
  | |- Spec_Modes.schedule _ _ => unfold Spec_Modes.schedule; cbn; first [apply Permutation.Permutation_refl|apply Permutation.perm_swap]
  | |- fair _ _ => unfold fair; first [discriminate|intros _; split; [exists 4%nat; cbn; lia|]; split; [intros i; unfold Spec_Modes.schedule; cbn; first [apply Permutation.Permutation_refl|apply Permutation.perm_swap]|cbn; lia]]
  end.
