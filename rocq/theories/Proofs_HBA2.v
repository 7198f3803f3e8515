(** The four authenticators of HBA. *)
From Verif Require Import BaseLemmas Spec_Common Proofs_Common Spec_Feed Spec_MAC Spec_KDF Model_Modes Proofs_Windows Model_HMAC Model_KDF Session_Mac Session_MacObjs Session_Kdf Proofs_Mac Proofs_HMAC Proofs_KDF
  Spec_SHA2 Session_SHA2 Spec_Keccak Session_KMAC Session_SHAKE Model_SHAKE Proofs_KMAC Proofs_KMAC2 Proofs_SHAKE Proofs_CSX2 Spec_ChaCha Spec_HBA Model_HBA Proofs_HBA.
Open Scope Z_scope.

Lemma label_fits rate label cust : (72 <= rate <= 200)%nat -> (length label <= 58)%nat -> short cust -> fits_block rate label cust.
Proof.
  intros R L S. red. unfold encode_string. rewrite !app_length, rate_left by lia. rewrite (left_len (8 * Z.of_nat (length label))).
  assert (length (left_encode (8 * Z.of_nat (length cust))) <= 9)%nat by (apply left_le9; red in S; lia).
  assert (byte_len (8 * Z.of_nat (length label)) <= 2)%nat; [|rewrite Nat.mod_small by lia; lia].
  unfold byte_len. assert (Z.log2 (8 * Z.of_nat (length label)) <= 9) by (transitivity (Z.log2 512); [apply Z.log2_le_mono; lia|reflexivity]).
  assert (Z.log2 (8 * Z.of_nat (length label)) / 8 <= 1) by lia. lia.
Qed.
Section kmac.
Context (rate klen : nat) (legal : nat -> bool).
Hypothesis Hr : (72 <= rate <= 190)%nat.
Hypothesis H8 : (rate mod 8 = 0)%nat.
Hypothesis Hk : (16 <= klen <= 64)%nat.
Definition KRM (m : kmac_obj) (k x : list Z) : Prop := kabs rate m (Some (kmac_start rate kmac_name k [], x)).
Definition KAny (m : kmac_obj) : Prop := exists a, kabs rate m a.
Lemma shake_start key cust label : bytes key -> (16 <= length key)%nat -> Z.of_nat (length key) <= 1024 -> bytes cust -> short cust -> bytes label -> (10 <= length label <= 58)%nat ->
  (length cust = 0 \/ 4 <= length cust)%nat -> exists g, SHAKE_Initialize rate SHAKE_new key cust label = Ok g /\ sabs rate g (Some (key, cust, label, 0%nat, 0%nat)).
Proof.
  intros Bk L1 L2 Bc Sc Bl L3 C. apply (SHAKE_Init_ok rate ltac:(lia) SHAKE_new None key cust label eq_refl); [|lia|exact C].
  cbn [scall_ok]. split; [exact Bk|]. split; [exact Bc|]. split; [exact Bl|]. split; [exact Sc|]. split; [red; lia|]. apply label_fits; [lia|lia|exact Sc].
Qed.
Lemma small_div n : Z.of_nat n <= 1024 -> Z.of_nat (n / rate) <= 1024.
Proof. intros H. assert (n / rate <= n)%nat by (apply Nat.div_le_upper_bound; nia). lia. Qed.
Lemma shake_first_ok key cust label : bytes key -> (16 <= length key)%nat -> Z.of_nat (length key) <= 1024 -> bytes cust -> short cust -> bytes label -> (10 <= length label <= 58)%nat ->
  (length cust = 0 \/ 4 <= length cust)%nat -> shake_first rate klen key cust label = Ok (ha_first (kmac_auth rate klen) key cust label) /\
  length (fst (ha_first (kmac_auth rate klen) key cust label)) = length key /\ length (snd (ha_first (kmac_auth rate klen) key cust label)) = klen.
Proof.
  intros Bk L1 L2 Bc Sc Bl L3 C. destruct (shake_start key cust label Bk L1 L2 Bc Sc Bl L3 C) as (g & E & G). unfold shake_first. rewrite E. cbn [bind].
  assert (LZ : forall k, length (zeros k) = k) by (intros; apply length_zeros).
  destruct (SHAKE_Gen_ok rate ltac:(lia) g key cust label 0 0 (zeros (length key)) 0 (length key) G) as (g1 & E1 & LL1 & G1); [rewrite LZ; lia| |].
  { cbn [Nat.add]. pose proof (small_div _ L2). lia. }
  cbn [Nat.add] in G1. change ((length key + rate - 1) / rate)%nat with (nblocks rate (length key)) in G1.
  destruct (SHAKE_Gen_ok rate ltac:(lia) g1 key cust label (nblocks rate (length key)) _ (zeros klen) 0 klen G1) as (g2 & E2 & LL2 & G2); [rewrite LZ; lia| |].
  { pose proof (small_div klen ltac:(lia)). destruct (_ =? _)%nat; lia. }
  cbn [Nat.mul Nat.add] in E1, LL1. rewrite skipn_O in *. rewrite E1. cbn [bind]. rewrite E2. cbn [bind snd]. cbn [kmac_auth ha_first fst snd].
  rewrite !splice_all by (rewrite LZ; assumption). split; [reflexivity|]. split; assumption.
Qed.
Lemma shake_next_ok mk cust label : bytes mk -> (16 <= length mk <= 64)%nat -> bytes cust -> short cust -> bytes label -> (10 <= length label <= 58)%nat ->
  (length cust = 0 \/ 4 <= length cust)%nat -> shake_next rate klen mk cust label = Ok (cshake 24 rate mk klen label cust) /\ length (cshake 24 rate mk klen label cust) = klen.
Proof.
  intros Bk L1 Bc Sc Bl L3 C. destruct (shake_start mk cust label Bk ltac:(lia) ltac:(lia) Bc Sc Bl L3 C) as (g & E & G). unfold shake_next. rewrite E. cbn [bind].
  destruct (SHAKE_Gen_ok rate ltac:(lia) g mk cust label 0 0 (zeros klen) 0 klen G) as (g1 & E1 & LL1 & G1); [rewrite length_zeros; lia| |].
  { cbn [Nat.add]. pose proof (small_div klen ltac:(lia)). lia. }
  cbn [Nat.mul Nat.add] in E1, LL1. rewrite skipn_O in *. rewrite E1. cbn [bind snd]. rewrite splice_all by (rewrite length_zeros; exact LL1). split; [reflexivity|exact LL1].
Qed.
Lemma kmac_implements : implements (kmac_engine rate klen klen) (kmac_auth rate klen) legal (fun _ => klen) KRM KAny.
Proof.
  assert (R1 : (64 <= rate <= 190)%nat) by lia.
  constructor; cbn [kmac_engine kmac_auth a_new a_init a_reset a_upd a_fin a_tag a_first a_next ha_tag ha_mac ha_strict].
  - reflexivity.
  - lia.
  - intros _. lia.
  - exists None. reflexivity.
  - intros m k x H. eexists. exact H.
  - intros m _. exists KMAC_new. split; [reflexivity|]. exists None. reflexivity.
  - intros m k (a & Ha) Bk Lk. destruct (KMAC_Init_ok rate klen R1 H8 ltac:(lia) m a k [] [] Ha) as (m' & E & KA).
    { cbn [kcall_ok]. split; [exact Bk|]. split; [constructor|]. split; [constructor|]. split; [red; lia|]. split; [red; cbn; lia|]. split; [red; cbn; lia|]. apply kname_fits. exact R1. }
    { lia. } { left. reflexivity. }
    exists m'. split; [exact E|exact KA].
  - intros m k x inp io len H Bi L. exact (kabs_upd rate klen R1 H8 ltac:(lia) m _ x inp io len H Bi L).
  - intros m k x out H L. destruct (kabs_fin rate klen R1 H8 ltac:(lia) m _ x out 0 H ltac:(lia) ltac:(lia) ltac:(red; lia)) as (m' & E & KA & LL).
    rewrite Nat.sub_0_r, L in *. exists m'. split; [|split; [eexists; exact KA|exact LL]]. rewrite E. do 2 f_equal. apply splice_all. lia.
  - intros k x. apply kmac_out_bytes.
  - intros key cust label Bk L1 L2 Bc Sc Bl L3 C. destruct (shake_first_ok key cust label Bk L1 L2 Bc Sc Bl L3 (C eq_refl)) as (E & F & G). split; [exact E|]. split; [apply cshake_bytes|]. split; [|split; [exact G|]].
    + cbn [kmac_auth ha_first snd]. apply bytes_skipn, cshake_bytes.
    + rewrite F. auto.
  - intros key cust label L _ C. unfold shake_first, SHAKE_Initialize. replace (length key <? 4)%nat with false by (symmetry; apply Nat.ltb_ge; lia).
    replace (length cust =? 0)%nat with false by (symmetry; apply Nat.eqb_neq; lia). replace (length cust <? 4)%nat with true by (symmetry; apply Nat.ltb_lt; lia). reflexivity.
  - intros ksz mk cust label Bk L1 Bc Sc Bl L3 C. destruct (shake_next_ok mk cust label Bk L1 Bc Sc Bl L3 (C eq_refl)) as (E & G). split; [exact E|]. split; [|exact G]. apply cshake_bytes.
Qed.
End kmac.

Section hkdf.
Context {D : Type} (rate n : nat) (dupd : D -> list Z -> nat -> nat -> res D) (dfin : D -> list Z -> nat -> res (D * list Z)) (dnew : D).
Context (A : D -> list Z -> Prop) (H : list Z -> list Z).
Hypothesis Hn : (n <= rate)%nat.
Hypothesis Hn8 : (16 <= n)%nat.
Hypothesis Anew : A dnew [].
Hypothesis Aupd : forall o m p, A o m -> p_ok p -> exists o', dupd o (p_in p) (p_off p) (p_len p) = Ok o' /\ A o' (m ++ p_data p).
Hypothesis Afin : forall o m out oo, A o m -> (oo + n <= length out)%nat -> dfin o out oo = Ok (dnew, splice out oo (H m)).
Hypothesis Hlen : forall m, length (H m) = n.
Hypothesis Hbytes : forall m, bytes (H m).
Notation HM := (hmac H rate).
Notation HKR := (hkR rate n A H).
Lemma n8 : (8 <= n)%nat. Proof. lia. Qed.
Lemma finS k m g out : HR rate A H (MOn k m) g -> length out = n -> exists g', HMAC_FinalizeS n dupd dfin g out 0 = Ok (g', HM k m) /\ HR rate A H (MOn k []) g'.
Proof.
  intros HG L. assert (LH : forall a b, length (HM a b) = n) by (intros; apply Hlen). unfold HMAC_FinalizeS.
  destruct (gen_fin rate n dupd dfin dnew A H Hn Anew Aupd Afin Hlen Hbytes k m g (zeros n) HG) as (g' & -> & R); [rewrite length_zeros; lia|]. cbn [bind]. rewrite splice_all by (rewrite length_zeros; apply LH).
  rewrite wcopy_ok by (rewrite ?LH; lia). cbn [bind]. rewrite slice_all by (now rewrite LH). rewrite splice_all by (rewrite LH; lia). exists g'. auto.
Qed.
Lemma extractS key label : bytes key -> bytes label -> (10 <= length label)%nat ->
  exists o, HKDF_ExtractS rate n dupd dfin dnew (HKDF_new rate n dnew) key label (zeros n) = Ok (o, HM label key) /\ HKR (KIdle []) o.
Proof.
  intros Bk Bl L. unfold HKDF_ExtractS, HKDF_rekey. replace (length label =? 0)%nat with false by (symmetry; apply Nat.eqb_neq; lia). cbn [negb].
  destruct (hk_new rate n dnew A H Anew) as (H1 & H2 & H3 & H4 & ms & H5).
  destruct (gen_init rate n dupd dfin dnew A H Hn Anew Aupd Afin Hlen Hbytes ms _ label H5 Bl ltac:(lia)) as (g1 & -> & R1). cbn [or_throw bind fst snd].
  destruct (gen_upd rate n dupd dfin dnew A H Hn n8 Aupd Afin Hlen Hbytes _ _ g1 key R1 Bk) as (g2 & -> & R2). cbn [bind app] in *.
  destruct (finS label key g2 (zeros n) R2 (length_zeros _)) as (g3 & -> & R3). cbn [bind fst snd]. eexists. split; [reflexivity|].
  cbn [hkR HKDF_new hk_init hk_info hk_state hk_gen]. split; [reflexivity|]. split; [reflexivity|]. split; [constructor|]. split; [reflexivity|]. eexists. exact R3.
Qed.
Lemma start_expand o prk cust : HKR (KIdle []) o -> bytes prk -> length prk = n -> bytes cust ->
  exists o', or_throw (HKDF_Initialize rate n dupd dfin dnew o prk [] cust) = Ok o' /\ HKR (KOn (prk, cust) 0%nat) o'.
Proof.
  intros HO Bp Lp Bc. destruct (hk_init_ok rate n dupd dfin dnew A H Hn n8 Anew Aupd Afin Hlen Hbytes (KIdle []) o prk [] cust HO Bp (Forall_nil _) Bc) as (o1 & r & E & K & R).
  cbn [Session_Kdf.kspec hkdf_kdf_spec ks_minkey] in K, R. rewrite (proj2 (Nat.ltb_ge (length prk) 16)) in K, R by lia.
  change (ks_init (hkdf_kdf_spec HM n) (left_of (hkdf_kdf_spec HM n) (KIdle [])) prk [] cust) with (@inr (err * list Z) (list Z * list Z) (prk, if (length cust =? 0)%nat then [] else cust)) in K, R. cbn [fst snd] in K, R.
  cbn [Session_Kdf.kstep hkdf_ops k_initialize] in E. subst r.
  destruct (HKDF_Initialize rate n dupd dfin dnew o prk [] cust) as [[o2 [e|]]|e|]; cbn [bind fst snd] in E; [discriminate E| |discriminate E|discriminate E]. injection E as E. subst o2.
  cbn [or_throw bind snd fst]. exists o1. split; [reflexivity|]. replace (if (length cust =? 0)%nat then [] else cust) with cust in R by (destruct cust; reflexivity). exact R.
Qed.
Lemma one_block p k o out : HKR (KOn p k) o -> (k <= 1)%nat -> length out = n ->
  exists o', HKDF_GenAllS n dupd dfin o out = Ok (o', hkdf_T HM (fst p) (snd p) (S k)) /\ HKR (KOn p (S k)) o'.
Proof.
  intros HO Hk L. unfold HKDF_GenAllS. rewrite (proj1 HO). cbn [guard bind]. rewrite (hk_over rate n dupd dfin dnew A H Hn n8 Aupd Afin Hlen Hbytes p o k _ HO), L. cbn [bind]. rewrite Nat.div_same by lia. rewrite (Nat.mod_small k 256) by lia.
  replace (255 <? k + 1)%nat with false by (symmetry; apply Nat.ltb_ge; lia). cbn [negb guard bind].
  destruct (hk_expandS rate n dupd dfin dnew A H Hn n8 Anew Aupd Afin Hlen Hbytes p k o out n HO ltac:(lia)) as (o' & -> & R).
  assert (BF : blocks_for n n = 1%nat) by (unfold blocks_for; replace (n + n - 1)%nat with (1 * n + (n - 1))%nat by lia; rewrite Nat.div_add_l by lia; rewrite Nat.div_small by lia; reflexivity).
  rewrite BF in *. replace (k + 1)%nat with (S k) in R by lia. exists o'. split; [|exact R]. unfold blocks_from. cbn [seq map concat]. rewrite app_nil_r.
  assert (LB : length (hB rate H p k) = n) by (apply (hB_len rate n H Hlen)). rewrite firstn_all2 by lia. rewrite splice_all by lia. unfold hB. rewrite (Nat.mod_small k 256) by lia. reflexivity.
Qed.
Lemma hkdf_first_ok key cust label : bytes key -> bytes cust -> bytes label -> (10 <= length label)%nat ->
  hkdf_first rate n dupd dfin dnew key cust label = Ok (hkdf_T HM (hkdf_extract HM label key) cust 1, hkdf_T HM (hkdf_extract HM label key) cust 2).
Proof.
  intros Bk Bc Bl L. unfold hkdf_first. destruct (extractS key label Bk Bl L) as (o & -> & R). cbn [bind].
  destruct (start_expand o (HM label key) cust R (Hbytes _) (Hlen _) Bc) as (o1 & -> & R1). cbn [bind].
  destruct (one_block _ 0 o1 (HM label key) R1 ltac:(lia) (Hlen _)) as (o2 & -> & R2). cbn [bind fst snd].
  destruct (one_block _ 1 o2 (zeros n) R2 ltac:(lia) (length_zeros _)) as (o3 & -> & R3). reflexivity.
Qed.
Lemma hkdf_next_ok key cust label : bytes key -> bytes cust -> bytes label -> (10 <= length label)%nat ->
  hkdf_next rate n dupd dfin dnew key cust label = Ok (hkdf_T HM (hkdf_extract HM label key) cust 1).
Proof.
  intros Bk Bc Bl L. unfold hkdf_next. destruct (extractS key label Bk Bl L) as (o & -> & R). cbn [bind].
  destruct (start_expand o (HM label key) cust R (Hbytes _) (Hlen _) Bc) as (o1 & -> & R1). cbn [bind].
  destruct (one_block _ 0 o1 (zeros n) R1 ltac:(lia) (length_zeros _)) as (o2 & -> & R2). reflexivity.
Qed.
Lemma T_len prk cust i : length (hkdf_T HM prk cust (S i)) = n. Proof. apply Hlen. Qed.
Lemma T_bytes prk cust i : bytes (hkdf_T HM prk cust (S i)). Proof. apply Hbytes. Qed.
End hkdf.

Section hmac.
Context {D D2 D5 : Type} (rate n : nat) (dupd : D -> list Z -> nat -> nat -> res D) (dfin : D -> list Z -> nat -> res (D * list Z)) (dnew : D).
Context (A : D -> list Z -> Prop) (H : list Z -> list Z).
Hypothesis Hn : (n <= rate)%nat.
Hypothesis Hn8 : (16 <= n <= 64)%nat.
Hypothesis Anew : A dnew [].
Hypothesis Aupd : forall o m p, A o m -> p_ok p -> exists o', dupd o (p_in p) (p_off p) (p_len p) = Ok o' /\ A o' (m ++ p_data p).
Hypothesis Afin : forall o m out oo, A o m -> (oo + n <= length out)%nat -> dfin o out oo = Ok (dnew, splice out oo (H m)).
Hypothesis Hlen : forall m, length (H m) = n.
Hypothesis Hbytes : forall m, bytes (H m).
Context (u2 : D2 -> list Z -> nat -> nat -> res D2) (f2 : D2 -> list Z -> nat -> res (D2 * list Z)) (n2 : D2).
Context (u5 : D5 -> list Z -> nat -> nat -> res D5) (f5 : D5 -> list Z -> nat -> res (D5 * list Z)) (n5 : D5).
Definition kdf_ok : Prop := forall key cust label, bytes key -> bytes cust -> bytes label -> (10 <= length label)%nat ->
  (forall HM, HM = hmac sha256 64 -> hkdf_first 64 32 u2 f2 n2 key cust label = Ok (hkdf_T HM (hkdf_extract HM label key) cust 1, hkdf_T HM (hkdf_extract HM label key) cust 2) /\
     hkdf_next 64 32 u2 f2 n2 key cust label = Ok (hkdf_T HM (hkdf_extract HM label key) cust 1)) /\
  (forall HM, HM = hmac sha512_code 128 -> hkdf_first 128 64 u5 f5 n5 key cust label = Ok (hkdf_T HM (hkdf_extract HM label key) cust 1, hkdf_T HM (hkdf_extract HM label key) cust 2) /\
     hkdf_next 128 64 u5 f5 n5 key cust label = Ok (hkdf_T HM (hkdf_extract HM label key) cust 1)).
Hypothesis HK : kdf_ok.
Hypothesis L2 : forall m, length (sha256 m) = 32%nat.
Hypothesis B2 : forall m, bytes (sha256 m).
Hypothesis L5 : forall m, length (sha512_code m) = 64%nat.
Hypothesis B5 : forall m, bytes (sha512_code m).
Context (legal : nat -> bool).
Hypothesis HL : forall n, legal n = true -> legal 32%nat = true.
Definition HRM (m : hmac_obj D) (k x : list Z) : Prop := HR rate A H (MOn k x) m.
Definition HAny (m : hmac_obj D) : Prop := exists st, HR rate A H st m.
Definition Ksz (n : nat) : nat := if (n =? 64)%nat then 64%nat else 32%nat.
Lemma mac_len ksz k x : length (hkdf_mac ksz k x) = Ksz ksz.
Proof. unfold hkdf_mac, Ksz. destruct (_ =? _)%nat; [apply L5|apply L2]. Qed.
Lemma mac_bytes ksz k x : bytes (hkdf_mac ksz k x).
Proof. unfold hkdf_mac. destruct (_ =? _)%nat; [apply B5|apply B2]. Qed.
Lemma hmac_implements : implements (hmac_engine rate n dupd dfin dnew u2 f2 n2 u5 f5 n5) (hmac_auth H rate n) legal Ksz HRM HAny.
Proof.
  assert (N8 : (8 <= n)%nat) by lia.
  constructor; cbn [hmac_engine hmac_auth a_new a_init a_reset a_upd a_fin a_tag a_first a_next ha_tag ha_mac ha_strict].
  - reflexivity.
  - lia.
  - intros m. unfold Ksz. destruct (_ =? _)%nat; lia.
  - exists MNone. exact (hmac_new_HR rate dnew A H Anew).
  - intros m k x R. eexists. exact R.
  - intros m (st & R). destruct (hreset rate n dupd dfin dnew A H Hn Anew Aupd Afin Hlen Hbytes m st R) as (m' & E & R'). exists m'. split; [exact E|eexists; exact R'].
  - intros m k (st & R) Bk Lk. destruct (gen_init rate n dupd dfin dnew A H Hn Anew Aupd Afin Hlen Hbytes st m k R Bk ltac:(lia)) as (m' & -> & R'). cbn [or_throw bind fst snd]. exists m'. split; [reflexivity|exact R'].
  - intros m k x inp io len R Bi L. exact (gen_upd_at rate n dupd dfin dnew A H Hn Aupd Afin Hlen Hbytes k x m inp io len R Bi L).
  - intros m k x out R L. destruct (finS rate n dupd dfin dnew A H Hn (proj1 Hn8) Anew Aupd Afin Hlen Hbytes k x m out R L) as (m' & E & R'). exists m'. split; [exact E|]. split; [eexists; exact R'|apply Hlen].
  - intros k x. apply Hbytes.
  - intros key cust label Bk L1 L3 Bc Sc Bl L4 _. cbn [hmac_auth ha_first fst snd]. destruct (HK key cust label Bk Bc Bl ltac:(lia)) as (K2 & K5). split.
    + unfold hkdf_mac. destruct (_ =? _)%nat; [exact (proj1 (K5 _ eq_refl))|exact (proj1 (K2 _ eq_refl))].
    + split; [apply mac_bytes|]. split; [apply mac_bytes|]. split; [apply mac_len|]. intros LL.
      assert (E : length (hkdf_T (hkdf_mac (length key)) (hkdf_extract (hkdf_mac (length key)) label key) cust 1) = Ksz (length key)) by apply mac_len.
      rewrite E. unfold Ksz. destruct (Nat.eqb_spec (length key) 64) as [E1|E1]; [rewrite E1 in LL; exact LL|exact (HL _ LL)].
  - discriminate.
  - intros ksz mk cust label Bk L1 Bc Sc Bl L4 _. cbn [hmac_auth ha_next]. destruct (HK mk cust label Bk Bc Bl ltac:(lia)) as (K2 & K5). split.
    + unfold hkdf_mac. destruct (_ =? _)%nat; [exact (proj2 (K5 _ eq_refl))|exact (proj2 (K2 _ eq_refl))].
    + split; [apply mac_bytes|apply mac_len].
Qed.
End hmac.
