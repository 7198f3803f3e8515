From Verif Require Import Base BaseLemmas Spec_Common Proofs_Common Spec_Feed Spec_File Spec_SHA2 Spec_MAC Spec_Keccak Model_Stream Proofs_Stream Model_HashStream Proofs_HashStream Session_HashStream.
From Verif Require Import Model_SHA2 Model_SHA2Par Model_SHA3 Model_HMAC Session_Digest Session_SHA2 Session_Mac Session_MacObjs Proofs_SHA2obj ProofsP_SHA2 Proofs_SHA3 Proofs_HMAC ProofsP_MAC ProofsP_KDF.
Open Scope Z_scope.

Lemma stream_rel s : stream_ok s -> srel s (File (ms_data s) (Z.to_nat (ms_pos s))).
Proof. intros (B & P & L). unfold srel. cbn [f_bytes f_pos]. rewrite Z2Nat.id by lia. repeat split; auto; lia. Qed.

Section any.
Context {T : Type} (upd : T -> list Z -> nat -> nat -> res T) (fin : T -> list Z -> nat -> res (T * list Z)) (new : T).
Lemma any_stream par pblk blk n s : sizes par pblk blk -> stream_ok s ->
  exists ps s', Forall p_ok ps /\ joined ps = rest s /\ read_through s s' /\
    (forall o, DigestStream_ComputeStream upd fin new par pblk blk n s o = (o' <- feed upd ps new ;; q <- fin o' (zeros n) 0 ;; Ok (s', fst q, snd q))).
Proof.
  intros (S1 & S2 & S3 & S4) Ss. pose proof (stream_rel s Ss) as R. destruct Ss as (B & P & L).
  destruct (stream_pieces upd fin par pblk blk n s (ms_data s) (Z.to_nat (ms_pos s)) (conj S1 S2) S3 S4 R) as (ps & s' & H1 & H2 & H3 & H4); [lia | exact B |].
  exists ps, s'. split; [exact H1|]. split; [exact H2|]. split; [destruct H3 as (Q1 & Q2 & _); split; assumption|].
  intro o. unfold DigestStream_ComputeStream, msize. replace (Z.of_nat (length (ms_data s)) <? ms_pos s) with false by (symmetry; apply Z.ltb_ge; lia).
  replace (Z.to_nat (Z.of_nat (length (ms_data s)) - ms_pos s)) with (length (ms_data s) - Z.to_nat (ms_pos s))%nat by lia. apply H4.
Qed.
Lemma any_mac_stream blk n s : sizes false 0 blk -> stream_ok s ->
  exists ps s', Forall p_ok ps /\ joined ps = rest s /\ read_through s s' /\
    (forall o, MacStream_ComputeStream upd fin blk n s o = (o' <- feed upd ps o ;; q <- fin o' (zeros n) 0 ;; Ok (s', fst q, snd q))).
Proof.
  intros (S1 & S2 & S3 & S4) Ss. pose proof (stream_rel s Ss) as R. destruct Ss as (B & P & L).
  destruct (stream_pieces upd fin false 0 blk n s (ms_data s) (Z.to_nat (ms_pos s)) (conj S1 S2) S3 S4 R) as (ps & s' & H1 & H2 & H3 & H4); [lia | exact B |].
  exists ps, s'. split; [exact H1|]. split; [exact H2|]. split; [destruct H3 as (Q1 & Q2 & _); split; assumption|].
  intro o. unfold MacStream_ComputeStream, msize. replace (Z.of_nat (length (ms_data s)) <? ms_pos s) with false by (symmetry; apply Z.ltb_ge; lia).
  replace (Z.to_nat (Z.of_nat (length (ms_data s)) - ms_pos s)) with (length (ms_data s) - Z.to_nat (ms_pos s))%nat by lia. apply H4.
Qed.
(** one Compute call *)
Lemma any_digest par pblk blk n x : sizes par pblk blk -> source_ok x ->
  exists ps, Forall p_ok ps /\ joined ps = contents x /\
    (forall o, digest_of upd fin new par pblk blk n o x = (o' <- feed upd ps new ;; fin o' (zeros n) 0)).
Proof.
  intros S X. destruct x as [s | inp io len]; cbn [source_ok contents digest_of] in *.
  - destruct (any_stream par pblk blk n s S X) as (ps & s' & H1 & H2 & _ & H4). exists ps. split; [exact H1|]. split; [exact H2|].
    intro o. rewrite H4. rewrite bind_assoc. apply bind_ext. intro o1. rewrite bind_assoc. destruct (fin o1 (zeros n) 0) as [[a b]| |]; reflexivity.
  - destruct X as (B & L & W). destruct S as (S1 & S2 & _). exact (array_pieces upd fin new par pblk blk n inp io len (conj S1 S2) W L B).
Qed.
Lemma any_mac blk n x : sizes false 0 blk -> source_ok x ->
  exists ps, Forall p_ok ps /\ joined ps = contents x /\
    (forall o, mac_of upd fin blk n o x = (o' <- feed upd ps o ;; fin o' (zeros n) 0)).
Proof.
  intros S X. destruct x as [s | inp io len]; cbn [source_ok contents mac_of] in *.
  - destruct (any_mac_stream blk n s S X) as (ps & s' & H1 & H2 & _ & H4). exists ps. split; [exact H1|]. split; [exact H2|].
    intro o. rewrite H4. rewrite bind_assoc. apply bind_ext. intro o1. rewrite bind_assoc. destruct (fin o1 (zeros n) 0) as [[a b]| |]; reflexivity.
  - destruct X as (B & L & W). exact (mac_array_pieces upd fin blk n inp io len (proj1 S) W L B).
Qed.

(** an object that refines "the message so far" *)
Context (A : T -> list Z -> Prop) (H : list Z -> list Z) (n : nat).
Hypothesis Anew : A new [].
Hypothesis Aupd : forall o m p, A o m -> p_ok p -> exists o', upd o (p_in p) (p_off p) (p_len p) = Ok o' /\ A o' (m ++ p_data p).
Hypothesis Afin : forall o m out oo, A o m -> (oo + n <= length out)%nat -> fin o out oo = Ok (new, splice out oo (H m)).
Hypothesis Hlen : forall m, length (H m) = n.
Lemma fed ps : forall o m, A o m -> Forall p_ok ps -> exists o', feed upd ps o = Ok o' /\ A o' (m ++ joined ps).
Proof.
  induction ps as [|p ps IH]; intros o m Ho F; [exists o; split; [reflexivity|]; unfold joined; cbn; now rewrite app_nil_r|].
  inversion F as [|? ? F1 F2]; subst. destruct (Aupd o m p Ho F1) as (o1 & E1 & A1). destruct (IH o1 _ A1 F2) as (o2 & E2 & A2).
  exists o2. cbn [feed]. rewrite E1. cbn [bind]. split; [exact E2|]. unfold joined in *. cbn [map concat]. now rewrite app_assoc.
Qed.
Lemma hash_all par pblk blk o xs : sizes par pblk blk -> Forall source_ok xs ->
  all_of (digest_of upd fin new par pblk blk n) o xs = Ok (map (fun x => H (contents x)) xs).
Proof.
  intros S. revert o. induction xs as [|x xs IH]; intros o F; [reflexivity|]. inversion F as [|? ? F1 F2]; subst.
  destruct (any_digest par pblk blk n x S F1) as (ps & P & J & E). destruct (fed ps new [] Anew P) as (o1 & E1 & A1).
  cbn [all_of map]. rewrite E, E1. cbn [bind]. rewrite (Afin o1 _ (zeros n) 0%nat A1) by (rewrite length_zeros; lia).
  cbn [bind fst snd]. rewrite (IH new F2). cbn [bind app]. rewrite J. rewrite splice_all by (rewrite Hlen, length_zeros; reflexivity). reflexivity.
Qed.
End any.

Lemma c65_256 o xs : Forall source_ok xs -> all_of (digest_of SHA2256_Update SHA2256_Finalize SHA2256_new false 0 64 32) o xs = Ok (map (fun x => sha256 (contents x)) xs).
Proof. apply (hash_all SHA2256_Update SHA2256_Finalize SHA2256_new after256 sha256 32 after256_new upd256 final256 sha256_len). repeat split; try lia; discriminate. Qed.
Lemma c65_512 o xs : Forall source_ok xs -> all_of (digest_of SHA2512_Update SHA2512_Finalize SHA2512_new false 0 128 64) o xs = Ok (map (fun x => sha512_code (contents x)) xs).
Proof. apply (hash_all SHA2512_Update SHA2512_Finalize SHA2512_new after512 sha512_code 64 after512_new upd512 c31_final sha512_code_len). repeat split; try lia; discriminate. Qed.
Lemma c65_3 rate n o xs : (0 < n <= rate)%nat -> (rate <= 200)%nat -> Forall source_ok xs ->
  all_of (digest_of (SHA3_Update rate) (SHA3_Finalize rate n) (SHA3_new rate) false 0 rate n) o xs = Ok (map (fun x => sponge (keccak 24) rate zero_state 6 (contents x) n) xs).
Proof.
  intros Hn Hr. apply (hash_all (SHA3_Update rate) (SHA3_Finalize rate n) (SHA3_new rate) (after3 rate) (sha3_hash rate n) n); eauto using after3_new, after3_upd, after3_fin, sha3_len.
  repeat split; try lia; discriminate.
Qed.

(** parallel SHA-2 *)
Lemma whole_out n out' h : length h = n -> written (zeros n) out' 0 h -> out' = h.
Proof.
  intros L (W1 & W2 & _). rewrite length_zeros in W1. eapply list_ext with (d := 0); [lia|]. intros i Hi. exact (W2 i ltac:(lia)).
Qed.
Lemma c65_par256 hdr d c pblk n0 x h o : (0 < d)%nat -> (0 < c)%nat -> pblk = (c * (d * 64))%nat -> Z.of_nat pblk < 2 ^ 63 -> SHA2256P_new hdr d = Ok n0 -> source_ok x -> value256 hdr d (contents x) h ->
  digest_of (SHA2256P_Update d pblk) (SHA2256P_Finalize hdr d) n0 true pblk 64 32 o x = Ok (n0, h).
Proof.
  intros Hd Hc Hp Hs Hn X (n0' & E0 & Lh & V). rewrite Hn in E0. injection E0 as <-.
  destruct (any_digest (SHA2256P_Update d pblk) (SHA2256P_Finalize hdr d) n0 true pblk 64 32 x) as (ps & P & J & E); [|exact X|].
  { split; [lia|]. split; [intros _; exists (c * d)%nat; split; [nia|rewrite Hp; ring]|]. split; [exact Hs|lia]. }
  destruct (V pblk c ps Hc Hp P J) as (o1 & E1 & F1). rewrite E, E1. cbn [bind]. destruct (F1 (zeros 32) 0%nat) as (out' & E2 & W); [rewrite length_zeros; lia|].
  rewrite E2. do 2 f_equal. exact (whole_out 32 out' h Lh W).
Qed.
Lemma c65_par512 hdr d c pblk n0 x h o : (0 < d)%nat -> (0 < c)%nat -> pblk = (c * (d * 128))%nat -> Z.of_nat pblk < 2 ^ 63 -> SHA2512P_new hdr d = Ok n0 -> source_ok x -> value512 hdr d (contents x) h ->
  digest_of (SHA2512P_Update d pblk) (SHA2512P_Finalize hdr d) n0 true pblk 128 64 o x = Ok (n0, h).
Proof.
  intros Hd Hc Hp Hs Hn X (n0' & E0 & Lh & V). rewrite Hn in E0. injection E0 as <-.
  destruct (any_digest (SHA2512P_Update d pblk) (SHA2512P_Finalize hdr d) n0 true pblk 128 64 x) as (ps & P & J & E); [|exact X|].
  { split; [lia|]. split; [intros _; exists (c * d)%nat; split; [nia|rewrite Hp; ring]|]. split; [exact Hs|lia]. }
  destruct (V pblk c ps Hc Hp P J) as (o1 & E1 & F1). rewrite E, E1. cbn [bind]. destruct (F1 (zeros 64) 0%nat) as (out' & E2 & W); [rewrite length_zeros; lia|].
  rewrite E2. do 2 f_equal. exact (whole_out 64 out' h Lh W).
Qed.

(** HMAC *)
Section hmac.
Context {D : Type} (rate n : nat) (dupd : D -> list Z -> nat -> nat -> res D) (dfin : D -> list Z -> nat -> res (D * list Z)) (dnew : D).
Context (A : D -> list Z -> Prop) (H : list Z -> list Z).
Hypothesis Hn : (n <= rate)%nat.
Hypothesis Hr : (0 < rate)%nat /\ Z.of_nat rate < 2 ^ 63.
Hypothesis Anew : A dnew [].
Hypothesis Aupd : forall o m p, A o m -> p_ok p -> exists o', dupd o (p_in p) (p_off p) (p_len p) = Ok o' /\ A o' (m ++ p_data p).
Hypothesis Afin : forall o m out oo, A o m -> (oo + n <= length out)%nat -> dfin o out oo = Ok (dnew, splice out oo (H m)).
Hypothesis Hlen : forall m, length (H m) = n.
Hypothesis Hbytes : forall m, bytes (H m).
Let R := HR rate A H.
Lemma hfed ps : forall o k m, R (MOn k m) o -> Forall p_ok ps -> exists o', feed (HMAC_Update dupd) ps o = Ok o' /\ R (MOn k (m ++ joined ps)) o'.
Proof.
  induction ps as [|p ps IH]; intros o k m Ho F; [exists o; split; [reflexivity|]; unfold joined; cbn; now rewrite app_nil_r|].
  inversion F as [|? ? F1 F2]; subst. assert (U : exists o1, HMAC_Update dupd o (p_in p) (p_off p) (p_len p) = Ok o1 /\ R (MOn k (m ++ p_data p)) o1) by (eapply hupd; eauto; apply F1). destruct U as (o1 & E1 & A1). destruct (IH o1 _ _ A1 F2) as (o2 & E2 & A2).
  exists o2. cbn [feed]. rewrite E1. cbn [bind]. split; [exact E2|]. unfold joined in *. cbn [map concat]. now rewrite app_assoc.
Qed.
Lemma hmac_all k xs : bytes k -> (8 <= length k)%nat -> Forall source_ok xs ->
  exists o, HMAC_Initialize rate n dupd dfin dnew (HMAC_new rate dnew) k = Ok (o, None) /\
    all_of (mac_of (HMAC_Update dupd) (HMAC_Finalize n dupd dfin) rate n) o xs = Ok (map (fun x => hmac H rate k (contents x)) xs).
Proof.
  intros B L F. assert (U : exists o, HMAC_Initialize rate n dupd dfin dnew (HMAC_new rate dnew) k = Ok (o, None) /\ R (MOn k []) o) by (eapply hinit; eauto; eapply hmac_new_HR; eauto). destruct U as (o & E & R0).
  exists o. split; [exact E|]. clear E. revert o R0. induction xs as [|x xs IH]; intros o R0; [reflexivity|]. inversion F as [|? ? F1 F2]; subst.
  destruct (any_mac (HMAC_Update dupd) (HMAC_Finalize n dupd dfin) o rate n x) as (ps & P & J & E); [|exact F1|].
  { split; [lia|]. split; [discriminate|]. split; [reflexivity|lia]. }
  destruct (hfed ps o k [] R0 P) as (o1 & E1 & A1). cbn [app] in A1.
  assert (U : exists o2, HMAC_Finalize n dupd dfin o1 (zeros n) 0 = Ok (o2, splice (zeros n) 0 (hmac H rate k (joined ps))) /\ R (MOn k []) o2) by (eapply hfin; eauto; rewrite length_zeros; lia). destruct U as (o2 & E2 & R2).
  cbn [all_of map]. rewrite E, E1. cbn [bind]. rewrite E2. cbn [bind fst snd]. rewrite (IH F2 o2 R2). cbn [bind]. rewrite J. rewrite splice_all by (rewrite (hmac_len rate n H), length_zeros; auto). reflexivity.
Qed.
End hmac.
Lemma c65_hmac256 k xs : bytes k -> (8 <= length k)%nat -> Forall source_ok xs ->
  exists o, HMAC_Initialize 64 32 SHA2256_Update SHA2256_Finalize SHA2256_new (HMAC_new 64 SHA2256_new) k = Ok (o, None) /\
    all_of (mac_of (HMAC_Update SHA2256_Update) (HMAC_Finalize 32 SHA2256_Update SHA2256_Finalize) 64 32) o xs = Ok (map (fun x => hmac sha256 64 k (contents x)) xs).
Proof. refine (hmac_all 64 32 SHA2256_Update SHA2256_Finalize SHA2256_new after256 sha256 _ _ after256_new upd256 final256 sha256_len sha256_bytes k xs); [lia|split; lia]. Qed.
Lemma c65_hmac512 k xs : bytes k -> (8 <= length k)%nat -> Forall source_ok xs ->
  exists o, HMAC_Initialize 128 64 SHA2512_Update SHA2512_Finalize SHA2512_new (HMAC_new 128 SHA2512_new) k = Ok (o, None) /\
    all_of (mac_of (HMAC_Update SHA2512_Update) (HMAC_Finalize 64 SHA2512_Update SHA2512_Finalize) 128 64) o xs = Ok (map (fun x => hmac sha512_code 128 k (contents x)) xs).
Proof. refine (hmac_all 128 64 SHA2512_Update SHA2512_Finalize SHA2512_new after512 sha512_code _ _ after512_new upd512 c31_final sha512_code_len sha512_code_bytes k xs); [lia|split; lia]. Qed.

(** an empty input *)
Lemma c65_empty {T} (upd : T -> list Z -> nat -> nat -> res T) fin new blk n inp io o r : (0 < blk)%nat -> fin new (zeros n) 0%nat = Ok r ->
  digest_of upd fin new false 0 blk n o (Window inp io 0) = UB.
Proof.
  intros Hb E. cbn [digest_of]. unfold DigestStream_ComputeArray. replace (blk =? 0)%nat with false by (symmetry; apply Nat.eqb_neq; lia). cbn [negb safe bind andb].
  rewrite Nat.div_0_l by lia. cbn [Nat.mul]. cbv zeta. cbn [array_loop Nat.eqb bind negb]. rewrite E. reflexivity.
Qed.
