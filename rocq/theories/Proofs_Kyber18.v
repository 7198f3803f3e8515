(** Decapsulation of any ciphertext with any private key. *)
From Verif Require Import BaseLemmas Proofs_IntegerTools Proofs_IntegerTools2 Model_IntegerTools Spec_Common Spec_Keccak Model_Keccak Spec_Kyber Model_Kyber Session_Kyber Model_Modes Session_KMAC Proofs_Common Proofs_Windows Proofs_Keccak Proofs_SHA3 Proofs_XOF Proofs_CSX2 ProofsP_KMAC
  Proofs_Kyber Proofs_Kyber2 Proofs_Kyber3 Proofs_Kyber4 Proofs_Kyber5 Proofs_Kyber6 Proofs_Kyber7 Proofs_Kyber8 Proofs_Kyber9 Proofs_Kyber10 Proofs_Kyber11 Proofs_Kyber13 Proofs_Kyber14 Proofs_Kyber15 Proofs_Kyber16 Proofs_Kyber17.
From Coq Require Import Setoid Morphisms.
Open Scope Z_scope.
Opaque lay zrs zis L0 I0 scale poly_of FW BW zsum gamma keccak sha3_256 sha3_512 shake cshake.

Lemma gmap_all n f (P : Z -> Prop) k l : (0 < n)%nat -> (forall c, length c = n -> bytes c -> Forall P (f c)) -> bytes l -> length l = (n * k)%nat -> Forall P (gmap n f l).
Proof.
  intros Hn HF HB L. revert HB. apply (chunks_ind n (fun l => bytes l -> Forall P (gmap n f l)) Hn) with (k := k); [constructor| |exact L]. intros c t Hc IH HB.
  apply bytes_app in HB. destruct HB as [H1 H2]. rewrite gmap_app by auto. apply Forall_app. split; auto.
Qed.
Lemma dec_range d x : 1 <= d <= 11 -> 0 <= x < 2 ^ d -> 0 <= Z.shiftr (x * KYBER_Q + 2 ^ (d - 1)) d <= 3329.
Proof.
  intros Hd Hx. rewrite Z.shiftr_div_pow2 by lia. unfold KYBER_Q. assert (P : 2 ^ d = 2 * 2 ^ (d - 1)) by (rewrite <- Z.pow_succ_r by lia; f_equal; lia). assert (0 < 2 ^ (d - 1)) by (apply Z.pow_pos_nonneg; lia). split; [apply Z.div_pos; nia|].
  assert ((x * 3329 + 2 ^ (d - 1)) / 2 ^ d < 3330); [|lia]. apply Z.div_lt_upper_bound; nia.
Qed.
Lemma s16_small x : 0 <= x <= 3329 -> Z.abs (s16 x) <= 4000.
Proof. intros H. unfold s16. rewrite Z.mod_small by lia. destruct (Z.ltb_spec x 32768); lia. Qed.
Lemma u16_small x : 0 <= x <= 3329 -> u16 x = x. Proof. intros H. unfold u16. apply Z.mod_small. lia. Qed.
Lemma land_rng x d : 0 <= d -> 0 <= Z.land x (2 ^ d - 1) < 2 ^ d.
Proof. intros H. replace (2 ^ d - 1) with (Z.ones d) by (rewrite Z.ones_equiv; lia). rewrite Z.land_ones by exact H. apply Z.mod_pos_bound. apply Z.pow_pos_nonneg; lia. Qed.
Lemma decu_bnd K b : bytes b -> length b = base_bytes K -> bnd 4000 (decu K b).
Proof.
  intros Hb L. split; [now apply decu_len|]. unfold base_bytes in L. unfold decu. destruct (3 <? K)%nat.
  - apply (gmap_all 11 _ _ 32); try lia; auto. intros c _ _. unfold unpack11. rewrite Forall_map. apply Forall_forall. intros x _. apply s16_small. exact (dec_range 11 (Z.land x (2 ^ 11 - 1)) ltac:(lia) (land_rng x 11 ltac:(lia))).
  - apply (gmap_all 5 _ _ 64); try lia; auto. intros c _ _. unfold unpack10. rewrite Forall_map. apply Forall_forall. intros x _. apply s16_small. exact (dec_range 10 (Z.land x (2 ^ 10 - 1)) ltac:(lia) (land_rng x 10 ltac:(lia))).
Qed.
Lemma decv_bnd K b : bytes b -> length b = vbytes K -> bnd 4000 (decv K b).
Proof.
  intros Hb L. split; [now apply decv_len|]. unfold vbytes in L. unfold decv. destruct (3 <? K)%nat.
  - apply (gmap_all 5 _ _ 32); try lia; auto. intros c _ _. unfold unpack5. rewrite Forall_map. apply Forall_forall. intros x _. pose proof (dec_range 5 (Z.land x (2 ^ 5 - 1)) ltac:(lia) (land_rng x 5 ltac:(lia))) as R. change (2 ^ (5 - 1)) with 16 in R. change (2 ^ 5 - 1) with 31 in R. rewrite u16_small by exact R. apply s16_small. exact R.
  - apply (gmap_all 1 _ _ 128); try lia; auto. intros c Lc Bc. unfold unpack4. assert (B0 : is_byte (nth 0 c 0)) by (now apply bytes_nth). unfold is_byte in B0. constructor; [|constructor; [|constructor]]; apply s16_small.
    + exact (dec_range 4 (Z.land (nth 0 c 0) (2 ^ 4 - 1)) ltac:(lia) (land_rng _ 4 ltac:(lia))).
    + refine (dec_range 4 (Z.shiftr (nth 0 c 0) 4) ltac:(lia) _). rewrite Z.shiftr_div_pow2 by lia. change (2 ^ 4) with 16. lia.
Qed.
Lemma dec12_bnd b : bytes b -> length b = 384%nat -> bnd 4095 (dec12 b).
Proof.
  intros Hb L. split; [now apply dec12_len|]. unfold dec12. apply (gmap_all 3 _ _ 128); try lia; auto. intros c _ _. unfold unpack12. cbv zeta. change 0xFFF with (2 ^ 12 - 1).
  constructor; [|constructor; [|constructor]]; match goal with |- context [Z.land ?x _] => pose proof (land_rng x 12 ltac:(lia)) end; lia.
Qed.
Lemma reps_any bs : Forall (fun x => bytes x /\ length x = 384%nat) bs -> exists t, reps 4095 1 (map dec12 bs) t /\ length t = length bs.
Proof.
  intros H. exists (map intt (map dec12 bs)). split; [|now rewrite !map_length]. unfold reps. induction H as [|b bs [Hb L] H IH]; cbn [map]; constructor; [|exact IH].
  destruct (dec12_bnd b Hb L) as [LD BD]. apply nearl_mk; [|exact BD]. rewrite <- cgl_scale1. apply intt_ok. exact LD.
Qed.
Lemma lor_b x y : is_byte x -> is_byte y -> is_byte (Z.lor x y).
Proof. intros Hx Hy. exact (lor_range 8 x y ltac:(lia) Hx Hy). Qed.
Lemma to_bytes c : bytes (to_msg_group c).
Proof.
  unfold to_msg_group. constructor; [|constructor]. assert (G : forall l a, is_byte a -> is_byte (fold_left (fun m j => Z.lor m (u8 (Z.shiftl (msg_bit (nth j c 0)) (Z.of_nat j)))) l a)); [|apply G; unfold is_byte; lia].
  induction l as [|j l IH]; intros a Ha; cbn [fold_left]; [exact Ha|]. apply IH. apply lor_b; [exact Ha|]. unfold is_byte, u8. apply Z.mod_pos_bound. reflexivity.
Qed.
Lemma ToMsg_any r a : (32 <= length r)%nat -> length a = 256%nat -> exists m, bytes m /\ length m = 32%nat /\ PolyToMsg r a = Ok (splice r 0 m).
Proof.
  intros Hr Ha. exists (gmap 8 to_msg_group a). split; [apply (gmap_bytes 8 1 _ 32); try lia; try exact gto; try exact to_bytes; exact Ha|]. split; [apply (gmap_len 8 1 _ 32); [lia|exact gto|exact Ha]|].
  unfold PolyToMsg. rewrite groups_ok by (lia || exact gto). change (8 * 32)%nat with 256%nat. rewrite slice_all by (symmetry; exact Ha). reflexivity.
Qed.
(** a byte string cut into pieces *)
Lemma cut_pieces n k l : (0 < n)%nat -> bytes l -> length l = (n * k)%nat -> exists bs, l = concat bs /\ length bs = k /\ Forall (fun x => bytes x /\ length x = n) bs.
Proof.
  intros Hn. revert l. induction k as [|k IH]; intros l HB L.
  - exists []. destruct l; [now repeat split|cbn in L; lia].
  - destruct (IH (skipn n l)) as (bs & E & LB & FB); [now apply bytes_skipn|rewrite skipn_length; lia|]. exists (firstn n l :: bs). cbn [concat length]. rewrite <- E, firstn_skipn. repeat split; [lia|]. constructor; [|exact FB]. split; [now apply bytes_firstn|rewrite firstn_length; lia].
Qed.
Lemma dec_any p buf c sk : let K := kK p in kset p -> (32 <= length buf)%nat -> bytes c -> (kCt p <= length c)%nat -> bytes sk -> (384 * K <= length sk)%nat ->
  exists m, bytes m /\ length m = 32%nat /\ IndCpaDec p buf c sk = Ok (splice buf 0 m).
Proof.
  intros K Hp Hbuf Bc Lc Bs Ls. pose proof (kset_level p Hp) as HL. fold K in HL. pose proof (kset_K p Hp) as HK. fold K in HK. pose proof (kset_ct p Hp) as QC. fold K in QC.
  destruct (cut_pieces (base_bytes K) K (firstn (base_bytes K * K) c)) as (bs & E1 & L1 & F1); [unfold base_bytes; destruct (3 <? K)%nat; lia|now apply bytes_firstn|rewrite firstn_length; lia|].
  destruct (cut_pieces 384 K (firstn (384 * K) sk)) as (ks & E2 & L2 & F2); [lia|now apply bytes_firstn|rewrite firstn_length; lia|].
  set (x := firstn (vbytes K) (skipn (base_bytes K * K) c)). set (tl := skipn (vbytes K) (skipn (base_bytes K * K) c)).
  assert (EC : c = concat bs ++ x ++ tl) by (rewrite <- E1; unfold x, tl; now rewrite !firstn_skipn).
  assert (LX : length x = vbytes K) by (unfold x; rewrite firstn_length, skipn_length; lia). assert (BX : bytes x) by (unfold x; now apply bytes_firstn, bytes_skipn).
  unfold IndCpaDec. fold K. rewrite (UnPackCt_ok (repeat (zeros 256) K) (zeros 256) c bs x tl); rewrite ?repeat_length; auto using rep_lens, length_zeros; [|eapply Forall_impl; [|exact F1]; now intros ? []]. cbn [bind].
  assert (LK : length (concat ks) = (384 * K)%nat) by (rewrite <- E2, firstn_length; lia).
  unfold UnPackSk. rewrite (VecFromBytes_ok _ sk ks); [|apply rep_lens|eapply Forall_impl; [|exact F2]; now intros ? []|now rewrite repeat_length|rewrite repeat_length; lia|rewrite repeat_length; unfold slice; rewrite skipn_O; now rewrite E2]. cbn [bind].
  destruct (reps_any ks F2) as (s & Rs & Lsk).
  assert (Fu : Forall (bnd 4000) (map (decu K) bs)) by (rewrite Forall_map; eapply Forall_impl; [|exact F1]; intros y [Y1 Y2]; now apply decu_bnd).
  destruct (decv_bnd K x BX LX) as [LV BV].
  destruct (dec_ok (map dec12 ks) s (map (decu K) bs) (map (decu K) bs) (decv K x) (decv K x)) as (mp & -> & Nm); auto.
  - now apply nearv_self.
  - apply nearl_mk; [reflexivity|exact BV].
  - rewrite map_length. lia.
  - lia.
  - cbn [bind]. apply ToMsg_any; auto. rewrite (nearl_len _ _ _ Nm). apply poly_of_len.
Qed.
Lemma enc_any F p c m m' pk coins co e : let K := kK p in kset p -> (kCt p <= length c)%nat -> bytes m -> length m = 32%nat -> bytes pk -> (384 * K + 32 <= length pk)%nat ->
  bytes coins -> (co + 32 <= length coins)%nat -> sampled_at F (slice pk (384 * K) 32) K e ->
  exists b v, IndCpaEnc F p c (m ++ m') pk coins co = Ok (splice c 0 (ctbytes K b v)) /\ bytes (ctbytes K b v) /\ length (ctbytes K b v) = kCt p.
Proof.
  intros K Hp Lc Bm Lm Bp Lp Bc Lco HS. destruct (cut_pieces 384 K (firstn (384 * K) pk)) as (bs & E & L & FB); [lia|now apply bytes_firstn|rewrite firstn_length; lia|].
  destruct (reps_any bs FB) as (t & Rt & _).
  assert (LS : length (slice pk (384 * K) 32) = 32%nat) by (apply length_slice; lia).
  destruct (enc_bytes F p c m m' pk bs (slice pk (384 * K) 32) (skipn 32 (skipn (384 * K) pk)) coins co e t) as (b & v & _ & EN & Lb & Bb & Bv & _); auto.
  - rewrite <- E. unfold slice. now rewrite !firstn_skipn.
  - eapply Forall_impl; [|exact FB]. now intros ? [].
  - now apply bytes_slice.
  - exists b, v. split; [exact EN|]. split; [now apply ct_bytes|now apply ct_len].
Qed.
Lemma CMov_total inp io out oo len cond : (io + len <= length inp)%nat -> (oo + len <= length out)%nat -> bytes inp -> bytes out -> exists r, CMov inp io out oo len cond = Ok r /\ bytes r /\ length r = length out.
Proof.
  intros Hi Ho Bi Bo. unfold CMov. set (c := u8 (wnot 8 cond + 1)).
  destruct (for_up_inv (fun i r => bytes r /\ length r = length out) (fun i out => x <- get inp (io + i) ;; y <- get out (oo + i) ;; put out (oo + i) (Z.lxor y (Z.land c (Z.lxor x y)))) 0 len out) as (r & E & R); [now split| |].
  - intros j s Hj [Bs Ls]. rewrite (get_ok inp _ 0) by lia. cbn [bind]. rewrite (get_ok _ _ 0) by lia. cbn [bind]. rewrite put_ok by lia. eexists. split; [reflexivity|]. rewrite length_upd. split; [|exact Ls].
    apply bytes_upd; [exact Bs|]. apply lxor_byte; [now apply bytes_nth|]. unfold is_byte. pose proof (Z.mod_pos_bound (wnot 8 cond + 1) 256 ltac:(lia)) as M. fold (u8 (wnot 8 cond + 1)) in M. fold c in M.
    assert (Z.land c (Z.lxor (nth (io + j) inp 0) (nth (oo + j) s 0)) = Z.land c (Z.lxor (nth (io + j) inp 0) (nth (oo + j) s 0)) mod 2 ^ 8); [|rewrite H; apply Z.mod_pos_bound; lia].
    rewrite <- Z.land_ones by lia. rewrite <- Z.land_assoc. f_equal. assert (X : is_byte (Z.lxor (nth (io + j) inp 0) (nth (oo + j) s 0))) by (apply lxor_byte; now apply bytes_nth). rewrite Z.land_ones by lia. rewrite Z.mod_small; [reflexivity|exact X].
  - exists r. split; [exact E|exact R].
Qed.
(** the private key: the secret vector, the public key, the hash of the public key, 32 more bytes *)
Definition sk_public (p : kparams) (sk : list Z) : list Z := slice sk (384 * kK p) (384 * kK p + 32).
Definition sk_hash (p : kparams) (sk : list Z) : list Z := slice sk (384 * kK p + (384 * kK p + 32)) 32.
Lemma decaps_any F p domain name sk ct ss A : kset p -> dom_ok domain name -> bytes sk -> length sk = kSk p -> bytes ct -> (kCt p <= length ct)%nat -> GenMatrix F (skipn (384 * kK p) (sk_public p sk)) false (kK p) = Ok A ->
  let h := sk_hash p sk in
  exists m b, bytes m /\ length m = 32%nat /\ IndCpaDec p (zeros 64) ct sk = Ok (m ++ zeros 32) /\
    IndCpaEnc F p (zeros (kCt p)) (m ++ h) (sk_public p sk) (sha3_512 (m ++ h)) 32 = Ok b /\ length b = kCt p /\
    Kyber_Decapsulate F p domain name sk ct ss = Ok (if list_eq_dec Z.eq_dec ct (b ++ zeros (length ct - kCt p)) then (secret_of domain name (shake 24 136 (firstn 32 (sha3_512 (m ++ h)) ++ sha3_256 ct) 32) (length ss), true) else (ss, false)).
Proof.
  intros Hp HD Bs Ls Bc Lc HG h. pose proof (kset_sk p Hp) as QS. set (K := kK p) in *. pose proof (kset_K p Hp) as HK. fold K in HK.
  assert (LPu : length (sk_public p sk) = (384 * K + 32)%nat) by (unfold sk_public; fold K; apply length_slice; lia). assert (BPu : bytes (sk_public p sk)) by (now apply bytes_slice).
  assert (Bh : bytes h) by (now apply bytes_slice). assert (Lh : length h = 32%nat) by (unfold h, sk_hash; fold K; apply length_slice; lia).
  apply Matrix_grid in HG; [|now apply bytes_skipn|rewrite skipn_length; lia]. destruct HG as (e & HS & _).
  assert (SS : slice (skipn (384 * K) (sk_public p sk)) 0 32 = slice (sk_public p sk) (384 * K) 32) by (unfold slice; now rewrite skipn_O). rewrite SS in HS.
  destruct (dec_any p (zeros 64) ct sk Hp ltac:(rewrite length_zeros; lia) Bc Lc Bs ltac:(fold K; lia)) as (m & Bm & Lm & ED). exists m.
  assert (E0 : splice (zeros 64) 0 m = m ++ zeros 32) by (unfold splice; rewrite firstn_O, Lm; reflexivity). rewrite E0 in ED.
  assert (B2 : bytes (m ++ h)) by (apply bytes_app; now split). assert (L2 : length (m ++ h) = (2 * 32)%nat) by (rewrite app_length; lia). pose proof (sha512_len (m ++ h) B2) as LK. pose proof (sha512_bytes (m ++ h)) as BK.
  destruct (enc_any F p (zeros (kCt p)) m h (sk_public p sk) (sha3_512 (m ++ h)) 32 e Hp ltac:(rewrite length_zeros; lia) Bm Lm BPu ltac:(fold K; lia) BK ltac:(lia) HS) as (b & v & EN & BC & LC). fold K in EN, BC, LC.
  rewrite splice_full in EN by (rewrite length_zeros; exact LC).
  set (pk := slice sk (K * 384) (length sk - K * 384)). assert (Lpk : length pk = (384 * K + 32 + 64)%nat) by (unfold pk; rewrite length_slice; lia).
  assert (Epk : exists rest, pk = sk_public p sk ++ rest).
  { exists (skipn (384 * K + 32) pk). unfold sk_public. fold K. replace (slice sk (384 * K) (384 * K + 32)) with (firstn (384 * K + 32) pk); [now rewrite firstn_skipn|]. unfold pk, slice. rewrite firstn_firstn. replace (K * 384)%nat with (384 * K)%nat by lia. f_equal. lia. }
  assert (HS2 : sampled_at F (slice pk (384 * K) 32) K e). { destruct Epk as (rest & ->). replace (slice (sk_public p sk ++ rest) (384 * K) 32) with (slice (sk_public p sk) (384 * K) 32); [exact HS|]. unfold slice. rewrite skipn_app. replace (384 * K - length (sk_public p sk))%nat with 0%nat by lia. rewrite skipn_O, firstn_app. rewrite skipn_length. replace (32 - (length (sk_public p sk) - 384 * K))%nat with 0%nat by lia. now rewrite firstn_O, app_nil_r. }
  exists (ctbytes K b v). split; [exact Bm|]. split; [exact Lm|]. split; [exact ED|]. split; [exact EN|]. split; [exact LC|].
  (* the same encryption into the longer buffer with the longer key *)
  assert (EN2 : IndCpaEnc F p (zeros (length ct)) (m ++ h) pk (sha3_512 (m ++ h)) 32 = Ok (ctbytes K b v ++ zeros (length ct - kCt p))).
  { destruct (cut_pieces 384 K (firstn (384 * K) (sk_public p sk))) as (bs & E & L & FB); [lia|now apply bytes_firstn|rewrite firstn_length; lia|]. destruct (reps_any bs FB) as (t & Rt & _).
    assert (FB' : Forall (fun x : list Z => length x = 384%nat) bs) by (eapply Forall_impl; [|exact FB]; now intros ? []).
    assert (LSd : length (slice (sk_public p sk) (384 * K) 32) = 32%nat) by (apply length_slice; lia).
    assert (E1 : sk_public p sk = concat bs ++ slice (sk_public p sk) (384 * K) 32 ++ []). { rewrite <- E, app_nil_r. unfold slice. rewrite (firstn_all2 (skipn _ _)) by (rewrite skipn_length; lia). now rewrite firstn_skipn. }
    destruct (enc_bytes F p (zeros (kCt p)) m h (sk_public p sk) bs (slice (sk_public p sk) (384 * K) 32) [] (sha3_512 (m ++ h)) 32 e t Hp ltac:(rewrite length_zeros; lia) Bm Lm E1 FB' L ltac:(now apply bytes_slice) LSd BK ltac:(lia) HS Rt) as (b1 & v1 & C1 & N1 & Lb1 & Bb1 & Bv1 & _).
    destruct Epk as (rest & Epk).
    assert (E2 : pk = concat bs ++ slice (sk_public p sk) (384 * K) 32 ++ rest) by (rewrite Epk; rewrite E1 at 1; rewrite app_nil_r; now rewrite <- app_assoc).
    destruct (enc_bytes F p (zeros (length ct)) m h pk bs (slice (sk_public p sk) (384 * K) 32) rest (sha3_512 (m ++ h)) 32 e t Hp ltac:(rewrite length_zeros; lia) Bm Lm E2 FB' L ltac:(now apply bytes_slice) LSd BK ltac:(lia) HS Rt) as (b2 & v2 & C2 & N2 & _).
    rewrite C1 in C2. injection C2 as <- <-. rewrite N1 in EN. pose proof (ct_len p b1 v1 Hp Lb1 Bb1 Bv1) as LC1. rewrite splice_full in EN by (rewrite length_zeros; exact LC1). injection EN as EN. rewrite N2. fold K in EN. rewrite <- EN. fold K in LC1. f_equal. fold K. unfold splice. rewrite firstn_O. cbn [app Nat.add]. f_equal. rewrite LC1.
    replace (length ct) with (kCt p + (length ct - kCt p))%nat at 1 by lia. unfold zeros. rewrite repeat_app. rewrite skipn_app. rewrite repeat_length, Nat.sub_diag, skipn_O. rewrite skipn_all2 by (rewrite repeat_length; lia). reflexivity. }
  unfold Kyber_Decapsulate, kem_decapsulate. fold K. cbv zeta. unfold KYBER_POLYBYTES, KYBER_SYMBYTES. replace (K * 384 <=? length sk)%nat with true by (symmetry; apply Nat.leb_le; lia). cbn [safe bind].
  rewrite wcopy_ok by (rewrite ?length_zeros; lia). cbn [bind]. rewrite length_zeros. fold pk. rewrite splice_full by (rewrite length_zeros, Lpk; lia).
  change (2 * 32)%nat with 64%nat in *. rewrite ED. cbn [bind]. rewrite wcopy_ok by (rewrite ?app_length, ?length_zeros; lia). cbn [bind].
  assert (EH : splice (m ++ zeros 32) 32 (slice sk (K * 384 + (K * 384 + 32) + 64 - 64) 32) = m ++ h).
  { replace (K * 384 + (K * 384 + 32) + 64 - 64)%nat with (384 * K + (384 * K + 32))%nat by lia. change (slice sk (384 * K + (384 * K + 32)) 32) with h. unfold splice. rewrite Lh. rewrite firstn_app, Lm, Nat.sub_diag, firstn_O, app_nil_r. rewrite firstn_all2 by lia. rewrite skipn_all2 by (rewrite app_length, length_zeros; lia). now rewrite app_nil_r. }
  rewrite EH. rewrite sha512_ok by (first [exact B2 | rewrite L2; lia | rewrite length_zeros; lia]). rewrite slice_all by (now rewrite L2). cbn [bind]. rewrite splice_full by (rewrite length_zeros; exact LK).
  rewrite EN2. cbn [bind]. set (cmp := ctbytes K b v ++ zeros (length ct - kCt p)) in *. assert (Lcmp : length cmp = length ct) by (unfold cmp; rewrite app_length, length_zeros; lia). assert (Bcmp : bytes cmp) by (apply bytes_app; split; [exact BC|apply bytes_zeros]).
  destruct (Verify_correct ct 0 cmp 0 (length ct) ltac:(lia) ltac:(lia) Bc Bcmp) as (dd & -> & Bdd & I). cbn [bind]. rewrite !slice_all in I by (reflexivity || now rewrite Lcmp).
  rewrite sha256_ok by (first [exact Bc | rewrite LK; lia | lia]). rewrite slice_all by reflexivity. cbn [bind]. pose proof (sha256_len ct Bc) as LHC.
  assert (BKR : bytes (splice (sha3_512 (m ++ h)) 32 (sha3_256 ct))) by (apply bytes_splice; [exact BK|apply sha256_bytes]). assert (LKR : length (splice (sha3_512 (m ++ h)) 32 (sha3_256 ct)) = 64%nat) by (rewrite length_splice; lia).
  destruct (list_eq_dec Z.eq_dec ct cmp) as [EQ|NE].
  - assert (dd = 0) by (now apply I). subst dd. rewrite CMov_correct; [|lia|lia|exact Bs|exact BKR|now left]. change (u8 0 =? 1) with false. cbn [bind].
    pose proof (final_hash (sha3_512 (m ++ h)) ct BK LK Bc _ eq_refl) as FH. change (2 * KYBER_SYMBYTES)%nat with 64%nat in FH. rewrite FH. cbn [bind]. change (0 =? 0) with true. cbv iota. rewrite secret_ok by (try exact HD; apply shake_bytes). reflexivity.
  - assert (ND : dd <> 0) by (intros E; apply NE; now apply I). destruct (CMov_total sk (K * 384 + (K * 384 + 32) + 64 - 32) (splice (sha3_512 (m ++ h)) 32 (sha3_256 ct)) 0 32 (u8 dd) ltac:(lia) ltac:(lia) Bs BKR) as (kr & -> & Bkr & Lkr). cbn [bind].
    rewrite XOF_ok by (auto using r24; rewrite ?length_zeros; lia). cbn [bind]. rewrite (proj2 (Z.eqb_neq _ _) ND). reflexivity.
Qed.
