(** The key encapsulation. *)
From Verif Require Import BaseLemmas Proofs_IntegerTools Proofs_IntegerTools2 Model_IntegerTools Spec_Common Spec_Keccak Model_Keccak Spec_Kyber Model_Kyber Model_Modes Session_KMAC Proofs_Common Proofs_Windows Proofs_Keccak Proofs_SHA3 Proofs_XOF Proofs_CSX2 ProofsP_KMAC
  Proofs_Kyber Proofs_Kyber2 Proofs_Kyber3 Proofs_Kyber4 Proofs_Kyber5 Proofs_Kyber6 Proofs_Kyber7 Proofs_Kyber8 Proofs_Kyber9 Proofs_Kyber10 Proofs_Kyber11 Proofs_Kyber13 Proofs_Kyber14 Proofs_Kyber15.
From Coq Require Import Setoid Morphisms.
Open Scope Z_scope.
Opaque lay zrs zis L0 I0 scale poly_of FW BW zsum gamma keccak sha3_256 sha3_512 shake cshake.

Ltac u8b := repeat (constructor; [unfold is_byte, u8; apply Z.mod_pos_bound; reflexivity|]); constructor.
Lemma pack11_bytes x : bytes (pack11 x). Proof. unfold pack11. u8b. Qed.
Lemma pack10_bytes x : bytes (pack10 x). Proof. unfold pack10. u8b. Qed.
Lemma pack5_bytes x : bytes (pack5 x). Proof. unfold pack5. u8b. Qed.
Lemma pack4_bytes x : bytes (pack4 x). Proof. unfold pack4. u8b. Qed.
Lemma ct_bytes K b v : Forall (bnd 3328) b -> bnd 3328 v -> bytes (ctbytes K b v).
Proof.
  intros Hb [Lv _]. unfold ctbytes. apply bytes_app. split.
  - apply bytes_concat. rewrite Forall_map. eapply Forall_impl; [|exact Hb]. intros p [L _]. unfold encu. destruct (3 <? K)%nat; [apply (gmap_bytes 8 11 _ 32)|apply (gmap_bytes 4 5 _ 64)]; try lia; try exact g11; try exact g10; try exact pack11_bytes; try exact pack10_bytes; exact L.
  - unfold encv. destruct (3 <? K)%nat; [apply (gmap_bytes 8 5 _ 32)|apply (gmap_bytes 8 4 _ 32)]; try lia; try exact g5; try exact g4; try exact pack5_bytes; try exact pack4_bytes; exact Lv.
Qed.
Lemma ct_len p b v : kset p -> length b = kK p -> Forall (bnd 3328) b -> bnd 3328 v -> length (ctbytes (kK p) b v) = kCt p.
Proof.
  intros Hp Lb Hb [Lv _]. unfold ctbytes. rewrite app_length, encv_len by exact Lv. rewrite (concat_lens (base_bytes (kK p))) by (now apply encu_lens). rewrite map_length, Lb. symmetry. now apply kset_ct.
Qed.
Definition secret_of (domain name sec : list Z) (n : nat) : list Z := if (length domain =? 0)%nat then sec else cshake 24 72 sec n name domain.
Definition dom_ok (domain name : list Z) : Prop := bytes domain /\ bytes name /\ short domain /\ short name /\ fits_block 72 name domain.
Lemma cshake_len sec n name dom : bytes sec -> dom_ok dom name -> (length dom <> 0)%nat -> length (cshake 24 72 sec n name dom) = n.
Proof.
  intros Hs (H1 & H2 & H3 & H4 & H5) HN. destruct (c39_cxof 24 sec dom name (zeros n) 0 n 72) as (o & _ & W); auto; try lia; [rewrite length_zeros; lia|].
  Transparent cshake. unfold cshake. replace (length name + length dom =? 0)%nat with false by (symmetry; apply Nat.eqb_neq; lia). Opaque cshake.
  destruct (Proofs_KMAC.CXOF_ok 24 sec dom name (zeros n) 0 n 72) as (d & _ & L & D); auto using r24; try lia; [rewrite length_zeros; lia|]. rewrite <- D. exact L.
Qed.
Lemma secret_ok domain name sec ss : bytes sec -> dom_ok domain name -> Kyber_secret domain name sec ss = Ok (secret_of domain name sec (length ss)).
Proof.
  intros Hs HD. unfold Kyber_secret, secret_of. destruct (Nat.eqb_spec (length domain) 0) as [E|E]; cbn [negb].
  - rewrite wcopy_ok by (rewrite ?length_zeros; lia). rewrite slice_all by reflexivity. rewrite splice_full; [reflexivity|]. now rewrite length_zeros.
  - pose proof HD as (H1 & H2 & H3 & H4 & H5). unfold Kyber_CXOF. destruct (c39_cxof 24 sec domain name ss 0 (length ss) 72) as (o & -> & W); auto; try lia. f_equal.
    pose proof (cshake_len sec (length ss) name domain Hs HD E) as L. pose proof (splice_written ss 0 (cshake 24 72 sec (length ss) name domain) ltac:(lia)) as W2. rewrite (written_unique ss o (splice ss 0 (cshake 24 72 sec (length ss) name domain)) 0 (cshake 24 72 sec (length ss) name domain) ltac:(lia) W W2). now apply splice_full.
Qed.
(** the hashes of an encapsulation *)
Definition kr_of (m pk : list Z) : list Z := sha3_512 (m ++ sha3_256 pk).
Definition kem_secret (m pk ct : list Z) : list Z := shake 24 136 (firstn 32 (kr_of m pk) ++ sha3_256 ct) 32.
Lemma sha256_bytes m : bytes (sha3_256 m). Proof. Transparent sha3_256. unfold sha3_256. Opaque sha3_256. apply sponge_bytes. Qed.
Lemma sha512_bytes m : bytes (sha3_512 m). Proof. Transparent sha3_512. unfold sha3_512. Opaque sha3_512. apply sponge_bytes. Qed.
Lemma shake_bytes r m n : bytes (shake 24 r m n). Proof. Transparent shake. unfold shake. Opaque shake. apply sponge_bytes. Qed.
Lemma kr_facts m pk : bytes m -> bytes pk -> bytes (kr_of m pk) /\ length (kr_of m pk) = 64%nat.
Proof. intros Hm Hp. split; [apply sha512_bytes|]. apply sha512_len. apply bytes_app. split; [exact Hm|apply sha256_bytes]. Qed.
Lemma sl_kr {A} (k : list A) : length k = 64%nat -> slice k 32 32 = skipn 32 k.
Proof. intros H. unfold slice. apply firstn_all2. rewrite skipn_length. lia. Qed.
Lemma final_hash kr ct (H1 : bytes kr) (H2 : length kr = 64%nat) (H3 : bytes ct) : forall kr', kr' = splice kr 32 (sha3_256 ct) ->
  XOFP1600 24 kr' 0 (2 * KYBER_SYMBYTES) (zeros 32) 0 (length (zeros 32)) 136 = Ok (shake 24 136 (firstn 32 kr ++ sha3_256 ct) 32).
Proof.
  intros kr' E. pose proof (sha256_len ct H3) as L. assert (E2 : kr' = firstn 32 kr ++ sha3_256 ct).
  { rewrite E. unfold splice. rewrite L. rewrite (skipn_all2 kr) by lia. now rewrite app_nil_r. }
  assert (L2 : length kr' = 64%nat) by (rewrite E2, app_length, firstn_length; lia). assert (B2 : bytes kr') by (rewrite E2; apply bytes_app; split; [now apply bytes_firstn|apply sha256_bytes]).
  unfold KYBER_SYMBYTES. rewrite XOF_ok by (auto using r24; rewrite ?length_zeros; lia). rewrite length_zeros. rewrite slice_all by (now rewrite L2). rewrite E2. f_equal. apply splice_full. rewrite length_zeros. apply shake_len; [lia|]. now rewrite <- E2.
Qed.

(** * encapsulation *)
Lemma encaps_ok F p pk bs seed m e t : let K := kK p in kset p -> pk = concat bs ++ seed -> bytes pk -> Forall (fun x => length x = 384%nat) bs -> length bs = K -> bytes seed -> length seed = 32%nat ->
  bytes m -> length m = 32%nat -> sampled_at F seed K e -> reps 4095 1 (map dec12 bs) t ->
  let mm := sha3_256 m in let cs := skipn 32 (kr_of mm pk) in let r := noises (kEta1 p) cs 0 K in
  exists b v, enc_core (grid K e) (map dec12 bs) r (noises 2 cs K K) (noise 2 cs (2 * K)) (msg_poly mm) = Ok (b, v) /\
    kem_encapsulate F p pk (zeros (kCt p)) (zeros 32) m = Ok (ctbytes K b v, kem_secret mm pk (ctbytes K b v)).
Proof.
  intros K Hp Epk Bpk Fb Lb Bs Ls Bm Lm HS Rt mm cs r. pose proof (sha256_len m Bm) as LM. fold mm in LM. pose proof (sha256_len pk Bpk) as LH. pose proof (sha256_bytes m) as BM. fold mm in BM. pose proof (sha256_bytes pk) as BH.
  destruct (kr_facts mm pk BM Bpk) as [BK LK]. unfold kem_encapsulate. cbv zeta. unfold KYBER_SYMBYTES. rewrite wr_ok by (rewrite length_zeros; lia). cbn [bind].
  assert (B0 : bytes (splice (zeros (2 * 32)) 0 m)) by (apply bytes_splice; [apply bytes_zeros|exact Bm]).
  rewrite sha256_ok by (first [exact B0 | ln]). assert (S0 : slice (splice (zeros (2 * 32)) 0 m) 0 32 = m) by (rewrite <- Lm at 2; apply slice_splice_same; rewrite length_zeros; lia). rewrite S0. cbn [bind]. fold mm.
  assert (E1 : splice (splice (zeros (2 * 32)) 0 m) 0 mm = splice (zeros (2 * 32)) 0 mm).
  { unfold splice at 1 3. rewrite !firstn_O. cbn [app]. f_equal. rewrite !Nat.add_0_l, LM. unfold splice. rewrite firstn_O. cbn [app]. rewrite Lm, skipn_app, Lm, Nat.sub_diag, skipn_O. rewrite skipn_all2 by lia. reflexivity. }
  rewrite E1. rewrite sha256_ok by (first [exact Bpk | ln]). cbn [bind]. rewrite slice_all by reflexivity.
  assert (E2 : splice (splice (zeros (2 * 32)) 0 mm) 32 (sha3_256 pk) = mm ++ sha3_256 pk).
  { replace 32%nat with (0 + length mm)%nat at 2 by lia. rewrite splice_splice_next by (rewrite length_zeros; lia). apply splice_full. rewrite app_length, length_zeros. lia. }
  rewrite E2. assert (B2 : bytes (mm ++ sha3_256 pk)) by (apply bytes_app; now split). assert (L2 : length (mm ++ sha3_256 pk) = (2 * 32)%nat) by (rewrite app_length; lia).
  rewrite sha512_ok by (first [exact B2 | rewrite L2; lia | rewrite length_zeros; lia]). rewrite slice_all by (now symmetry). cbn [bind]. fold (kr_of mm pk). rewrite splice_full by (rewrite length_zeros; exact LK).
  destruct (enc_bytes F p (zeros (kCt p)) mm (sha3_256 pk) pk bs seed [] (kr_of mm pk) 32 e t) as (b & v & E & EN & Lbv & Bb & Bv & _); auto; [rewrite length_zeros; lia|now rewrite app_nil_r|lia|]. rewrite (sl_kr _ LK) in E. fold cs in E. fold K in E. fold r in E.
  exists b, v. split; [exact E|]. rewrite EN. cbn [bind]. fold K. pose proof (ct_len p b v Hp Lbv Bb Bv) as LC. fold K in LC. rewrite splice_full by (rewrite length_zeros; exact LC).
  pose proof (ct_bytes K b v Bb Bv) as BC. set (ct := ctbytes K b v) in *.
  rewrite sha256_ok by (first [exact BC | rewrite LK; lia | lia]). rewrite slice_all by reflexivity. cbn [bind]. change (2 * 32)%nat with (2 * KYBER_SYMBYTES)%nat. rewrite (final_hash (kr_of mm pk) ct BK LK BC _ eq_refl). reflexivity.
Qed.

(** * decapsulation of an honest ciphertext, with [k] zero bytes appended *)
Lemma decaps_ok F p bs seed skv z m e t x k : let K := kK p in let pk := concat bs ++ seed in let sk := concat (map enc12 skv) ++ pk ++ sha3_256 pk ++ z in
  kset p -> bytes pk -> Forall (fun x => length x = 384%nat) bs -> length bs = K -> bytes seed -> length seed = 32%nat -> bytes z -> length z = 32%nat ->
  bytes m -> length m = 32%nat -> sampled_at F seed K e -> reps 4095 1 (map dec12 bs) t -> reps 1664 1 skv (ps x) -> pke_wf x -> length (ps x) = K -> pdu x = du K -> pdv x = dv K -> pm x = msg_poly m -> small (error x) ->
  let cs := skipn 32 (kr_of m pk) in let r := noises (kEta1 p) cs 0 K in
  forall b v, enc_core (grid K e) (map dec12 bs) r (noises 2 cs K K) (noise 2 cs (2 * K)) (msg_poly m) = Ok (b, v) -> nearv 1664 b (pke_u x) -> nearl 1664 v (pke_v x) ->
  let ct := ctbytes K b v ++ zeros k in kem_decapsulate F p sk ct (zeros 32) = Ok (kem_secret m pk ct, true).
Proof.
  intros K pk sk Hp Bpk Fb Lb Bsd Lsd Bz Lz Bm Lm HS Rt Rs W Lx Edu Edv Em Sm cs r b v E Nb Nv ct. pose proof (kset_K p Hp) as HK. fold K in HK.
  pose proof (reps_bnd 1664 1 _ _ ltac:(lia) Rs) as B1. pose proof (bnd_lens _ B1) as B1'. pose proof (reps_len _ _ _ _ Rs) as L1.
  assert (LS : length (concat (map enc12 skv)) = (384 * K)%nat) by (rewrite (concat_lens 384) by (now apply enc12_lens); rewrite map_length; lia).
  assert (LP : length pk = (384 * K + 32)%nat) by (unfold pk; rewrite app_length, (concat_lens 384) by exact Fb; lia). pose proof (sha256_len pk Bpk) as LH. pose proof (sha256_bytes pk) as BH.
  assert (LSK : length sk = (384 * K + (384 * K + 32) + 64)%nat) by (unfold sk; rewrite !app_length; lia).
  destruct (kr_facts m pk Bm Bpk) as [BK LK].
  destruct (enc_bytes F p (zeros (length ct)) m (sha3_256 pk) (pk ++ sha3_256 pk ++ z) bs seed (sha3_256 pk ++ z) (kr_of m pk) 32 e t) as (b' & v' & E' & EN & Lbv & Bb & Bv & _); auto.
  { rewrite length_zeros. unfold ct. rewrite app_length.
    destruct (enc_bytes F p (zeros (kCt p)) m (sha3_256 pk) pk bs seed [] (kr_of m pk) 32 e t) as (b'' & v'' & E'' & _ & Lbv & Bb & Bv & _); auto; [rewrite length_zeros; lia|now rewrite app_nil_r|lia|]. rewrite (sl_kr _ LK) in E''. fold cs K r in E''. rewrite E in E''. injection E'' as <- <-. pose proof (ct_len p b v Hp Lbv Bb Bv) as LQ. fold K in LQ. lia. }
  { unfold pk. now rewrite <- app_assoc. }
  { lia. }
  rewrite (sl_kr _ LK) in E'. fold cs K r in E'. rewrite E in E'. injection E' as <- <-. pose proof (ct_bytes K b v Bb Bv) as BC. pose proof (ct_len p b v Hp Lbv Bb Bv) as LC. fold K in LC, EN, Lbv.
  assert (BCT : bytes ct) by (unfold ct; apply bytes_app; split; [exact BC|apply bytes_zeros]).
  unfold kem_decapsulate. fold K. cbv zeta. unfold KYBER_POLYBYTES, KYBER_SYMBYTES. replace (K * 384 <=? length sk)%nat with true by (symmetry; apply Nat.leb_le; lia). cbn [safe bind].
  rewrite wcopy_ok by (rewrite ?length_zeros; lia). cbn [bind]. rewrite length_zeros.
  assert (EP : splice (zeros (length sk - K * 384)) 0 (slice sk (K * 384) (length sk - K * 384)) = pk ++ sha3_256 pk ++ z).
  { rewrite splice_full by (rewrite length_zeros, length_slice; lia). replace (K * 384)%nat with (length (concat (map enc12 skv))) at 1 by lia. unfold sk at 1. apply slice_post. rewrite LSK, !app_length. lia. }
  rewrite EP. unfold ct at 1. unfold sk at 1. unfold K at 1. rewrite (dec_bytes p (zeros (2 * 32)) b v (zeros k) skv (pk ++ sha3_256 pk ++ z) x m) by (auto; rewrite ?length_zeros; lia). cbn [bind].
  rewrite wcopy_ok by (rewrite ?length_splice; rewrite ?length_zeros; lia). cbn [bind].
  assert (SH : slice sk (K * 384 + (K * 384 + 32) + 2 * 32 - 2 * 32) 32 = sha3_256 pk).
  { replace (K * 384 + (K * 384 + 32) + 2 * 32 - 2 * 32)%nat with (length (concat (map enc12 skv) ++ pk)) by (rewrite app_length; lia). unfold sk. rewrite app_assoc. unfold slice. rewrite skipn_app, skipn_all, Nat.sub_diag, skipn_O. cbn [app]. rewrite <- LH at 1. rewrite firstn_app, firstn_all, Nat.sub_diag, firstn_O. apply app_nil_r. }
  rewrite SH.
  assert (E2 : splice (splice (zeros (2 * 32)) 0 m) 32 (sha3_256 pk) = m ++ sha3_256 pk).
  { replace 32%nat with (0 + length m)%nat at 2 by lia. rewrite splice_splice_next by (rewrite length_zeros; lia). apply splice_full. rewrite app_length, length_zeros. lia. }
  rewrite E2. assert (B2 : bytes (m ++ sha3_256 pk)) by (apply bytes_app; now split). assert (L2 : length (m ++ sha3_256 pk) = (2 * 32)%nat) by (rewrite app_length; lia).
  rewrite sha512_ok by (first [exact B2 | rewrite L2; lia | rewrite length_zeros; lia]). rewrite slice_all by (now symmetry). cbn [bind]. fold (kr_of m pk). rewrite splice_full by (rewrite length_zeros; exact LK).
  rewrite EN. cbn [bind].
  assert (EC : splice (zeros (length ct)) 0 (ctbytes K b v) = ct).
  { unfold splice. rewrite firstn_O. cbn [app Nat.add]. unfold ct. f_equal. rewrite app_length, length_zeros. unfold zeros. clear. generalize (length (ctbytes K b v)). intros n. induction n as [|n IH]; [reflexivity|]. exact IH. }
  rewrite EC. destruct (Verify_correct ct 0 ct 0 (length ct) ltac:(lia) ltac:(lia) BCT BCT) as (dd & -> & _ & I). assert (dd = 0) by (now apply I). subst dd. cbn [bind].
  rewrite sha256_ok by (first [exact BCT | rewrite LK; lia | lia]). rewrite slice_all by reflexivity. cbn [bind]. pose proof (sha256_len ct BCT) as LHC.
  rewrite CMov_correct; [|lia|rewrite length_splice; lia|unfold sk; apply bytes_app; split; [now apply encs_bytes|]; apply bytes_app; split; [exact Bpk|]; apply bytes_app; split; [exact BH|exact Bz]|apply bytes_splice; [exact BK|apply sha256_bytes]|now left]. change (u8 0 =? 1) with false. cbn [bind].
  change (2 * 32)%nat with (2 * KYBER_SYMBYTES)%nat. rewrite (final_hash (kr_of m pk) ct BK LK BCT _ eq_refl). reflexivity.
Qed.
