(** IndCpaKeyPair, IndCpaEnc and IndCpaDec. *)
From Verif Require Import BaseLemmas Proofs_IntegerTools Spec_Keccak Model_Keccak Spec_Kyber Model_Kyber Model_Modes Proofs_Windows Proofs_Keccak Proofs_SHA3 Proofs_CSX2
  Proofs_Kyber Proofs_Kyber2 Proofs_Kyber3 Proofs_Kyber4 Proofs_Kyber5 Proofs_Kyber6 Proofs_Kyber7 Proofs_Kyber8 Proofs_Kyber9 Proofs_Kyber10 Proofs_Kyber11 Proofs_Kyber13 Proofs_Kyber14.
From Coq Require Import Setoid Morphisms.
Open Scope Z_scope.
Opaque lay zrs zis L0 I0 scale poly_of FW BW zsum gamma keccak.

Definition kset (p : kparams) : Prop := In p [Params1632; Params2400; Params3168; Params3936].
Lemma kset_level p : kset p -> level (kK p).
Proof. intros [<-|[<-|[<-|[<-|[]]]]]; unfold level; cbn; auto. Qed.
Lemma kset_eta p : kset p -> (kEta1 p = 2 \/ kEta1 p = 3)%nat.
Proof. intros [<-|[<-|[<-|[<-|[]]]]]; cbn; auto. Qed.
Lemma kset_pk p : kset p -> kPk p = (384 * kK p + 32)%nat. Proof. intros [<-|[<-|[<-|[<-|[]]]]]; reflexivity. Qed.
Lemma kset_sk p : kset p -> kSk p = (384 * kK p + (384 * kK p + 32) + 64)%nat. Proof. intros [<-|[<-|[<-|[<-|[]]]]]; reflexivity. Qed.
Lemma kset_ct p : kset p -> kCt p = (base_bytes (kK p) * kK p + vbytes (kK p))%nat. Proof. intros [<-|[<-|[<-|[<-|[]]]]]; reflexivity. Qed.
Lemma kset_K p : kset p -> (0 < kK p <= 5)%nat. Proof. intros [<-|[<-|[<-|[<-|[]]]]]; cbn; lia. Qed.

(** * generation *)
Lemma sha512_len m : bytes m -> length (sha3_512 m) = 64%nat.
Proof.
  intros Hm. destruct (Proofs_Sponge.Absorb_ok 24 m 0 (length m) 72 6 zero_state r24 ltac:(lia) zero_state_ok Hm ltac:(lia) ltac:(red; lia)) as (st & _ & A).
  rewrite slice_all in A by reflexivity. unfold sha3_512. rewrite (Proofs_XOF.sponge_stream _ _ _ _ _ _ _ A). apply Proofs_XOF.stream_len; [lia|apply A].
Qed.
Lemma sha256_len m : bytes m -> length (sha3_256 m) = 32%nat.
Proof.
  intros Hm. destruct (Proofs_Sponge.Absorb_ok 24 m 0 (length m) 136 6 zero_state r24 ltac:(lia) zero_state_ok Hm ltac:(lia) ltac:(red; lia)) as (st & _ & A).
  rewrite slice_all in A by reflexivity. unfold sha3_256. rewrite (Proofs_XOF.sponge_stream _ _ _ _ _ _ _ A). apply Proofs_XOF.stream_len; [lia|apply A].
Qed.
Lemma sha512_ok inp io len out oo : bytes inp -> (io + len <= length inp)%nat -> (oo + 64 <= length out)%nat -> Compute 24 inp io len out oo 72 = Ok (splice out oo (sha3_512 (slice inp io len))).
Proof. intros H1 H2 H3. rewrite Compute_ok by (auto using r24; lia). reflexivity. Qed.
Lemma sha256_ok inp io len out oo : bytes inp -> (io + len <= length inp)%nat -> (oo + 32 <= length out)%nat -> Compute 24 inp io len out oo 136 = Ok (splice out oo (sha3_256 (slice inp io len))).
Proof. intros H1 H2 H3. rewrite Compute_ok by (auto using r24; lia). reflexivity. Qed.
Lemma slice_pre {A} (a b : list A) : slice (a ++ b) 0 (length a) = a.
Proof. unfold slice. rewrite skipn_O, firstn_app, firstn_all, Nat.sub_diag, firstn_O. apply app_nil_r. Qed.
Lemma slice_post {A} (a b : list A) n : n = length b -> slice (a ++ b) (length a) n = b.
Proof. intros ->. unfold slice. rewrite skipn_app, skipn_all, Nat.sub_diag, skipn_O. cbn [app]. apply firstn_all. Qed.
Definition rho (d : list Z) : list Z := firstn 32 (sha3_512 d).
Definition sigma (d : list Z) : list Z := skipn 32 (sha3_512 d).

Lemma row_or F sd tr i : bytes sd -> (32 <= length sd)%nat -> forall n j buf, (504 <= length buf)%nat -> (exists x, gen_row F sd tr i j n buf = Ok x) \/ gen_row F sd tr i j n buf = UB.
Proof.
  intros Hs L. induction n as [|n IH]; intros j buf HB; cbn [gen_row]; [left; eauto|].
  assert (EQ : (if tr then gen_entry F sd (u8 (Z.of_nat i)) (u8 (Z.of_nat j)) buf else gen_entry F sd (u8 (Z.of_nat j)) (u8 (Z.of_nat i)) buf) = gen_entry F sd (if tr then byte_of i else byte_of j) (if tr then byte_of j else byte_of i) buf) by (destruct tr; reflexivity).
  rewrite EQ. clear EQ. pose proof (entry_ok F sd (if tr then byte_of i else byte_of j) (if tr then byte_of j else byte_of i) buf Hs L ltac:(destruct tr; apply byte_of_ok) ltac:(destruct tr; apply byte_of_ok) HB) as E.
  destruct (ent F _ _ _) as [a|]; [|right; rewrite E; reflexivity]. destruct E as (b1 & -> & L1). cbn [bind]. destruct (IH (S j) b1 ltac:(lia)) as [[[t b2] ->]| ->]; cbn [bind]; [left; eauto|right; reflexivity].
Qed.
Lemma rows_or F sd tr K : bytes sd -> (32 <= length sd)%nat -> forall n i buf, (504 <= length buf)%nat -> (exists A, gen_rows F sd tr K i n buf = Ok A) \/ gen_rows F sd tr K i n buf = UB.
Proof.
  intros Hs L. induction n as [|n IH]; intros i buf HB; cbn [gen_rows]; [left; eauto|].
  destruct (row_or F sd tr i Hs L K 0%nat buf HB) as [[[row b1] E]|E]; rewrite E; cbn [bind]; [|right; reflexivity]. apply row_ok in E; auto. destruct E as [L1 _]. destruct (IH (S i) b1 ltac:(lia)) as [[t ->]| ->]; cbn [bind]; [left; eauto|right; reflexivity].
Qed.
Lemma Matrix_or F sd tr K : bytes sd -> (32 <= length sd)%nat -> (exists A, GenMatrix F sd tr K = Ok A) \/ GenMatrix F sd tr K = UB.
Proof. intros Hs L. unfold GenMatrix. apply rows_or; auto. rewrite length_zeros. lia. Qed.

Lemma keypair_bytes F p d pk0 sk0 : kset p -> bytes d -> length d = 32%nat -> length pk0 = kPk p -> (384 * kK p <= length sk0)%nat ->
  let K := kK p in let s := noises (kEta1 p) (sigma d) 0 K in let e := noises (kEta1 p) (sigma d) K K in
  match GenMatrix F (rho d) false K with
  | Ok Ah => exists skv pkv, keypair_core Ah s e = Ok (skv, pkv) /\ IndCpaKeyPair F p pk0 sk0 d = Ok (concat (map enc12 pkv) ++ rho d, splice sk0 0 (concat (map enc12 skv))) /\
      forall e' A, sampled_at F (rho d) K e' -> Ah = grid K (fun i j => e' j i) -> ematrix K e' A -> reps 1664 1 skv s /\ reps 1664 1 pkv (vec_add (mat_vec A s) e)
  | _ => ~ exists r, IndCpaKeyPair F p pk0 sk0 d = Ok r end.
Proof.
  intros Hp Hd Ld Lpk Lsk K s e. pose proof (kset_K p Hp) as HK. pose proof (kset_eta p Hp) as HE. fold K in HK, Lsk. pose proof (sha512_len d Hd) as LG. assert (BG : bytes (sha3_512 d)) by apply sponge_bytes.
  unfold IndCpaKeyPair. fold K. unfold KYBER_SYMBYTES. rewrite wr_ok by (rewrite length_zeros; lia). cbn [bind].
  assert (Bz : bytes (splice (zeros (2 * 32)) 0 d)) by (apply bytes_splice; [apply bytes_zeros|exact Hd]).
  rewrite sha512_ok; [|exact Bz|ln|ln].
  assert (S0 : slice (splice (zeros (2 * 32)) 0 d) 0 32 = d) by (rewrite <- Ld at 2; apply slice_splice_same; rewrite length_zeros; lia). rewrite S0. cbn [bind].
  rewrite splice_full by (rewrite LG; ln). set (g := sha3_512 d) in *.
  assert (Sr : slice g 0 32 = rho d) by reflexivity. assert (Ss : slice g 32 32 = sigma d) by (unfold slice, sigma; fold g; apply firstn_all2; rewrite skipn_length; lia).
  assert (Lr : length (rho d) = 32%nat) by (unfold rho; fold g; rewrite firstn_length; lia). assert (Br : bytes (rho d)) by (unfold rho; now apply bytes_firstn).
  assert (GE : GenMatrix F g false K = GenMatrix F (rho d) false K).
  { assert (SR : slice (rho d) 0 32 = rho d) by (apply slice_all; now symmetry).
    assert (I : forall A, GenMatrix F g false K = Ok A <-> GenMatrix F (rho d) false K = Ok A) by (intros A; rewrite !Matrix_ok by (auto; lia); now rewrite Sr, SR).
    destruct (Matrix_or F g false K BG ltac:(lia)) as [[A EA]|EA]; [rewrite EA; symmetry; now apply I|]. destruct (Matrix_or F (rho d) false K Br ltac:(lia)) as [[A EB]|EB]; [apply I in EB; congruence|congruence]. }
  rewrite GE. destruct (GenMatrix F (rho d) false K) as [Ah| |] eqn:EA; cbn [bind]; try (intros [r Hr]; discriminate).
  rewrite (noise_vec_ok K _ (noise (kEta1 p) (sigma d)) 0) by (intros n Hn; rewrite <- Ss; apply Noise_ok; auto; try apply length_zeros; lia). cbn [bind].
  rewrite (noise_vec_ok K _ (noise (kEta1 p) (sigma d)) K) by (intros n Hn; rewrite <- Ss; apply Noise_ok; auto; try apply length_zeros; lia). cbn [bind].
  fold (noises (kEta1 p) (sigma d) 0 K). fold (noises (kEta1 p) (sigma d) K K). fold s. fold e.
  destruct (Matrix_grid F (rho d) K Ah Br ltac:(lia) EA) as (e0 & H0 & G0). assert (SR : slice (rho d) 0 32 = rho d) by (apply slice_all; now symmetry). rewrite SR in H0.
  assert (Ns : nearv 3 s s) by (apply nearv_self, noises_bnd; lia). assert (Ne : nearv 3 e e) by (apply nearv_self, noises_bnd; lia). assert (Lns : length s = K) by apply noises_len.
  assert (KC : forall e' A, sampled_at F (rho d) K e' -> Ah = grid K (fun i j => e' j i) -> ematrix K e' A -> exists skv pkv, keypair_core Ah s e = Ok (skv, pkv) /\ reps 1664 1 skv s /\ reps 1664 1 pkv (vec_add (mat_vec A s) e)).
  { intros e' A HS HG HM. destruct (reps_grid _ _ _ _ _ HS HM) as (RA & _ & _). rewrite <- HG in RA. destruct HM as (_ & LR & _). apply keypair_ok; auto; [now rewrite Lns|lia]. }
  destruct (KC e0 _ H0 G0 (proj1 (ematrix_exists _ _ _ _ H0))) as (skv & pkv & E & R1 & R2). exists skv, pkv. split; [exact E|]. rewrite E. cbn [bind].
  pose proof (bnd_lens _ (reps_bnd 1664 1 _ _ ltac:(lia) R1)) as B1. pose proof (bnd_lens _ (reps_bnd 1664 1 _ _ ltac:(lia) R2)) as B2.
  assert (L1 : length skv = K) by (rewrite (reps_len _ _ _ _ R1); exact Lns).
  assert (LE : length e = K) by apply noises_len.
  assert (L2 : length pkv = K).
  { rewrite (reps_len _ _ _ _ R2). unfold vec_add, mat_vec. rewrite map_length, combine_length, map_length, LE. unfold grid. rewrite map_length, seq_length. lia. }
  split.
  - unfold PackSk. rewrite VecToBytes_ok by (auto; lia). cbn [bind]. unfold PackPk. rewrite VecToBytes_ok by (auto; rewrite Lpk, (kset_pk p Hp); fold K; lia). cbn [bind].
    assert (LC : length (concat (map enc12 pkv)) = (384 * K)%nat) by (rewrite (concat_lens 384) by (now apply enc12_lens); rewrite map_length, L2; reflexivity).
    unfold KYBER_POLYBYTES, KYBER_SYMBYTES. rewrite wcopy_ok; [|lia|rewrite length_splice; rewrite Lpk, (kset_pk p Hp); fold K; lia]. cbn [bind]. rewrite Sr, L2.
    replace (K * 384)%nat with (0 + length (concat (map enc12 pkv)))%nat by lia. rewrite splice_splice_next by (rewrite Lpk, (kset_pk p Hp); fold K; lia).
    rewrite splice_full; [reflexivity|]. rewrite app_length, Lpk, (kset_pk p Hp). fold K. lia.
  - intros e' A HS HG HM. destruct (KC e' A HS HG HM) as (skv' & pkv' & E' & R1' & R2'). rewrite E in E'. injection E' as <- <-. now split.
Qed.

(** * encryption *)
Definition ctbytes (K : nat) (b : list (list Z)) (v : list Z) : list Z := concat (map (encu K) b) ++ encv K v.
Definition enc_out (Ath : list (list (list Z))) (pkh : list (list Z)) (eta : nat) (coins m : list Z) (K : nat) : list Z :=
  match enc_core Ath pkh (noises eta coins 0 K) (noises 2 coins K K) (noise 2 coins (2 * K)) (msg_poly m) with Ok (b, v) => ctbytes K b v | _ => [] end.
Lemma nearv_bnd B b u : B <= 3328 -> nearv B b u -> Forall (bnd 3328) b.
Proof.
  intros HB H. induction H as [|a p b u [Pp Ha] H IH]; constructor; [|exact IH]. split; [rewrite (nearl_len _ _ _ Ha); exact Pp|]. apply nearl_bnd in Ha. eapply Forall_impl; [|exact Ha]. cbn beta. lia.
Qed.
Lemma enc_bytes F p c m m' pk bs seed rest coins co e t : let K := kK p in kset p -> (kCt p <= length c)%nat -> bytes m -> length m = 32%nat -> pk = concat bs ++ seed ++ rest -> Forall (fun x => length x = 384%nat) bs -> length bs = K ->
  bytes seed -> length seed = 32%nat -> bytes coins -> (co + 32 <= length coins)%nat -> sampled_at F seed K e -> reps 4095 1 (map dec12 bs) t ->
  let cs := slice coins co 32 in let r := noises (kEta1 p) cs 0 K in
  exists b v, enc_core (grid K e) (map dec12 bs) r (noises 2 cs K K) (noise 2 cs (2 * K)) (msg_poly m) = Ok (b, v) /\
    IndCpaEnc F p c (m ++ m') pk coins co = Ok (splice c 0 (ctbytes K b v)) /\ length b = K /\ Forall (bnd 3328) b /\ bnd 3328 v /\
    forall A, ematrix K e A -> nearv 1664 b (vec_add (mat_vec (transpose K A) r) (noises 2 cs K K)) /\ nearl 1664 v (add (add (dot t r) (noise 2 cs (2 * K))) (msg_poly m)).
Proof.
  intros K Hp Lc Hm Lm Epk Fb Lb Hsd Lsd Hco Lco HS Rt cs r. pose proof (kset_K p Hp) as HK. fold K in HK. pose proof (kset_eta p Hp) as HE. pose proof (kset_level p Hp) as HL. fold K in HL.
  assert (Lr : length r = K) by apply noises_len. assert (Lt : length t = K) by (rewrite <- (reps_len _ _ _ _ Rt), map_length; exact Lb).
  assert (Nr : nearv 3 r r) by (apply nearv_self, noises_bnd; lia). assert (N1 : nearv 3 (noises 2 cs K K) (noises 2 cs K K)) by (apply nearv_self, noises_bnd; lia).
  destruct (noise_bnd 2 cs (2 * K) ltac:(lia)) as [P2 B2]. assert (N2 : nearl 3 (noise 2 cs (2 * K)) (noise 2 cs (2 * K))) by (apply nearl_mk; [reflexivity|exact B2]).
  assert (EC : forall A, ematrix K e A -> exists b v, enc_core (grid K e) (map dec12 bs) r (noises 2 cs K K) (noise 2 cs (2 * K)) (msg_poly m) = Ok (b, v) /\
     nearv 1664 b (vec_add (mat_vec (transpose K A) r) (noises 2 cs K K)) /\ nearl 1664 v (add (add (dot t r) (noise 2 cs (2 * K))) (msg_poly m))).
  { intros A HM. destruct (reps_grid _ _ _ _ _ HS HM) as (_ & RT & LT). apply enc_ok; auto; first [now rewrite Lr | lia | apply msg_poly_near | apply poly_of_len]. }
  pose proof (proj1 (ematrix_exists _ _ _ _ HS)) as HM0. set (A0 := grid K (fun i j => intt (e j i))) in *. destruct (EC A0 HM0) as (b & v & E & Nb & Nv). exists b, v. split; [exact E|].
  assert (Bb : Forall (bnd 3328) b) by (apply (nearv_bnd 1664 b _ ltac:(lia) Nb)).
  assert (Bv : bnd 3328 v). { split; [rewrite (nearl_len _ _ _ Nv); apply poly_of_len|]. apply nearl_bnd in Nv. eapply Forall_impl; [|exact Nv]. cbn beta. lia. }
  assert (Lbv : length b = K). { rewrite (nearv_len _ _ _ Nb). unfold vec_add, mat_vec, transpose. rewrite map_length, combine_length, !map_length, seq_length, noises_len. lia. }
  split; [|split; [exact Lbv|split; [exact Bb|split; [exact Bv|]]]].
  - unfold IndCpaEnc. fold K. unfold UnPackPk. assert (LC : length (concat bs) = (384 * K)%nat) by (rewrite (concat_lens 384) by exact Fb; now rewrite Lb).
    rewrite (VecFromBytes_ok _ pk bs); [|apply rep_lens|exact Fb|now rewrite repeat_length|rewrite repeat_length, Epk, app_length; lia|rewrite repeat_length, Epk, <- LC; apply slice_pre]. cbn [bind].
    rewrite repeat_length. unfold KYBER_POLYBYTES, KYBER_SYMBYTES. rewrite wcopy_ok; [|rewrite Epk, !app_length; lia|rewrite length_zeros; lia]. cbn [bind].
    assert (SS : slice pk (K * 384) 32 = seed).
    { rewrite Epk. replace (K * 384)%nat with (length (concat bs)) by lia. unfold slice. rewrite skipn_app, skipn_all, Nat.sub_diag, skipn_O. cbn [app]. rewrite <- Lsd at 1. rewrite firstn_app, firstn_all, Nat.sub_diag, firstn_O. apply app_nil_r. }
    rewrite SS. rewrite splice_full by (rewrite length_zeros; exact Lsd). rewrite FromMsg_ok by (auto; apply length_zeros). cbn [bind].
    rewrite (grid_Matrix F seed K e true Hsd ltac:(lia)) by (rewrite slice_all by (now symmetry); exact HS). cbn [bind].
    rewrite (noise_vec_ok K _ (noise (kEta1 p) cs) 0) by (intros n Hn; apply Noise_ok; auto; try apply length_zeros; lia). cbn [bind].
    rewrite (noise_vec_ok K _ (noise 2 cs) K) by (intros n Hn; apply Noise2_ok; auto; try apply length_zeros; lia). cbn [bind].
    rewrite Noise2_ok by (auto; try apply length_zeros; lia). cbn [bind]. fold cs. fold (noises (kEta1 p) cs 0 K). fold (noises 2 cs K K). fold r.
    change (grid K (fun i j => e i j)) with (grid K e). rewrite E. cbn [bind]. rewrite <- Lbv at 1. rewrite PackCt_ok.
    + rewrite Lbv. reflexivity.
    + now rewrite Lbv.
    + now apply bnd_lens.
    + apply Bv.
    + rewrite Lbv. pose proof (kset_ct p Hp) as Q1. fold K in Q1. lia.
  - intros A HM. destruct (EC A HM) as (b' & v' & E' & Nb' & Nv'). rewrite E in E'. injection E' as <- <-. now split.
Qed.

(** * decryption *)
Lemma rounded_cg d a b : cgl a b -> rounded d a = rounded d b.
Proof. intros H. unfold rounded. induction H as [|x y a b Hx H IH]; cbn [map]; [reflexivity|]. rewrite IH. f_equal. unfold compress. apply cg_mod in Hx. now rewrite Hx. Qed.
Lemma rounded_bnd d p : 1 <= d <= 12 -> length p = 256%nat -> bnd 4000 (rounded d p).
Proof.
  intros Hd H. split; [unfold rounded; now rewrite map_length|]. unfold rounded. rewrite Forall_map. apply Forall_forall. intros x _. pose proof (compress_range d x ltac:(lia)) as C. pose proof (decompress_range d (compress d x) Hd ltac:(lia)) as R. unfold Q in *. lia.
Qed.
Lemma rounded_vec d b u : nearv 1664 b u -> map (rounded d) b = map (rounded d) u.
Proof. intros H. induction H as [|a p b u [_ Ha] H IH]; cbn [map]; [reflexivity|]. rewrite IH. f_equal. apply rounded_cg. now apply nearl_cgl in Ha. Qed.
Lemma encu_lens K b : Forall (bnd 3328) b -> Forall (fun x => length x = base_bytes K) (map (encu K) b).
Proof. intros H. rewrite Forall_map. eapply Forall_impl; [|exact H]. intros p [L _]. now apply encu_len. Qed.
Lemma unpack_ct K b v tl : level K -> length b = K -> Forall (bnd 3328) b -> bnd 3328 v -> UnPackCiphertext (repeat (zeros 256) K) (zeros 256) (ctbytes K b v ++ tl) = Ok (map (rounded (du K)) b, rounded (dv K) v).
Proof.
  intros HL Lb Bb Bv. unfold ctbytes. rewrite (UnPackCt_ok (repeat (zeros 256) K) (zeros 256) _ (map (encu K) b) (encv K v) tl).
  - rewrite repeat_length. rewrite map_map, rt_v by exact Bv. f_equal. f_equal. apply map_ext_in. intros p Hp. apply rt_u. now apply (proj1 (Forall_forall _ _) Bb).
  - now rewrite repeat_length.
  - apply rep_lens.
  - apply length_zeros.
  - rewrite repeat_length. now apply encu_lens.
  - now rewrite repeat_length, map_length.
  - rewrite repeat_length. apply encv_len, Bv.
  - now rewrite app_assoc.
Qed.
Lemma du_pos K : 1 <= du K <= 12. Proof. unfold du. destruct (3 <? K)%nat; lia. Qed.
Lemma dv_pos K : 1 <= dv K <= 12. Proof. unfold dv. destruct (3 <? K)%nat; lia. Qed.
Lemma dec_bytes p buf b v tl skv rest x m : let K := kK p in kset p -> (32 <= length buf)%nat -> length b = K -> Forall (bnd 3328) b -> bnd 3328 v -> reps 1664 1 skv (ps x) -> pke_wf x -> length (ps x) = K ->
  pdu x = du K -> pdv x = dv K -> nearv 1664 b (pke_u x) -> nearl 1664 v (pke_v x) -> pm x = msg_poly m -> bytes m -> length m = 32%nat -> small (error x) ->
  IndCpaDec p buf (ctbytes K b v ++ tl) (concat (map enc12 skv) ++ rest) = Ok (splice buf 0 m).
Proof.
  intros K Hp Hbuf Lb Bb Bv Rs W Lx Edu Edv Nb Nv Em Bm Lm Sm. pose proof (kset_level p Hp) as HL. fold K in HL. pose proof (kset_K p Hp) as HK. fold K in HK. unfold IndCpaDec. fold K. rewrite unpack_ct by auto. cbn [bind].
  pose proof (reps_bnd 1664 1 _ _ ltac:(lia) Rs) as B1. pose proof (bnd_lens _ B1) as B1'. pose proof (reps_len _ _ _ _ Rs) as L1. unfold UnPackSk.
  assert (LC : length (concat (map enc12 skv)) = (384 * K)%nat) by (rewrite (concat_lens 384) by (now apply enc12_lens); rewrite map_length; lia).
  rewrite (VecFromBytes_ok _ _ (map enc12 skv)); [|apply rep_lens|now apply enc12_lens|rewrite repeat_length, map_length; lia|rewrite repeat_length, app_length; lia|rewrite repeat_length, <- LC; apply slice_pre]. cbn [bind].
  rewrite dec_enc by exact B1. rewrite (rounded_vec _ _ _ Nb). rewrite (rounded_cg (dv K) v (pke_v x)) by (now apply nearl_cgl in Nv).
  assert (Bu : Forall (bnd 4000) (map (rounded (du K)) (pke_u x))).
  { rewrite Forall_map. apply Forall_forall. intros u Hu. apply rounded_bnd; [apply du_pos|]. clear - Nb Hu. unfold nearv in Nb. induction Nb as [|a q b' u' [Pq _] H IH]; [destruct Hu|]. destruct Hu as [->|Hu]; [exact Pq|auto]. }
  destruct (rounded_bnd (dv K) (pke_v x) (dv_pos K) (poly_of_len _)) as [Pv Bw].
  destruct (dec_ok (modv skv) (ps x) (map (rounded (du K)) (pke_u x)) (map (rounded (du K)) (pke_u x)) (rounded (dv K) (pke_v x)) (rounded (dv K) (pke_v x))) as (mp & -> & Nm).
  - now apply reps_mod in Rs.
  - now apply nearv_self.
  - apply nearl_mk; [reflexivity|exact Bw].
  - exact Pv.
  - rewrite map_length, <- (nearv_len _ _ _ Nb), Lb. exact Lx.
  - lia.
  - cbn [bind]. rewrite <- Edu, <- Edv in Nm. assert (Nm' : nearl 1664 mp (add (error x) (pm x))) by (eapply nearl_cg; [exact Nm|now apply decrypt_eq]). rewrite Em in Nm'.
    assert (Lmp : length mp = 256%nat) by (rewrite (nearl_len _ _ _ Nm'); apply poly_of_len). apply ToMsg_ok; auto. intros i Hi.
    destruct (Sm i Hi) as (ex & Hex & Eex). pose proof (bnd_nth 1664 mp i (nearl_bnd _ _ _ Nm') ltac:(lia)) as Bi. pose proof (cgl_nth _ _ i (nearl_cgl _ _ _ Nm')) as Ci.
    rewrite nth_add in Ci by exact Hi. unfold msg_poly in Ci at 1. rewrite nth_poly_of in Ci by exact Hi.
    apply (msg_bit_ok _ ex); [exact Bi| |exact Hex|].
    + unfold msg_bit_at. match goal with |- context [?y mod 2] => pose proof (Z.mod_pos_bound y 2 ltac:(lia)) end. lia.
    + rewrite Ci. unfold coef in Eex. apply cg_mod in Eex. now rewrite Eex.
Qed.
