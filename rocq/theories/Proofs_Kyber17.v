(** One exchange: key generation, encapsulation and decapsulation. *)
From Verif Require Import BaseLemmas Proofs_IntegerTools Proofs_IntegerTools2 Model_IntegerTools Spec_Common Spec_Keccak Model_Keccak Spec_Kyber Model_Kyber Session_Kyber Model_Modes Session_KMAC Proofs_Common Proofs_Windows Proofs_Keccak Proofs_SHA3 Proofs_XOF Proofs_CSX2 ProofsP_KMAC
  Proofs_Kyber Proofs_Kyber2 Proofs_Kyber3 Proofs_Kyber4 Proofs_Kyber5 Proofs_Kyber6 Proofs_Kyber7 Proofs_Kyber8 Proofs_Kyber9 Proofs_Kyber10 Proofs_Kyber11 Proofs_Kyber13 Proofs_Kyber14 Proofs_Kyber15 Proofs_Kyber16.
From Coq Require Import Setoid Morphisms.
Open Scope Z_scope.
Opaque lay zrs zis L0 I0 scale poly_of FW BW zsum gamma keccak sha3_256 sha3_512 shake cshake.

Lemma rho_facts d : bytes d -> bytes (rho d) /\ length (rho d) = 32%nat.
Proof. intros H. split; [apply bytes_firstn, sha512_bytes|]. unfold rho. rewrite firstn_length, sha512_len by exact H. lia. Qed.
Lemma gen_ok F p d z : kset p -> bytes d -> length d = 32%nat -> bytes z -> length z = 32%nat ->
  let K := kK p in let s := noises (kEta1 p) (sigma d) 0 K in let e := noises (kEta1 p) (sigma d) K K in
  match GenMatrix F (rho d) false K with
  | Ok Ah => exists skv pkv, keypair_core Ah s e = Ok (skv, pkv) /\ (let pk := concat (map enc12 pkv) ++ rho d in Kyber_Generate F p d z = Ok (pk, concat (map enc12 skv) ++ pk ++ sha3_256 pk ++ z)) /\
      Forall (bnd 3328) skv /\ Forall (bnd 3328) pkv /\ length skv = K /\ length pkv = K /\
      forall e' A, sampled_at F (rho d) K e' -> Ah = grid K (fun i j => e' j i) -> ematrix K e' A -> reps 1664 1 skv s /\ reps 1664 1 pkv (vec_add (mat_vec A s) e)
  | _ => ~ exists r, Kyber_Generate F p d z = Ok r end.
Proof.
  intros Hp Hd Ld Hz Lz K s e. pose proof (keypair_bytes F p d (zeros (kPk p)) (zeros (kSk p)) Hp Hd Ld (length_zeros _)) as KB. rewrite length_zeros in KB. pose proof (kset_sk p Hp) as QS. fold K in QS. specialize (KB ltac:(fold K; lia)). cbv zeta in KB. fold K in KB. fold s e in KB.
  destruct (rho_facts d Hd) as [BR LR].
  destruct (GenMatrix F (rho d) false K) as [Ah| |] eqn:G.
  - destruct KB as (skv & pkv & E & KP & KR). exists skv, pkv. split; [exact E|]. apply Matrix_grid in G; [|exact BR|lia]. destruct G as (e' & HS & ->). rewrite slice_all in HS by (now symmetry).
    destruct (ematrix_exists _ _ _ _ HS) as [EM _]. destruct (KR e' _ HS eq_refl EM) as [R1 R2].
    pose proof (reps_bnd 1664 1 _ _ ltac:(lia) R1) as B1. pose proof (reps_bnd 1664 1 _ _ ltac:(lia) R2) as B2. pose proof (reps_len _ _ _ _ R1) as L1. unfold s in L1. rewrite noises_len in L1.
    pose proof (reps_len _ _ _ _ R2) as L2. unfold vec_add, mat_vec in L2. rewrite map_length, combine_length, !map_length in L2. unfold grid in L2. rewrite map_length, seq_length in L2. unfold e in L2. rewrite noises_len, Nat.min_id in L2.
    split; [|split; [exact B1|split; [exact B2|split; [exact L1|split; [exact L2|exact KR]]]]].
    cbv zeta. unfold Kyber_Generate, kem_generate. fold K. rewrite KP. cbn [bind]. clear KP KR.
    assert (LS : length (concat (map enc12 skv)) = (384 * K)%nat) by (rewrite (concat_lens 384) by (apply enc12_lens; now apply bnd_lens); rewrite map_length; lia).
    assert (LP : length (concat (map enc12 pkv)) = (384 * K)%nat) by (rewrite (concat_lens 384) by (apply enc12_lens; now apply bnd_lens); rewrite map_length; lia).
    assert (BP : bytes (concat (map enc12 pkv) ++ rho d)) by (apply bytes_app; split; [apply encs_bytes; now apply bnd_lens|exact BR]). set (pk := concat (map enc12 pkv) ++ rho d) in *. assert (LK : length pk = (384 * K + 32)%nat) by (unfold pk; rewrite app_length; lia).
    unfold KYBER_POLYBYTES, KYBER_SYMBYTES. rewrite wcopy_ok by (rewrite ?length_splice; rewrite ?length_zeros; lia). cbn [bind]. rewrite slice_all by reflexivity. rewrite length_zeros || idtac.
    replace (K * 384)%nat with (0 + length (concat (map enc12 skv)))%nat by lia. rewrite splice_splice_next by (rewrite length_zeros; lia).
    pose proof (sha256_len pk BP) as LH. rewrite sha256_ok by (first [exact BP | rewrite ?length_splice; rewrite ?length_zeros; rewrite ?app_length; lia]). cbn [bind]. rewrite slice_all by reflexivity.
    replace (0 + length (concat (map enc12 skv)) + 32 + (0 + length (concat (map enc12 skv))))%nat with (0 + length (concat (map enc12 skv) ++ pk))%nat by (rewrite app_length; lia).
    rewrite splice_splice_next by (rewrite length_zeros, app_length; lia).
    replace (0 + length (concat (map enc12 skv)) + (0 + length (concat (map enc12 skv)) + 32) + 2 * 32 - 32)%nat with (0 + length ((concat (map enc12 skv) ++ pk) ++ sha3_256 pk))%nat by (rewrite !app_length; lia).
    rewrite wr_ok by (rewrite length_splice by (rewrite length_zeros, !app_length; lia); rewrite length_zeros, !app_length; lia). cbn [bind]. rewrite splice_splice_next by (rewrite length_zeros, !app_length; lia).
    rewrite splice_full by (rewrite length_zeros, !app_length; lia). f_equal. f_equal. now rewrite <- !app_assoc.
  - intros [r H]. unfold Kyber_Generate, kem_generate in H. destruct (IndCpaKeyPair F p _ _ d) as [q| |] eqn:EQ; try discriminate. apply KB. eauto.
  - intros [r H]. unfold Kyber_Generate, kem_generate in H. destruct (IndCpaKeyPair F p _ _ d) as [q| |] eqn:EQ; try discriminate. apply KB. eauto.
Qed.
(** the reduced public polynomials are represented by the bytes *)
Lemma reps_bytes pkv t : reps 1664 1 pkv t -> reps 4095 1 (map dec12 (map enc12 pkv)) t.
Proof. intros R. pose proof (reps_bnd 1664 1 _ _ ltac:(lia) R) as B. rewrite dec_enc by exact B. now apply reps_mod in R. Qed.

(** everything about one exchange *)
Lemma exchange_facts F p d z m domain name pk sk n (ss : list Z) : kset p -> bytes d -> length d = 32%nat -> bytes z -> length z = 32%nat -> bytes m -> length m = 32%nat -> dom_ok domain name -> length ss = n ->
  Kyber_Generate F p d z = Ok (pk, sk) -> exists ct, bytes ct /\ length ct = kCt p /\ length pk = kPk p /\ bytes pk /\ length sk = kSk p /\ bytes sk /\
    Kyber_Encapsulate F p domain name pk ss m = Ok (ct, shared domain name (sha3_256 m) pk ct n) /\
    (exists x, exchange F p d pk m x) /\
    (forall x k, exchange F p d pk m x -> small (error x) -> Kyber_Decapsulate F p domain name sk (ct ++ zeros k) ss = Ok (shared domain name (sha3_256 m) pk (ct ++ zeros k) n, true)).
Proof.
  intros Hp Hd Ld Hz Lz Hm Lm HD Ln HG. pose proof (gen_ok F p d z Hp Hd Ld Hz Lz) as GO. cbv zeta in GO. destruct (rho_facts d Hd) as [BR LR]. set (K := kK p) in *.
  destruct (GenMatrix F (rho d) false K) as [Ah| |] eqn:G; [|exfalso; apply GO; eauto|exfalso; apply GO; eauto].
  destruct GO as (skv & pkv & EK & EG & B1 & B2 & L1 & L2 & KR). rewrite EG in HG. injection HG as <- <-.
  pose proof G as G'. apply Matrix_grid in G'; [|exact BR|lia]. destruct G' as (e & HS & EA). rewrite slice_all in HS by (now symmetry).
  destruct (ematrix_exists _ _ _ _ HS) as [EM IM]. set (A0 := grid K (fun i j => intt (e j i))) in *. destruct (KR e A0 HS EA EM) as [R1 R2].
  assert (BP : bytes (concat (map enc12 pkv) ++ rho d)) by (apply bytes_app; split; [apply encs_bytes; now apply bnd_lens|exact BR]).
  assert (FB : Forall (fun x : list Z => length x = 384%nat) (map enc12 pkv)) by (apply enc12_lens; now apply bnd_lens).
  assert (LS : length (concat (map enc12 skv)) = (384 * K)%nat) by (rewrite (concat_lens 384) by (apply enc12_lens; now apply bnd_lens); rewrite map_length; lia).
  assert (LP : length (concat (map enc12 pkv)) = (384 * K)%nat) by (rewrite (concat_lens 384) by exact FB; rewrite map_length; lia).
  set (pk := concat (map enc12 pkv) ++ rho d) in *. pose proof (sha256_len pk BP) as LH. assert (LPK : length pk = (384 * K + 32)%nat) by (unfold pk; rewrite app_length; lia).
  set (mm := sha3_256 m). assert (BM : bytes mm) by apply sha256_bytes. assert (LM : length mm = 32%nat) by (now apply sha256_len).
  destruct (encaps_ok F p pk (map enc12 pkv) (rho d) m e _ Hp eq_refl BP FB ltac:(rewrite map_length; exact L2) BR LR Hm Lm HS (reps_bytes _ _ R2)) as (b & v & EC & EN). fold K mm in EC, EN. set (cs := skipn 32 (kr_of mm pk)) in *.
  destruct (kr_facts mm pk BM BP) as [BK LK].
  destruct (enc_bytes F p (zeros (kCt p)) mm (sha3_256 pk) pk (map enc12 pkv) (rho d) [] (kr_of mm pk) 32 e _ Hp ltac:(rewrite length_zeros; lia) BM LM ltac:(now rewrite app_nil_r) FB ltac:(rewrite map_length; exact L2) BR LR BK ltac:(lia) HS (reps_bytes _ _ R2)) as (b' & v' & E' & _ & Lbv & Bb & Bv & _).
  rewrite (sl_kr _ LK) in E'. fold cs K in E'. rewrite EC in E'. injection E' as <- <-.
  exists (ctbytes K b v). split; [now apply ct_bytes|]. split; [now apply ct_len|]. split; [rewrite LPK; symmetry; now apply kset_pk|]. split; [exact BP|]. split; [rewrite !app_length; pose proof (kset_sk p Hp) as QS; fold K in QS; lia|].
  split. { apply bytes_app; split; [apply encs_bytes; now apply bnd_lens|]. apply bytes_app; split; [exact BP|]. apply bytes_app; split; [apply sha256_bytes|exact Hz]. }
  split; [|split].
  - unfold Kyber_Encapsulate. rewrite EN. cbn [bind]. rewrite secret_ok by (try exact HD; apply shake_bytes). cbn [bind]. rewrite Ln. reflexivity.
  - exists (PKE A0 (noises (kEta1 p) (sigma d) 0 K) (noises (kEta1 p) (sigma d) K K) (noises (kEta1 p) cs 0 K) (noises 2 cs K K) (noise 2 cs (2 * K)) (msg_poly mm) (if (K <=? 3)%nat then 10 else 11) (if (K <=? 3)%nat then 4 else 5)).
    unfold exchange. cbn [pA ps Spec_Kyber.pe pr pe1 pe2 pm pdu pdv]. split; [|now repeat split]. exists Ah. split; [exact G|]. rewrite EA. exact IM.
  - intros x k (( Ah' & G' & T) & Es & Ee & Er & Ee1 & Ee2 & Em & Edu & Edv) Sm. change (firstn 32 (sha3_512 d)) with (rho d) in G'. fold K in G'. rewrite G in G'. injection G' as <-. rewrite EA in T. apply is_matrix_ematrix in T.
    change (skipn 32 (sha3_512 (sha3_256 m ++ sha3_256 pk))) with cs in Er, Ee1, Ee2. fold K in Es, Ee, Er, Ee1, Ee2, Edu, Edv. fold mm in Em. change (skipn 32 (sha3_512 d)) with (sigma d) in Es, Ee.
    destruct (KR e (pA x) HS EA T) as [R1' R2']. rewrite <- Es, <- Ee in R2'. fold (pke_t x) in R2'. rewrite <- Es in R1'.
    destruct (enc_bytes F p (zeros (kCt p)) mm (sha3_256 pk) pk (map enc12 pkv) (rho d) [] (kr_of mm pk) 32 e (pke_t x) Hp ltac:(rewrite length_zeros; lia) BM LM ltac:(now rewrite app_nil_r) FB ltac:(rewrite map_length; exact L2) BR LR BK ltac:(lia) HS (reps_bytes _ _ R2')) as (b' & v' & E' & _ & _ & _ & _ & NN).
    rewrite (sl_kr _ LK) in E', NN. fold cs K in E', NN. rewrite EC in E'. injection E' as <- <-. destruct (NN (pA x) T) as [N1 N2]. rewrite <- Er, <- Ee1 in N1. rewrite <- Er, <- Ee2, <- Em in N2.
    assert (LX : length (ps x) = K) by (rewrite Es; apply noises_len).
    assert (W : pke_wf x). { destruct T as (TA & TR & _). unfold pke_wf. rewrite LX. split; [exact TA|]. split; [exact TR|]. rewrite Ee, Er, Ee1, !noises_len. auto. }
    assert (N1' : nearv 1664 b (pke_u x)) by (unfold pke_u; rewrite LX; exact N1).
    unfold Kyber_Decapsulate. pose proof (decaps_ok F p (map enc12 pkv) (rho d) skv z mm e (pke_t x) x k Hp BP FB ltac:(rewrite map_length; exact L2) BR LR Hz Lz BM LM HS (reps_bytes _ _ R2') R1' W LX) as DO. fold K in DO. fold pk in DO. cbv zeta in DO. fold cs in DO.
    rewrite (DO ltac:(rewrite Edu; unfold du; rewrite Nat.leb_antisym; destruct (3 <? K)%nat; reflexivity) ltac:(rewrite Edv; unfold dv; rewrite Nat.leb_antisym; destruct (3 <? K)%nat; reflexivity) Em Sm b v EC N1' N2).
    cbn [bind]. rewrite secret_ok by (try exact HD; apply shake_bytes). cbn [bind]. rewrite Ln. reflexivity.
Qed.
