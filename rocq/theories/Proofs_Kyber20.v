(** Short ciphertexts; products of two polynomials; encodings; a sample decryption error. *)
From Verif Require Import BaseLemmas Proofs_IntegerTools Proofs_IntegerTools2 Model_IntegerTools Spec_Common Spec_Keccak Model_Keccak Spec_Kyber Model_Kyber Session_Kyber Model_Modes Session_KMAC Proofs_Windows
  Proofs_Kyber Proofs_Kyber2 Proofs_Kyber3 Proofs_Kyber4 Proofs_Kyber5 Proofs_Kyber6 Proofs_Kyber7 Proofs_Kyber8 Proofs_Kyber9 Proofs_Kyber10 Proofs_Kyber11 Proofs_Kyber13 Proofs_Kyber14 Proofs_Kyber15.
From Coq Require Import Setoid Morphisms.
Open Scope Z_scope.
Opaque lay zrs zis L0 I0 scale poly_of FW BW zsum gamma keccak.

(** * a ciphertext that is too short is read past its end *)
Lemma groups_short cnt n m f a ao r ro : (0 < cnt)%nat -> gives n m f -> (length a < ao + n * cnt)%nat -> (ro + m * cnt <= length r)%nat -> groups cnt n m f a ao r ro = UB.
Proof.
  intros Hc Hg Ha Hr. unfold groups. assert (G : forall k i s, (0 < k)%nat -> (i + k = cnt)%nat -> length s = length r -> for_up i k (fun i r => x <- rd a (ao + n * i) n ;; wr r (ro + m * i) (f x)) s = UB); [|apply G; auto].
  induction k as [|k IH]; intros i s Hk E L; [lia|]. cbn [for_up]. unfold rd. destruct (Nat.leb_spec (ao + n * i + n) (length a)) as [H|H]; cbn [bind]; [|reflexivity].
  assert (LF : length (f (slice a (ao + n * i) n)) = m) by (apply Hg; apply length_slice; exact H). rewrite wr_ok by (rewrite LF, L; nia). cbn [bind]. apply IH; [|lia|rewrite length_splice by (rewrite LF, L; nia); exact L].
  destruct k; [|lia]. replace cnt with (S i) in Ha by lia. lia.
Qed.
Lemma vec_short w (g : nat -> list Z -> res (list Z)) (c : list Z) : (forall i r, length r = 256%nat -> if (w * i + w <=? length c)%nat then exists r', g i r = Ok r' else g i r = UB) ->
  forall v i, (0 < length v)%nat -> Forall (fun p => length p = 256%nat) v -> (length c < w * (i + length v))%nat -> vec_map i v g = UB.
Proof.
  intros G. induction v as [|a v IH]; intros i Hl F Hc; cbn [length] in *; [lia|]. inversion F as [|? ? Fa Fv]; subst. cbn [vec_map]. specialize (G i a Fa). destruct (Nat.leb_spec (w * i + w) (length c)) as [H|H].
  - destruct G as (r' & ->). cbn [bind]. destruct v as [|b v]; [cbn [length] in Hc; nia|]. rewrite IH; [reflexivity|cbn [length]; lia|exact Fv|cbn [length] in *; nia].
  - rewrite G. reflexivity.
Qed.
Lemma grp_if cnt n m f (c : list Z) w i r : (0 < cnt)%nat -> (0 < n)%nat -> gives n m f -> (n * cnt = w)%nat -> (m * cnt = 256)%nat -> length r = 256%nat ->
  if (w * i + w <=? length c)%nat then exists r', groups cnt n m f c (w * i) r 0 = Ok r' else groups cnt n m f c (w * i) r 0 = UB.
Proof.
  intros Hc Hn Hg Ew Em Lr. destruct (Nat.leb_spec (w * i + w) (length c)) as [H|H]; [eexists; apply groups_ok; auto; lia|apply groups_short; auto; lia].
Qed.
Lemma unpack_short c K : level K -> (length c < base_bytes K * K + vbytes K)%nat -> UnPackCiphertext (repeat (zeros 256) K) (zeros 256) c = UB.
Proof.
  intros HK Hc. unfold UnPackCiphertext. rewrite repeat_length. set (B := repeat (zeros 256) K). assert (LB : length B = K) by apply repeat_length. assert (FB : Forall (fun p => length p = 256%nat) B) by apply rep_lens.
  destruct (Nat.lt_ge_cases (length c) (base_bytes K * K)) as [H|H].
  - assert (E : PolyVecDecompress B c = UB); [|rewrite E; reflexivity]. unfold PolyVecDecompress. rewrite LB. unfold base_bytes in H.
    destruct HK as [-> | [-> | [-> | ->]]]; cbn [Nat.eqb orb Nat.ltb Nat.leb] in *;
      first [ apply (vec_short 320 _ c); [intros i r Lr; apply grp_if; auto; try lia; exact h10|lia|exact FB|lia] | apply (vec_short 352 _ c); [intros i r Lr; apply grp_if; auto; try lia; exact h11|lia|exact FB|lia] ].
  - destruct (PolyVecDecompress B c) as [q| |] eqn:E; cbn [bind]; [| |reflexivity].
    + assert (E2 : PolyDecompress (zeros 256) c (base_bytes K * K) K = UB); [|rewrite E2; reflexivity]. unfold PolyDecompress. unfold vbytes in Hc.
      destruct HK as [-> | [-> | [-> | ->]]]; cbn [Nat.eqb orb Nat.ltb Nat.leb] in *; apply groups_short; try lia; try exact h4; try exact h5; rewrite length_zeros; lia.
    + exfalso. assert (G : forall cnt n m f w v i e, vec_map i v (fun i r => groups cnt n m f c (w * i) r 0) <> Throw e).
      { intros cnt n m f w. assert (NG : forall ao r ro e, groups cnt n m f c ao r ro <> Throw e). { intros ao r ro e'. unfold groups. generalize 0%nat as i. revert r. induction cnt as [|k IHk]; intros r i; cbn [for_up]; [discriminate|]. unfold rd. destruct (_ <=? _)%nat; cbn [bind]; [|discriminate]. unfold wr. destruct (_ <=? _)%nat; cbn [bind]; [|discriminate]. apply IHk. }
        induction v as [|a v IH]; intros i e'; cbn [vec_map]; [discriminate|]. specialize (NG (w * i)%nat a 0%nat). destruct (groups cnt n m f c (w * i) a 0); cbn [bind]; [|intros [=]; eapply NG; reflexivity|discriminate]. specialize (IH (S i)). destruct (vec_map (S i) v _); cbn [bind]; [discriminate|intros [=]; eapply IH; reflexivity|discriminate]. }
      unfold PolyVecDecompress in E. destruct (_ || _); [exact (G _ _ _ _ _ _ _ _ E)|]. destruct (_ || _); [exact (G _ _ _ _ _ _ _ _ E)|discriminate].
Qed.
Lemma short_ct F p domain name sk ct ss : kset p -> length sk = kSk p -> (length ct < kCt p)%nat -> Kyber_Decapsulate F p domain name sk ct ss = UB.
Proof.
  intros Hp Ls Lc. unfold Kyber_Decapsulate, kem_decapsulate. pose proof (kset_sk p Hp) as QS. pose proof (kset_ct p Hp) as QC. set (K := kK p) in *. cbv zeta. unfold KYBER_POLYBYTES, KYBER_SYMBYTES. replace (K * 384 <=? length sk)%nat with true by (symmetry; apply Nat.leb_le; lia). cbn [safe bind].
  rewrite wcopy_ok by (rewrite ?length_zeros; lia). cbn [bind]. unfold IndCpaDec. fold K. rewrite unpack_short by (try apply (kset_level p Hp); fold K; lia). reflexivity.
Qed.

(** * the product of two polynomials *)
Lemma same_near B a b : nearl B a b -> same a b. Proof. intros H. apply same_cgl. now apply nearl_cgl in H. Qed.
Lemma bound_nearl B a : Forall (fun x => Z.abs x <= B) a -> nearl B a a.
Proof. intros H. apply nearl_mk; [reflexivity|exact H]. Qed.
Lemma product_ok a b : is_poly a -> is_poly b -> Forall (fun x => Z.abs x <= 15000) a -> Forall (fun x => Z.abs x <= 15000) b ->
  exists c, (ah <- PolyNttv2 a ;; bh <- PolyNttv2 b ;; ch <- PolyBaseMulMontgomery (zeros 256) ah bh ;; PolyInvNttToMontgomery ch) = Ok c /\ same c (mul a b) /\ Forall (fun x => Z.abs x <= 1725) c.
Proof.
  intros Pa Pb Ba Bb. destruct (PolyNtt_ok 15000 a a ltac:(lia) Pa (bound_nearl _ _ Ba)) as (ah & -> & Na). cbn [bind]. destruct (PolyNtt_ok 15000 b b ltac:(lia) Pb (bound_nearl _ _ Bb)) as (bh & -> & Nb). cbn [bind].
  assert (Fa : Forall (fun x => Z.abs x <= 4095) ah) by (apply nearl_bnd in Na; eapply Forall_impl; [|exact Na]; cbn beta; lia).
  destruct (PolyBaseMul_ok (zeros 256) ah bh 1 1 a b (length_zeros _) Fa (nearl_bnd _ _ _ Nb) (nearl_cgl _ _ _ Na) (nearl_cgl _ _ _ Nb)) as (ch & -> & _ & Nc). cbn [bind].
  destruct (PolyInv_ok 3538 ch (mul a b) (169 * (1 * 1)) ltac:(lia) (poly_of_len _) Nc) as (c & -> & N). exists c. split; [reflexivity|]. split; [|now apply nearl_bnd in N].
  assert (N' : nearl 1725 c (mul a b)); [|now apply same_near in N']. eapply nearl_cg; [exact N|]. etransitivity; [|symmetry; apply cgl_scale1]. apply scale_cg. apply cg_ex. exists 3327. reflexivity.
Qed.
