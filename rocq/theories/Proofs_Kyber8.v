(** Key generation, encryption and decryption of the code compute the vectors of the specification, modulo Q. *)
From Verif Require Import BaseLemmas Spec_Kyber Model_Kyber Proofs_Kyber Proofs_Kyber2 Proofs_Kyber3 Proofs_Kyber4 Proofs_Kyber5 Proofs_Kyber6 Proofs_Kyber7.
From Coq Require Import Setoid Morphisms.
Open Scope Z_scope.
Opaque lay zrs zis L0 I0 scale poly_of FW BW zsum gamma.

Lemma vec_map_ok {P} (R0 R : list Z -> P -> Prop) f : (forall i a p, R0 a p -> exists c, f i a = Ok c /\ R c p) ->
  forall v ps i, Forall2 R0 v ps -> exists w, vec_map i v f = Ok w /\ Forall2 R w ps.
Proof.
  intros H v ps i F. revert i. induction F as [|a p v ps Ha F IH]; intros i; cbn [vec_map]; [exists []; split; [reflexivity|constructor]|].
  destruct (H i a p Ha) as (c & -> & Hc). cbn [bind]. destruct (IH (S i)) as (w & -> & Hw). exists (c :: w). split; [reflexivity|]. now constructor.
Qed.
(** a vector of the code, entries at most B, equal modulo Q to a vector of polynomials *)
Definition nearv (B : Z) : list (list Z) -> list (list Z) -> Prop := Forall2 (fun a p => is_poly p /\ nearl B a p).
Lemma nearv_len B a b : nearv B a b -> length a = length b. Proof. apply F2_len. Qed.
Lemma F2_impl {A B} (R R' : A -> B -> Prop) a b : (forall x y, R x y -> R' x y) -> Forall2 R a b -> Forall2 R' a b.
Proof. intros H F. induction F; constructor; auto. Qed.
Lemma reps_le B B' s a f : B <= B' -> reps B s a f -> reps B' s a f.
Proof. intros H. apply F2_impl. intros x y. now apply nearl_le. Qed.
Lemma VecNtt_ok B v ps : B <= 15000 -> nearv B v ps -> exists w, PolyVecNtt v = Ok w /\ reps 1664 1 w ps.
Proof.
  intros HB F. unfold PolyVecNtt. apply (vec_map_ok (fun a p => is_poly p /\ nearl B a p)); [|exact F]. intros _ a p [Hp Ha]. now apply (PolyNtt_ok B).
Qed.
Lemma VecInv_ok s v ps : 65536 * s == 1 -> reps 1664 s v ps -> Forall is_poly ps -> exists w, PolyVecInvNttToMont v = Ok w /\ nearv 1725 w ps.
Proof.
  intros Hs F FP. unfold PolyVecInvNttToMont. apply (vec_map_ok (fun a p => is_poly p /\ nearl 1664 a (scale s (ntt p)))).
  - intros _ a p [Hp Ha]. destruct (PolyInv_ok 1664 a p s ltac:(lia) Hp Ha) as (c & E & N). exists c. split; [exact E|]. split; [exact Hp|]. eapply nearl_cg; [exact N|].
    rewrite (cgl_scale1 p) at 2. now apply scale_cg.
  - clear - F FP. induction F; constructor; inversion FP; subst; [split; assumption|now apply IHF].
Qed.
Lemma VecAdd_ok A B a b a' b' : A + B <= 32767 -> nearv A a a' -> nearv B b b' -> nearv (A + B) (PolyVecAdd a b) (vec_add a' b').
Proof.
  intros HB H. revert b b'. unfold PolyVecAdd, vec_add. induction H as [|x x' l l' [P1 H1] H2 IH]; intros b b' H3; [constructor|]. destruct H3 as [|y y' m m' [P4 H4] H5]; [constructor|].
  cbn [combine map fst snd]. constructor; [|now apply IH]. split; [apply is_poly_add|]. eapply nearl_cg; [now apply (PolyAdd_ok A B _ _ x' y')|].
  red in P1, P4. apply cgl_pt; [rewrite sumz_len, is_poly_add; lia|]. rewrite sumz_len. intros n Hn. rewrite nth_sumz, nth_add by lia. reflexivity.
Qed.
Lemma VecReduce_ok B a b : B <= 32767 -> nearv B a b -> nearv 1664 (PolyVecReduce a) b.
Proof.
  intros HB F. unfold PolyVecReduce. induction F as [|x y l l' [Hy H] F IH]; cbn [map]; constructor; [|exact IH]. split; [exact Hy|]. apply PolyReduce_ok; [now apply nearl_cgl in H|].
  apply nearl_bnd in H. now apply (bnd_le B).
Qed.
Lemma mul_rows_ok v ps t s f C c : reps 1664 t v ps -> (forall a p, nearl 1664 a (scale (169 * (s * t)) (ntt p)) -> nearl C (f a) (scale c (ntt p))) -> (0 < length v <= 9)%nat ->
  forall Ah A, Forall2 (reps 4095 s) Ah A -> Forall (fun row => length row = length v) A ->
  exists w, mul_rows Ah v f = Ok w /\ reps C c w (mat_vec A ps).
Proof.
  intros Hv Hf H0 Ah A F. induction F as [|a p Ah A Ha F IH]; intros HL; cbn [mul_rows mat_vec map]; [exists []; split; [reflexivity|constructor]|].
  apply Forall_cons_iff in HL. destruct HL as [HL0 HL]. pose proof (reps_len _ _ _ _ Ha) as La. pose proof (reps_len _ _ _ _ Hv) as Lv.
  destruct (Acc_ok (zeros 256) a v p ps s t (length_zeros _) Ha Hv ltac:(lia) ltac:(lia)) as (r & -> & Nr). cbn [bind]. destruct (IH HL) as (w & -> & Hw). exists (f r :: w). split; [reflexivity|].
  constructor; [now apply Hf|exact Hw].
Qed.
Lemma is_poly_mat A v : Forall is_poly (mat_vec A v).
Proof. unfold mat_vec. apply Forall_forall. intros y Hy. apply in_map_iff in Hy. destruct Hy as (z & <- & _). apply is_poly_dot. Qed.
Lemma is_poly_vec_add a b : Forall is_poly (vec_add a b).
Proof. unfold vec_add. apply Forall_forall. intros y Hy. apply in_map_iff in Hy. destruct Hy as (z & <- & _). apply is_poly_add. Qed.

(** adding two vectors that represent transforms *)
Lemma reps_add A B a b p q : A + B <= 32767 -> reps A 1 a p -> reps B 1 b q -> reps (A + B) 1 (PolyVecAdd a b) (vec_add p q).
Proof.
  intros HB H. revert b q. unfold PolyVecAdd, vec_add. induction H as [|x x' l l' H1 H2 IH]; intros b b' H3; [constructor|]. destruct H3 as [|y y' m m' H4 H5]; [constructor|].
  cbn [combine map fst snd]. constructor; [|now apply IH]. eapply nearl_cg; [now apply (PolyAdd_ok A B _ _ (scale 1 (ntt x')) (scale 1 (ntt y')))|].
  apply cgl_pt; [rewrite sumz_len, !scale_len, !ntt_len; lia|]. rewrite sumz_len, !scale_len, !ntt_len. intros n Hn. rewrite nth_sumz by (now rewrite !scale_len, !ntt_len). rewrite !nth_scale, nth_ntt_add by lia.
  apply cg_ex. exists 0. ring.
Qed.
Lemma reps_reduce B a b : B <= 32767 -> reps B 1 a b -> reps 1664 1 (PolyVecReduce a) b.
Proof.
  intros HB F. unfold PolyVecReduce. induction F as [|x y l l' H F IH]; cbn [map]; constructor; [|exact IH]. apply PolyReduce_ok; [now apply nearl_cgl in H|].
  apply nearl_bnd in H. now apply (bnd_le B).
Qed.
Lemma u169 : 65536 * (169 * (1 * 1)) == 1. Proof. now apply cg_mod. Qed.
Lemma keypair_ok Ah A sv s ev e : Forall2 (reps 4095 1) Ah A -> Forall (fun row => length row = length s) A -> nearv 3 sv s -> nearv 3 ev e -> (0 < length s <= 9)%nat ->
  exists sk pk, keypair_core Ah sv ev = Ok (sk, pk) /\ reps 1664 1 sk s /\ reps 1664 1 pk (vec_add (mat_vec A s) e).
Proof.
  intros HA HL Hs He H0. unfold keypair_core. destruct (VecNtt_ok 3 sv s ltac:(lia) Hs) as (sk & -> & Rs). cbn [bind]. destruct (VecNtt_ok 3 ev e ltac:(lia) He) as (eh & -> & Re). cbn [bind].
  pose proof (reps_len _ _ _ _ Rs) as L1.
  destruct (mul_rows_ok sk s 1 1 PolyToMont 1700 1 Rs) with (Ah := Ah) (A := A) as (w & -> & Rw).
  - intros a p Ha. eapply nearl_cg; [apply PolyToMont_ok; [apply nearl_cgl in Ha; exact Ha|now apply nearl_bnd in Ha]|]. rewrite scale_scale. apply scale_cg. apply cg_mod. reflexivity.
  - lia.
  - exact HA.
  - rewrite L1. exact HL.
  - cbn [bind]. eexists _, _. split; [reflexivity|]. split; [exact Rs|]. apply (reps_reduce (1700 + 1664)); [lia|]. apply reps_add; [lia|exact Rw|exact Re].
Qed.
Lemma enc_ok Ath At pkh t rv r e1v e1 e2v e2 mv m : Forall2 (reps 4095 1) Ath At -> Forall (fun row => length row = length r) At -> length t = length r ->
  reps 4095 1 pkh t -> nearv 3 rv r -> nearv 3 e1v e1 -> is_poly e2 -> nearl 3 e2v e2 -> is_poly m -> nearl 1665 mv m -> (0 < length r <= 9)%nat ->
  exists b v, enc_core Ath pkh rv e1v e2v mv = Ok (b, v) /\ nearv 1664 b (vec_add (mat_vec At r) e1) /\ nearl 1664 v (add (add (dot t r) e2) m).
Proof.
  intros HA HL Lt Ht Hr H1 P2 H2 Pm Hm H0. unfold enc_core. destruct (VecNtt_ok 3 rv r ltac:(lia) Hr) as (rh & -> & Rr). cbn [bind]. pose proof (reps_len _ _ _ _ Rr) as L1.
  destruct (mul_rows_ok rh r 1 1 (fun r => r) 1664 (169 * (1 * 1)) Rr ltac:(intros; assumption) ltac:(lia) Ath At HA ltac:(now rewrite L1)) as (w & -> & Rw). cbn [bind].
  pose proof (reps_len _ _ _ _ Ht) as L2.
  destruct (Acc_ok (zeros 256) pkh rh t r 1 1 (length_zeros _) Ht Rr ltac:(lia) ltac:(lia)) as (vh & -> & Nv). cbn [bind].
  destruct (VecInv_ok _ w _ u169 Rw (is_poly_mat _ _)) as (b & -> & Nb). cbn [bind].
  destruct (PolyInv_ok 1664 vh (dot t r) _ ltac:(lia) (is_poly_dot _ _) Nv) as (v & -> & Nv'). cbn [bind].
  eexists _, _. split; [reflexivity|]. split.
  - apply (VecReduce_ok (1725 + 3)); [lia|]. apply VecAdd_ok; [lia|exact Nb|exact H1].
  - apply PolyReduce_ok.
    + assert (N : nearl 1725 v (dot t r)). { eapply nearl_cg; [exact Nv'|]. rewrite (cgl_scale1 (dot t r)) at 2. apply scale_cg, u169. }
      pose proof (PolyAdd_ok 1725 3 _ _ _ _ ltac:(lia) N H2) as N2. pose proof (PolyAdd_ok (1725 + 3) 1665 _ _ _ _ ltac:(lia) N2 Hm) as N3. apply nearl_cgl in N3. rewrite N3.
      pose proof (is_poly_dot t r) as Pd. red in Pd, P2, Pm. assert (LS : length (sumz (dot t r) e2) = 256%nat) by (rewrite sumz_len; lia).
      apply cgl_pt; [rewrite sumz_len, is_poly_add; lia|]. rewrite sumz_len. intros n Hn. rewrite nth_sumz by lia. rewrite nth_sumz by lia. rewrite !nth_add by lia. reflexivity.
    + assert (N : nearl 1725 v (dot t r)). { eapply nearl_cg; [exact Nv'|]. rewrite (cgl_scale1 (dot t r)) at 2. apply scale_cg, u169. }
      pose proof (PolyAdd_ok 1725 3 _ _ _ _ ltac:(lia) N H2) as N2. pose proof (PolyAdd_ok (1725 + 3) 1665 _ _ _ _ ltac:(lia) N2 Hm) as N3. apply nearl_bnd in N3. eapply bnd_le; [|exact N3]. lia.
Qed.
Lemma dec_ok skh s bv b vv v : reps 4095 1 skh s -> nearv 4000 bv b -> nearl 4000 vv v -> is_poly v -> length s = length b -> (0 < length s <= 9)%nat ->
  exists mp, dec_core skh bv vv = Ok mp /\ nearl 1664 mp (sub v (dot s b)).
Proof.
  intros Hs Hb Hv Pv HL H0. unfold dec_core. destruct (VecNtt_ok 4000 bv b ltac:(lia) Hb) as (bh & -> & Rb). cbn [bind].
  pose proof (reps_len _ _ _ _ Hs) as L1. pose proof (reps_len _ _ _ _ Rb) as L2.
  destruct (Acc_ok (zeros 256) skh bh s b 1 1 (length_zeros _) Hs Rb ltac:(lia) ltac:(lia)) as (mh & -> & Nm). cbn [bind].
  destruct (PolyInv_ok 1664 mh (dot s b) _ ltac:(lia) (is_poly_dot _ _) Nm) as (m & -> & Nm'). cbn [bind]. eexists. split; [reflexivity|].
  assert (N : nearl 1725 m (dot s b)). { eapply nearl_cg; [exact Nm'|]. rewrite (cgl_scale1 (dot s b)) at 2. apply scale_cg, u169. }
  pose proof (PolySub_ok 4000 1725 _ _ _ _ ltac:(lia) Hv N) as N2. apply PolyReduce_ok.
  - apply nearl_cgl in N2. rewrite N2. pose proof (is_poly_dot s b) as Pd. red in Pd, Pv. apply cgl_pt; [unfold subz; rewrite zw_len, is_poly_sub; lia|]. unfold subz at 1. rewrite zw_len. intros n Hn.
    rewrite nth_subz by lia. rewrite nth_sub by lia. reflexivity.
  - apply nearl_bnd in N2. eapply bnd_le; [|exact N2]. lia.
Qed.
