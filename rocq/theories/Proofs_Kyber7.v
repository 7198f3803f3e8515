(** The algebra of decryption: v - s u = error + message, through the values of the transform. *)
From Verif Require Import BaseLemmas Spec_Kyber Model_Kyber Proofs_Kyber Proofs_Kyber2 Proofs_Kyber3 Proofs_Kyber4 Proofs_Kyber5 Proofs_Kyber6.
From Coq Require Import Setoid Morphisms Ring.
Open Scope Z_scope.
Opaque lay zrs zis L0 I0 scale poly_of FW BW zsum gamma.

(** * the ring Z[X] / (X^2 - g): pairs *)
Definition padd (a b : Z * Z) : Z * Z := (fst a + fst b, snd a + snd b).
Definition psub (a b : Z * Z) : Z * Z := (fst a - fst b, snd a - snd b).
Definition popp (a : Z * Z) : Z * Z := (- fst a, - snd a).
Section Pairs.
Variable g : Z.
Definition pmul (a b : Z * Z) : Z * Z := (fst a * fst b + g * (snd a * snd b), fst a * snd b + snd a * fst b).
Lemma pair_ring : ring_theory (0, 0) (1, 0) padd pmul psub popp (@eq (Z * Z)).
Proof.
  split; intros; repeat match goal with x : Z * Z |- _ => destruct x end; unfold padd, pmul, psub, popp; cbn [fst snd]; f_equal; ring.
Qed.
Add Ring PairRing : pair_ring.
Fixpoint dotp (a b : list (Z * Z)) : Z * Z := match a, b with x :: a, y :: b => padd (pmul x y) (dotp a b) | _, _ => (0, 0) end.
Definition zipp (f : Z * Z -> Z * Z -> Z * Z) (a b : list (Z * Z)) : list (Z * Z) := map (fun p => f (fst p) (snd p)) (combine a b).
Lemma dotp_comm : forall a b, dotp a b = dotp b a.
Proof. induction a as [|x a IH]; intros [|y b]; cbn [dotp]; try reflexivity. rewrite IH. ring. Qed.
Lemma dotp_add : forall a b r, length a = length b -> dotp (zipp padd a b) r = padd (dotp a r) (dotp b r).
Proof.
  induction a as [|x a IH]; intros [|y b] r H; try discriminate; [destruct r; cbn; reflexivity|]. destruct r as [|z r]; [reflexivity|].
  unfold zipp. cbn [combine map fst snd dotp]. injection H as H. change (map (fun p => padd (fst p) (snd p)) (combine a b)) with (zipp padd a b). rewrite IH by exact H. ring.
Qed.
Lemma dotp_scale c : forall a b, dotp a (map (fun x => pmul x c) b) = pmul (dotp a b) c.
Proof.
  induction a as [|x a IH]; intros [|y b]; cbn [dotp map]; try ring. rewrite IH. ring.
Qed.
Lemma dotp_0 {A} a (l : list A) : dotp a (map (fun _ => (0, 0)) l) = (0, 0).
Proof. revert l. induction a as [|x a IH]; intros [|y l]; cbn [dotp map]; try reflexivity. rewrite IH. ring. Qed.
Lemma dotp_sum {A} a f h : forall l : list A, dotp a (map (fun j => padd (f j) (h j)) l) = padd (dotp a (map f l)) (dotp a (map h l)).
Proof.
  revert a. intros a l. revert a. induction l as [|y l IH]; intros [|x a]; cbn [dotp map]; try ring. rewrite IH. ring.
Qed.
Lemma map_nth_seq {A} (l : list A) d : map (fun j => nth j l d) (seq 0 (length l)) = l.
Proof.
  apply (nth_ext _ _ d d); [now rewrite map_length, seq_length|]. rewrite map_length, seq_length. intros n Hn. apply (nth_map_seq (fun j => nth j l d)). exact Hn.
Qed.
(** (A s) . r = s . (A^T r) *)
Lemma dotp_swap s : forall A r, Forall (fun row => length row = length s) A -> 
  dotp (map (fun row => dotp row s) A) r = dotp s (map (fun j => dotp (map (fun row => nth j row (0, 0)) A) r) (seq 0 (length s))).
Proof.
  induction A as [|row A IH]; intros r H.
  - cbn [map dotp]. rewrite dotp_0. reflexivity.
  - apply Forall_cons_iff in H. destruct H as [H0 H]. destruct r as [|r0 r].
    + cbn [map dotp]. now rewrite dotp_0.
    + cbn [map dotp]. rewrite (dotp_sum s (fun j => pmul (nth j row (0, 0)) r0)). rewrite <- IH by exact H.
      rewrite <- (map_map (fun j => nth j row (0, 0)) (fun x => pmul x r0)). rewrite <- H0, map_nth_seq, dotp_scale. rewrite (dotp_comm s row). reflexivity.
Qed.

(** equality modulo Q *)
Definition pq (a b : Z * Z) : Prop := fst a == fst b /\ snd a == snd b.
Global Instance pq_equiv : Equivalence pq.
Proof.
  split.
  - intros a. split; reflexivity.
  - intros a b [H1 H2]. split; now symmetry.
  - intros a b c [H1 H2] [H3 H4]. split; [now rewrite H1|now rewrite H2].
Qed.
Global Instance padd_pq : Proper (pq ==> pq ==> pq) padd.
Proof. intros a b [H1 H2] c d [H3 H4]. unfold padd. split; cbn [fst snd]; [now rewrite H1, H3|now rewrite H2, H4]. Qed.
Global Instance psub_pq : Proper (pq ==> pq ==> pq) psub.
Proof. intros a b [H1 H2] c d [H3 H4]. unfold psub. split; cbn [fst snd]; [now rewrite H1, H3|now rewrite H2, H4]. Qed.
Global Instance pmul_pq : Proper (pq ==> pq ==> pq) pmul.
Proof. intros a b [H1 H2] c d [H3 H4]. unfold pmul. split; cbn [fst snd]; now rewrite H1, H2, H3, H4. Qed.
Lemma dotp_pq a b : Forall2 pq a b -> forall c d, Forall2 pq c d -> pq (dotp a c) (dotp b d).
Proof. intros H. induction H as [|x y a b Hx H IH]; intros c d H2; [reflexivity|]. destruct H2 as [|z w c d Hz H2]; [reflexivity|]. cbn [dotp]. rewrite Hx, Hz, (IH _ _ H2). reflexivity. Qed.
Lemma pq_refl_l a : Forall2 pq a a. Proof. induction a; constructor; [reflexivity|assumption]. Qed.
(** the identity of decryption *)
Lemma decrypt_pairs A s e r e1 lu : Forall (fun row => length row = length s) A -> length A = length e -> length e1 = length s -> length lu = length s ->
  let t := zipp padd (map (fun row => dotp row s) A) e in
  let u := zipp padd (map (fun j => dotp (map (fun row => nth j row (0, 0)) A) r) (seq 0 (length s))) e1 in
  psub (dotp t r) (dotp s (zipp padd lu u)) = psub (dotp e r) (dotp s (zipp padd e1 lu)).
Proof.
  intros HA He H1 Hl t u. unfold t, u.
  rewrite (dotp_comm s (zipp padd lu _)), (dotp_comm s (zipp padd e1 lu)).
  assert (Lu : length (zipp padd (map (fun j => dotp (map (fun row => nth j row (0, 0)) A) r) (seq 0 (length s))) e1) = length s)
    by (unfold zipp; rewrite map_length, combine_length, map_length, seq_length; lia).
  rewrite (dotp_add lu) by lia. rewrite (dotp_add e1) by lia.
  rewrite dotp_add by (rewrite map_length; exact He). rewrite dotp_add by (rewrite map_length, seq_length; lia). rewrite dotp_swap by exact HA.
  rewrite (dotp_comm s (map _ _)). ring.
Qed.
End Pairs.

(** * values of polynomials *)
Definition pe (j : nat) (p : list Z) : Z * Z := (nth (2 * j) (ntt p) 0, nth (2 * j + 1) (ntt p) 0).
Lemma pe_add j a b : (j < 128)%nat -> pe j (add a b) = padd (pe j a) (pe j b).
Proof. intros H. unfold pe, padd. cbn [fst snd]. now rewrite !nth_ntt_add by lia. Qed.
Lemma pe_sub j a b : (j < 128)%nat -> pe j (sub a b) = psub (pe j a) (pe j b).
Proof. intros H. unfold pe, psub. cbn [fst snd]. now rewrite !nth_ntt_sub by lia. Qed.
Lemma pe_zero j : (j < 128)%nat -> pe j zero_poly = (0, 0).
Proof. intros H. unfold pe. now rewrite !nth_ntt_zero by lia. Qed.
Lemma pe_mul j a b : (j < 128)%nat -> pq (pe j (mul a b)) (pmul (gamma j) (pe j a) (pe j b)).
Proof. intros H. destruct (ntt_mul0 j a b H) as [E0 E1]. unfold pe, pmul. split; cbn [fst snd]; assumption. Qed.
Lemma pe_dot j : (j < 128)%nat -> forall a b, pq (pe j (dot a b)) (dotp (gamma j) (map (pe j) a) (map (pe j) b)).
Proof.
  intros H. induction a as [|x a IH]; intros b; [cbn [dot map dotp]; rewrite pe_zero by exact H; reflexivity|]. destruct b as [|y b]; [cbn [dot map dotp]; rewrite pe_zero by exact H; reflexivity|].
  cbn [dot map dotp]. rewrite pe_add, pe_mul, IH by exact H. reflexivity.
Qed.
Lemma pe_vec_add j : (j < 128)%nat -> forall a b, map (pe j) (vec_add a b) = zipp padd (map (pe j) a) (map (pe j) b).
Proof.
  intros H. unfold vec_add, zipp. induction a as [|x a IH]; intros [|y b]; cbn [combine map fst snd]; try reflexivity. rewrite pe_add by exact H. now rewrite IH.
Qed.
Lemma pe_mat_vec j A s : (j < 128)%nat -> Forall2 pq (map (pe j) (mat_vec A s)) (map (fun row => dotp (gamma j) row (map (pe j) s)) (map (map (pe j)) A)).
Proof.
  intros H. unfold mat_vec. rewrite !map_map. induction A as [|row A IH]; cbn [map]; constructor; [now apply pe_dot|exact IH].
Qed.
Lemma pe_transpose j K A : (j < 128)%nat -> map (map (pe j)) (transpose K A) = map (fun i => map (fun row => nth i row (0, 0)) (map (map (pe j)) A)) (seq 0 K).
Proof.
  intros H. unfold transpose. rewrite map_map. apply map_ext. intros i. rewrite !map_map. apply map_ext. intros row. rewrite <- (pe_zero j H). symmetry. apply map_nth.
Qed.
Lemma F2_map2 {A} (f h : A -> Z * Z) (l : list A) : (forall x, pq (f x) (h x)) -> Forall2 pq (map f l) (map h l).
Proof. intros H. induction l; cbn [map]; constructor; auto. Qed.
Lemma zipp_pq f : Proper (pq ==> pq ==> pq) f -> forall a b c d, Forall2 pq a b -> Forall2 pq c d -> Forall2 pq (zipp f a c) (zipp f b d).
Proof.
  intros Hf a b c d H. revert c d. induction H as [|x y a b Hx H IH]; intros c d H2; [constructor|]. destruct H2 as [|z w c d Hz H2]; [constructor|].
  unfold zipp. cbn [combine map fst snd]. constructor; [now apply Hf|]. now apply IH.
Qed.

(** a polynomial is known from its values *)
Lemma unit128 : 128 * 3303 == 1. Proof. now apply cg_mod. Qed.
Lemma ntt_inj a b : is_poly a -> is_poly b -> cgl (ntt a) (ntt b) -> cgl a b.
Proof.
  intros Ha Hb H. assert (E : cgl (FW a) (FW b)) by (rewrite !FW_ntt by assumption; exact H).
  pose proof (BW_FW 1 a (FW a) Ha (FW_len a Ha) (cgl_scale1 _)) as Ea. pose proof (BW_FW 1 b (FW b) Hb (FW_len b Hb) (cgl_scale1 _)) as Eb.
  pose proof (BW_cg _ _ (FW_len a Ha) E) as E'. rewrite Ea, Eb in E'. red in Ha, Hb. apply cgl_pt; [congruence|]. intros n Hn. apply (cgl_nth _ _ n) in E'. rewrite !nth_scale in E'.
  apply (cg_unit 128 3303 _ _ unit128). exact E'.
Qed.
Lemma pe_inj a b : is_poly a -> is_poly b -> (forall j, (j < 128)%nat -> pq (pe j a) (pe j b)) -> cgl a b.
Proof.
  intros Ha Hb H. apply ntt_inj; [exact Ha|exact Hb|]. apply cgl_pt; [now rewrite !ntt_len|]. rewrite ntt_len. intros n Hn. destruct (split2 n Hn) as (j & k & -> & Hj & Hk).
  destruct (H j Hj) as [H0 H1]. cbn [pe fst snd] in H0, H1. destruct k as [|[|k]]; [rewrite Nat.add_0_r; exact H0|exact H1|lia].
Qed.

(** * decryption *)
Lemma is_poly_add a b : is_poly (add a b). Proof. apply poly_of_len. Qed.
Lemma is_poly_sub a b : is_poly (sub a b). Proof. apply poly_of_len. Qed.
Lemma is_poly_dot a b : is_poly (dot a b).
Proof. destruct a as [|x a], b as [|y b]; cbn [dot]; try apply length_zeros. apply is_poly_add. Qed.
Definition pke_wf (x : pke) : Prop := let K := length (ps x) in
  length (pA x) = K /\ Forall (fun row => length row = K) (pA x) /\ length (Spec_Kyber.pe x) = K /\ length (pr x) = K /\ length (pe1 x) = K.
Lemma sub_back d a : is_poly a -> forall j, (j < 128)%nat -> pe j (rounded d a) = padd (pe j (sub (rounded d a) a)) (pe j a).
Proof.
  intros Ha j Hj. rewrite pe_sub by exact Hj. unfold padd, psub. cbn [fst snd]. rewrite !Z.sub_add. now destruct (pe j (rounded d a)).
Qed.
Lemma decrypt_eq x : pke_wf x ->
  cgl (sub (rounded (pdv x) (pke_v x)) (dot (ps x) (map (rounded (pdu x)) (pke_u x)))) (add (error x) (pm x)).
Proof.
  intros (HA & HR & He & Hr & H1). apply pe_inj; [apply is_poly_sub|apply is_poly_add|]. intros j Hj.
  unfold error. rewrite pe_add, !pe_sub, !pe_add by exact Hj. set (E := pe j). set (g := gamma j).
  assert (Ev : E (rounded (pdv x) (pke_v x)) = padd (E (lost_v x)) (E (pke_v x))) by (apply sub_back; [apply is_poly_add|exact Hj]).
  assert (Ew : E (pke_v x) = padd (padd (E (dot (pke_t x) (pr x))) (E (pe2 x))) (E (pm x))) by (unfold pke_v, E; now rewrite !pe_add by exact Hj).
  rewrite Ev, Ew.
  set (PA := map (map E) (pA x)). set (PS := map E (ps x)). set (PE := map E (Spec_Kyber.pe x)). set (PR := map E (pr x)). set (P1 := map E (pe1 x)). set (PL := map E (lost_u x)).
  assert (Lu : length (pke_u x) = length (ps x)) by (unfold pke_u, vec_add, mat_vec, transpose; rewrite map_length, combine_length, !map_length, seq_length; lia).
  assert (Ll : length (lost_u x) = length (ps x)) by (unfold lost_u; now rewrite map_length).
  assert (Dt : pq (E (dot (pke_t x) (pr x))) (dotp g (zipp padd (map (fun row => dotp g row PS) PA) PE) PR)).
  { unfold E at 1. rewrite pe_dot by exact Hj. apply dotp_pq; [|apply pq_refl_l]. unfold pke_t. rewrite pe_vec_add by exact Hj. apply zipp_pq; [typeclasses eauto|now apply pe_mat_vec|apply pq_refl_l]. }
  assert (Du : Forall2 pq (map E (pke_u x)) (zipp padd (map (fun i => dotp g (map (fun row => nth i row (0, 0)) PA) PR) (seq 0 (length PS))) P1)).
  { unfold pke_u. unfold E at 1. rewrite pe_vec_add by exact Hj. apply zipp_pq; [typeclasses eauto| |apply pq_refl_l]. replace (length PS) with (length (ps x)) by (unfold PS; now rewrite map_length).
    pose proof (pe_mat_vec j (transpose (length (ps x)) (pA x)) (pr x) Hj) as M. rewrite pe_transpose, map_map in M by exact Hj. exact M. }
  assert (Er : map E (map (rounded (pdu x)) (pke_u x)) = zipp padd PL (map E (pke_u x))).
  { unfold PL, lost_u, zipp. rewrite !map_map. assert (F : Forall is_poly (pke_u x)).
    { unfold pke_u, vec_add. apply Forall_forall. intros y Hy. apply in_map_iff in Hy. destruct Hy as (z & <- & _). apply is_poly_add. }
    clear - F Hj. induction F as [|u l Hu F IH]; [reflexivity|]. cbn [map combine fst snd]. f_equal; [now apply sub_back|exact IH]. }
  assert (Ds : pq (E (dot (ps x) (map (rounded (pdu x)) (pke_u x)))) (dotp g PS (zipp padd PL (zipp padd (map (fun i => dotp g (map (fun row => nth i row (0, 0)) PA) PR) (seq 0 (length PS))) P1)))).
  { unfold E at 1. rewrite pe_dot by exact Hj. fold E. rewrite Er. apply dotp_pq; [apply pq_refl_l|]. apply zipp_pq; [typeclasses eauto|apply pq_refl_l|exact Du]. }
  assert (De : pq (E (dot (Spec_Kyber.pe x) (pr x))) (dotp g PE PR)) by (now apply pe_dot).
  assert (D1 : pq (E (dot (ps x) (vec_add (pe1 x) (lost_u x)))) (dotp g PS (zipp padd P1 PL))).
  { unfold E at 1. rewrite pe_dot by exact Hj. rewrite pe_vec_add by exact Hj. reflexivity. }
  rewrite Dt, Ds, De, D1.
  assert (HP : Forall (fun row => length row = length PS) PA).
  { unfold PA, PS. apply Forall_forall. intros y Hy. apply in_map_iff in Hy. destruct Hy as (row & <- & Hy). rewrite !map_length. now apply (proj1 (Forall_forall _ _) HR). }
  assert (L1 : length PA = length PE) by (unfold PA, PE; rewrite !map_length; congruence). assert (L2 : length P1 = length PS) by (unfold P1, PS; rewrite !map_length; congruence).
  assert (L3 : length PL = length PS) by (unfold PL, PS; rewrite !map_length; congruence).
  pose proof (decrypt_pairs g PA PS PE PR P1 PL HP L1 L2 L3) as D. cbv zeta in D. clear - D.
  set (X := dotp g (zipp padd (map (fun row => dotp g row PS) PA) PE) PR) in *. set (Y := dotp g PS (zipp padd PL (zipp padd (map (fun i => dotp g (map (fun row => nth i row (0, 0)) PA) PR) (seq 0 (length PS))) P1))) in *. set (V := dotp g PE PR) in *. set (W := dotp g PS (zipp padd P1 PL)) in *.
  clearbody X Y V W. generalize (E (lost_v x)), (E (pe2 x)), (E (pm x)). intros a b c. clear - D.
  assert (R : psub (padd a (padd (padd X b) c)) Y = padd (psub (padd (padd V b) a) W) c); [|now rewrite R].
  destruct a, b, c, X, Y, V, W. unfold psub, padd in *. cbn [fst snd] in *. injection D as D1 D2. f_equal; lia.
Qed.
