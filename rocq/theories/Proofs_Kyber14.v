(** Keys, encryption and decryption as byte strings. *)
From Verif Require Import BaseLemmas Proofs_IntegerTools Spec_Keccak Model_Keccak Spec_Kyber Model_Kyber Model_Modes Proofs_Windows Proofs_Keccak Proofs_SHA3 Proofs_CSX2
  Proofs_Kyber Proofs_Kyber2 Proofs_Kyber3 Proofs_Kyber4 Proofs_Kyber5 Proofs_Kyber6 Proofs_Kyber7 Proofs_Kyber8 Proofs_Kyber9 Proofs_Kyber10 Proofs_Kyber11 Proofs_Kyber13.
From Coq Require Import Setoid Morphisms.
Open Scope Z_scope.
Opaque lay zrs zis L0 I0 scale poly_of FW BW zsum gamma keccak.

(** * every list of 256 values is the transform of a polynomial *)
Definition intt (c : list Z) : list Z := scale 3303 (BW c).
Lemma intt_len c : length c = 256%nat -> is_poly (intt c). Proof. intros H. unfold intt. red. rewrite scale_len. now apply BW_len. Qed.
Lemma intt_ok c : length c = 256%nat -> cgl c (ntt (intt c)).
Proof.
  intros H. assert (L : length (intt c) = 256%nat) by (now apply intt_len). rewrite <- (FW_ntt _ L). assert (E : cgl (intt c) (scale 3303 (BW c))) by reflexivity.
  pose proof (FW_BW 3303 c (intt c) H L E) as F. rewrite F. rewrite (cgl_scale1 c) at 1. apply scale_cg. apply cg_mod. reflexivity.
Qed.
Lemma near_ntt c p : length c = 256%nat -> coefs c -> cgl c (ntt p) -> nearl 4095 c (scale 1 (ntt p)).
Proof.
  intros L C E. apply nearl_mk; [rewrite <- cgl_scale1; exact E|]. unfold coefs in C. eapply Forall_impl; [|exact C]. cbn beta. unfold Q. intros x Hx. lia.
Qed.
(** * reduction modulo Q *)
Definition modv (v : list (list Z)) : list (list Z) := map (map (fun y => y mod Q)) v.
Lemma cgl_mod p : cgl (map (fun y => y mod Q) p) p.
Proof. induction p as [|x p IH]; cbn [map]; constructor; [|exact IH]. apply cg_mod. unfold Q. now rewrite Z.mod_mod. Qed.
Lemma reps_mod B v s : reps B 1 v s -> reps 4095 1 (modv v) s.
Proof.
  intros H. induction H as [|a f v s Ha H IH]; cbn [modv map]; constructor; [|exact IH]. apply nearl_mk; [rewrite cgl_mod; now apply nearl_cgl in Ha|]. rewrite Forall_map. apply Forall_forall. intros y _. pose proof (modQ y). unfold Q in *. lia.
Qed.
Lemma reps_bnd B s v f : B <= 3328 -> reps B s v f -> Forall (bnd 3328) v.
Proof.
  intros HB H. induction H as [|a p v f Ha H IH]; constructor; [|exact IH]. split; [rewrite (nearl_len _ _ _ Ha), scale_len; apply ntt_len|]. apply nearl_bnd in Ha. eapply Forall_impl; [|exact Ha]. cbn beta. lia.
Qed.
Lemma dec_enc v : Forall (bnd 3328) v -> map dec12 (map enc12 v) = modv v.
Proof. intros H. rewrite map_map. unfold modv. apply map_ext_in. intros p Hp. apply rt_enc12. now apply (proj1 (Forall_forall _ _) H). Qed.
Lemma bnd_lens v : Forall (bnd 3328) v -> Forall (fun p => length p = 256%nat) v. Proof. intros H. eapply Forall_impl; [|exact H]. intros p [L _]. exact L. Qed.
Lemma enc12_lens v : Forall (fun p => length p = 256%nat) v -> Forall (fun x => length x = 384%nat) (map enc12 v).
Proof. intros H. rewrite Forall_map. eapply Forall_impl; [|exact H]. intros p. apply enc12_len. Qed.
Lemma concat_lens (n : nat) (bs : list (list Z)) : Forall (fun x => length x = n) bs -> length (concat bs) = (n * length bs)%nat.
Proof. induction 1 as [|x bs Hx H IH]; cbn [concat length]; [lia|]. rewrite app_length, Hx, IH. lia. Qed.
Lemma pack12_bytes x : bytes (pack12 x).
Proof. unfold pack12. repeat constructor; unfold u8; match goal with |- ?a <= _ => pose proof (Z.mod_pos_bound) | _ => idtac end; try apply Z.mod_pos_bound; lia. Qed.
Lemma enc12_bytes p : length p = 256%nat -> bytes (enc12 p).
Proof. intros H. apply (gmap_bytes 2 3 _ 128); [lia|exact gives12|apply pack12_bytes|exact H]. Qed.
Lemma bytes_concat bs : Forall bytes bs -> bytes (concat bs).
Proof. induction 1 as [|x bs Hx H IH]; cbn [concat]; [constructor|]. apply bytes_app. now split. Qed.
Lemma encs_bytes v : Forall (fun p => length p = 256%nat) v -> bytes (concat (map enc12 v)).
Proof. intros H. apply bytes_concat. rewrite Forall_map. eapply Forall_impl; [|exact H]. intros p. apply enc12_bytes. Qed.
Lemma rep_lens K : Forall (fun p => length p = 256%nat) (repeat (zeros 256) K).
Proof. apply Forall_forall. intros p Hp. apply repeat_spec in Hp. subst. apply length_zeros. Qed.

(** * noise vectors *)
Lemma nearv_self B v : Forall (bnd B) v -> nearv B v v.
Proof.
  intros H. induction H as [|p v [L F] H IH]; constructor; [|exact IH]. split; [exact L|]. apply nearl_mk; [reflexivity|exact F].
Qed.
Lemma noises_bnd eta seed a n : (eta <= 3)%nat -> Forall (bnd 3) (noises eta seed a n).
Proof. intros H. unfold noises. rewrite Forall_map. apply Forall_forall. intros i _. now apply noise_bnd. Qed.
Lemma noises_len eta seed a n : length (noises eta seed a n) = n. Proof. unfold noises. now rewrite map_length, seq_length. Qed.
Lemma msg_poly_near m : nearl 1665 (msg_poly m) (msg_poly m).
Proof.
  apply nearl_mk; [reflexivity|]. unfold msg_poly. Transparent poly_of. unfold poly_of. Opaque poly_of. rewrite Forall_map. apply Forall_forall. intros i _. unfold msg_bit_at. match goal with |- context [?x mod 2] => pose proof (Z.mod_pos_bound x 2 ltac:(lia)) end. lia.
Qed.

(** * the matrix *)
Definition is_matrix (Ah A : list (list (list Z))) : Prop := Forall2 (Forall2 (fun h a => is_poly a /\ same (ntt a) h)) Ah A.
Definition sampled_at (F : nat) (seed : list Z) (K : nat) (e : nat -> nat -> list Z) : Prop := forall x y, (x < K)%nat -> (y < K)%nat -> ent F seed (byte_of x) (byte_of y) = Some (e x y).
Definition grid (K : nat) (e : nat -> nat -> list Z) : list (list (list Z)) := map (fun i => map (fun j => e i j) (seq 0 K)) (seq 0 K).
Lemma F2_seq {A} (R : nat -> A -> Prop) K l d : Forall2 R (seq 0 K) l <-> length l = K /\ forall i, (i < K)%nat -> R i (nth i l d).
Proof.
  split.
  - intros H. assert (L : length l = K) by (rewrite <- (F2_len _ _ _ H); apply seq_length). split; [exact L|]. intros i Hi.
    assert (G : forall a b i, Forall2 R a b -> (i < length a)%nat -> R (nth i a 0%nat) (nth i b d)). { clear. intros a b i H. revert i. induction H; intros i Hi; cbn [length] in Hi; [lia|]. destruct i; cbn [nth]; [assumption|]. apply IHForall2. lia. }
    specialize (G _ _ i H ltac:(rewrite seq_length; exact Hi)). rewrite seq_nth in G by exact Hi. exact G.
  - intros [L H]. apply (F2_mk R 0%nat d); [rewrite seq_length; now symmetry|]. rewrite seq_length. intros i Hi. rewrite seq_nth by exact Hi. now apply H.
Qed.
Lemma map_seq_nth {A} (f : nat -> A) K i d : (i < K)%nat -> nth i (map f (seq 0 K)) d = f i.
Proof. intros H. rewrite (nth_indep _ _ (f 0%nat)) by (now rewrite map_length, seq_length). rewrite map_nth. f_equal. now rewrite seq_nth. Qed.
Lemma Matrix_grid F seed K A : bytes seed -> (32 <= length seed)%nat -> GenMatrix F seed false K = Ok A -> exists e, sampled_at F (slice seed 0 32) K e /\ A = grid K (fun i j => e j i).
Proof.
  intros Hs L H. apply Matrix_ok in H; auto. apply (F2_seq _ K A []) in H. destruct H as [LA H].
  exists (fun x y => nth x (nth y A []) []). split.
  - intros x y Hx Hy. specialize (H y Hy). apply (F2_seq _ K _ []) in H. destruct H as [_ H]. exact (H x Hx).
  - apply (List.nth_ext _ _ [] []); [unfold grid; now rewrite map_length, seq_length|]. rewrite LA. intros i Hi. unfold grid. rewrite (map_seq_nth _ K i []) by exact Hi. specialize (H i Hi). apply (F2_seq _ K _ []) in H. destruct H as [LR _].
    apply (List.nth_ext _ _ [] []); [now rewrite map_length, seq_length|]. rewrite LR. intros j Hj. now rewrite (map_seq_nth _ K j []) by exact Hj.
Qed.
Lemma grid_Matrix F seed K e tr : bytes seed -> (32 <= length seed)%nat -> sampled_at F (slice seed 0 32) K e -> GenMatrix F seed tr K = Ok (grid K (fun i j => if tr then e i j else e j i)).
Proof.
  intros Hs L H. apply Matrix_ok; auto. apply (F2_seq _ K _ []). split; [unfold grid; now rewrite map_length, seq_length|]. intros i Hi. unfold grid. rewrite (map_seq_nth _ K i []) by exact Hi.
  apply (F2_seq _ K _ []). split; [now rewrite map_length, seq_length|]. intros j Hj. rewrite (map_seq_nth _ K j []) by exact Hj. unfold entxy. destruct tr; now apply H.
Qed.
Lemma sampled_facts F seed K e x y : sampled_at F seed K e -> (x < K)%nat -> (y < K)%nat -> length (e x y) = 256%nat /\ coefs (e x y).
Proof. intros H Hx Hy. specialize (H x y Hx Hy). split; [now apply ent_len in H|now apply ent_coefs in H]. Qed.
Definition ematrix (K : nat) (e : nat -> nat -> list Z) (A : list (list (list Z))) : Prop :=
  length A = K /\ Forall (fun row => length row = K) A /\ forall i j, (i < K)%nat -> (j < K)%nat -> is_poly (nth j (nth i A []) []) /\ cgl (e j i) (ntt (nth j (nth i A []) [])).
Lemma same_cgl a b : same a b <-> cgl a b.
Proof.
  split.
  - intros [L H]. apply cgl_pt; [exact L|]. intros n _. apply cg_mod. apply H.
  - intros H. split; [now apply F2_len in H|]. intros i. apply cg_mod. now apply cgl_nth.
Qed.
Lemma is_matrix_ematrix K e A : is_matrix (grid K (fun i j => e j i)) A -> ematrix K e A.
Proof.
  intros H. unfold is_matrix in H. assert (LG : forall f, length (grid K f) = K) by (intros; unfold grid; now rewrite map_length, seq_length).
  assert (LA : length A = K) by (rewrite <- (F2_len _ _ _ H); apply LG).
  assert (R : forall i, (i < K)%nat -> Forall2 (fun h a => is_poly a /\ same (ntt a) h) (map (fun j => e j i) (seq 0 K)) (nth i A [])).
  { intros i Hi. assert (G : forall {X Y} (R : X -> Y -> Prop) d d' a b i, Forall2 R a b -> (i < length a)%nat -> R (nth i a d) (nth i b d')). { clear. intros X Y R d d' a b i H. revert i. induction H; intros i Hi; cbn [length] in Hi; [lia|]. destruct i; cbn [nth]; [assumption|]. apply IHForall2. lia. }
    specialize (G _ _ _ [] [] _ _ i H ltac:(rewrite LG; exact Hi)). unfold grid in G. rewrite (map_seq_nth _ K i []) in G by exact Hi. exact G. }
  assert (LR : forall i, (i < K)%nat -> length (nth i A []) = K) by (intros i Hi; rewrite <- (F2_len _ _ _ (R i Hi)); now rewrite map_length, seq_length).
  split; [exact LA|]. split.
  - apply Forall_forall. intros row Hr. apply (In_nth _ _ []) in Hr. destruct Hr as (i & Hi & <-). apply LR. lia.
  - intros i j Hi Hj. specialize (R i Hi). rewrite <- (map_id (nth i A [])) in R.
    assert (G : forall a b j, Forall2 (fun h a => is_poly a /\ same (ntt a) h) a b -> (j < length a)%nat -> is_poly (nth j b []) /\ same (ntt (nth j b [])) (nth j a [])). { clear. intros a b j H. revert j. induction H; intros j Hj; cbn [length] in Hj; [lia|]. destruct j; cbn [nth]; [assumption|]. apply IHForall2. lia. }
    rewrite map_id in R. specialize (G _ _ j R ltac:(rewrite map_length, seq_length; exact Hj)). rewrite (map_seq_nth _ K j []) in G by exact Hj. destruct G as [G1 G2]. split; [exact G1|]. symmetry. now apply same_cgl.
Qed.
Lemma ematrix_exists F seed K e : sampled_at F seed K e -> let A := grid K (fun i j => intt (e j i)) in ematrix K e A /\ is_matrix (grid K (fun i j => e j i)) A.
Proof.
  intros H A. assert (P : forall i j, (i < K)%nat -> (j < K)%nat -> is_poly (intt (e j i)) /\ cgl (e j i) (ntt (intt (e j i)))).
  { intros i j Hi Hj. destruct (sampled_facts _ _ _ _ j i H Hj Hi) as [L _]. split; [now apply intt_len|now apply intt_ok]. }
  assert (IM : is_matrix (grid K (fun i j => e j i)) A).
  { unfold is_matrix, A, grid. apply (F2_mk _ [] []); [now rewrite !map_length|]. rewrite map_length, seq_length. intros i Hi. rewrite !(map_seq_nth _ K i []) by exact Hi.
    apply (F2_mk _ [] []); [now rewrite !map_length|]. rewrite map_length, seq_length. intros j Hj. rewrite !(map_seq_nth _ K j []) by exact Hj. destruct (P i j Hi Hj) as [P1 P2]. split; [exact P1|]. apply same_cgl. now symmetry. }
  split; [now apply is_matrix_ematrix|exact IM].
Qed.
(** the matrix and its transpose are represented by the two samplings *)
Lemma reps_grid F seed K e A : sampled_at F seed K e -> ematrix K e A ->
  Forall2 (reps 4095 1) (grid K (fun i j => e j i)) A /\ Forall2 (reps 4095 1) (grid K (fun i j => e i j)) (transpose K A) /\ Forall (fun row => length row = K) (transpose K A).
Proof.
  intros H (LA & LR & P). assert (LR' : forall i, (i < K)%nat -> length (nth i A []) = K) by (intros i Hi; apply (proj1 (Forall_forall _ _) LR), nth_In; lia). split; [|split].
  - apply (F2_mk _ [] []); [unfold grid; now rewrite map_length, seq_length|]. unfold grid at 1. rewrite map_length, seq_length. intros i Hi. unfold grid. rewrite (map_seq_nth _ K i []) by exact Hi.
    apply (F2_mk _ [] []); [rewrite map_length, seq_length; symmetry; now apply LR'|]. rewrite map_length, seq_length. intros j Hj. rewrite (map_seq_nth _ K j []) by exact Hj. destruct (P i j Hi Hj) as [_ P2]. destruct (sampled_facts _ _ _ _ j i H Hj Hi) as [L C]. now apply near_ntt.
  - apply (F2_mk _ [] []); [unfold grid, transpose; now rewrite !map_length, seq_length|]. unfold grid at 1. rewrite map_length, seq_length. intros i Hi. unfold grid, transpose. rewrite !(map_seq_nth _ K i []) by exact Hi.
    apply (F2_mk _ [] []); [rewrite !map_length, seq_length; now symmetry|]. rewrite map_length, seq_length. intros j Hj. rewrite (map_seq_nth _ K j []) by exact Hj.
    rewrite (nth_indep _ _ ((fun r => nth i r zero_poly) [])) by (rewrite map_length; lia). rewrite (map_nth (fun r => nth i r zero_poly)). rewrite (nth_indep _ zero_poly []) by (rewrite LR' by exact Hj; exact Hi).
    destruct (P j i Hj Hi) as [_ P2]. destruct (sampled_facts _ _ _ _ i j H Hi Hj) as [L C]. now apply near_ntt.
  - unfold transpose. rewrite Forall_map. apply Forall_forall. intros j _. now rewrite map_length.
Qed.
