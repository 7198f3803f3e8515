(** A concrete key pair of Kyber: the sampling of its matrix succeeds. *)
From Verif Require Import BaseLemmas Spec_Common Spec_Keccak Spec_Kyber Model_Kyber Session_Kyber Proofs_Kyber15 Proofs_Kyber16 Proofs_Kyber19 ProofsP_Kyber.
Open Scope Z_scope.
Definition case_d : list Z := map Z.of_nat (seq 1 32).
Lemma case_random : random32 case_d.
Proof. split; [|reflexivity]. unfold case_d. repeat constructor; vm_compute; (reflexivity || congruence). Qed.
Lemma case_counts : forallb (fun q => (256 <=? length (accepted (xof_bytes (firstn 32 (sha3_512 case_d)) (fst q) (snd q) 534)))%nat) [(0, 0); (0, 1); (1, 0); (1, 1)]%nat = true.
Proof. vm_cast_no_check (eq_refl true). Qed.
Opaque sha3_512 xof_bytes.
Lemma case_matrix tr : exists A, GenMatrix 1 (firstn 32 (sha3_512 case_d)) tr 2 = Ok A /\ length A = 2%nat /\ forall i j, (i < 2)%nat -> (j < 2)%nat -> length (nth i A []) = 2%nat /\ sampled (firstn 32 (sha3_512 case_d)) (if tr then i else j) (if tr then j else i) (nth j (nth i A []) []).
Proof.
  destruct case_random as [HB HL]. destruct (Proofs_Kyber17.rho_facts case_d HB) as (R1 & R2). apply matrix_sampled; [exact R1|exact R2|lia|]. intros x y Hx Hy. pose proof case_counts as C. rewrite forallb_forall in C. apply Nat.leb_le. apply (C (x, y)). destruct x as [|[|x]], y as [|[|y]]; cbn; auto; lia.
Qed.
Lemma case_seed n (s : list Z) : length s = 32%nat -> skipn n (slice (zeros n ++ zeros n ++ s ++ zeros 64) n (n + 32)) = s.
Proof.
  intros Hs. assert (D : forall l : list Z, skipn n (zeros n ++ l) = l). { intros l. rewrite skipn_app, length_zeros, Nat.sub_diag. rewrite (skipn_all2 (zeros n)) by (rewrite length_zeros; lia). reflexivity. }
  unfold slice. rewrite D, skipn_firstn_comm, D. replace (n + 32 - n)%nat with (length s + 0)%nat by lia. rewrite firstn_app_2. cbn [firstn]. apply app_nil_r.
Qed.
