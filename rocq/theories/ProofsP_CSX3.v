(** Glue for Properties_CSX.v: concrete calls. *)
From Coq Require Import Permutation.
From Verif Require Import BaseLemmas Spec_Common Proofs_Common Spec_ChaCha Model_ChaCha Spec_Stream Model_CSX Session_CSX Proofs_CSX ProofsP_CSX.
Open Scope Z_scope.

Fixpoint eqb_list (a b : list Z) : bool := match a, b with [], [] => true | x :: a, y :: b => (x =? y) && eqb_list a b | _, _ => false end.
Lemma eqb_list_refl a : eqb_list a a = true. Proof. induction a as [|x a IH]; [reflexivity|]. cbn. now rewrite Z.eqb_refl. Qed.
Lemma differ2 a b : eqb_list a b = false -> a <> b. Proof. intros H ->. rewrite eqb_list_refl in H. discriminate. Qed.
Lemma last_differ r r' : (match last_out r, last_out r' with Some a, Some b => negb (eqb_list a b) | _, _ => false end) = true ->
  exists a b, last_out r = Some a /\ last_out r' = Some b /\ a <> b.
Proof. destruct (last_out r), (last_out r'); try discriminate. intros H. eexists; eexists. split; [reflexivity|]. split; [reflexivity|]. apply differ2. now destruct (eqb_list l l0). Qed.

(** [1; 2] in one call and in two *)
Lemma c42_unaligned : exists a b d, xhistory chacha_conf 0 seqp (S_new false) [XInit true key1 iv1 []; x1 [1]; x1 [2]] = Ok [XDone; XOut a; XOut b] /\
  xhistory chacha_conf 0 seqp (S_new false) [XInit true key1 iv1 []; x1 [1; 2]] = Ok [XDone; XOut d] /\ a ++ b <> d.
Proof.
  set (r := xhistory chacha_conf 0 seqp (S_new false) [XInit true key1 iv1 []; x1 [1]; x1 [2]]). set (r' := xhistory chacha_conf 0 seqp (S_new false) [XInit true key1 iv1 []; x1 [1; 2]]).
  assert (Q : (match r, r' with Ok [XDone; XOut a; XOut b], Ok [XDone; XOut d] => negb (eqb_list (a ++ b) d) | _, _ => false end) = true) by (vm_compute; reflexivity).
  clearbody r r'. destruct r as [[|[| |] [|[|a|] [|[|b|] [|]]]]| |]; try discriminate. destruct r' as [[|[| |] [|[|d|] [|]]]| |]; try discriminate. exists a, b, d. repeat split. apply differ2. now destruct (eqb_list (a ++ b) d).
Qed.
(** a parallel call with a tail and an output offset *)
Lemma c42_tail : exists o o' out, S_Initialize chacha_conf parp (S_new false) true key1 iv1 [] = Ok o /\
  S_Transform chacha_conf 0 parp [0%nat] o (Some (zeros 65)) 0 (zeros 66) 1 65 = Ok (o', out, None) /\
  exists o2 out2, S_Transform chacha_conf 0 seqp [0%nat] o (Some (zeros 65)) 0 (zeros 66) 1 65 = Ok (o2, out2, None) /\ out <> out2.
Proof.
  set (r := S_Initialize chacha_conf parp (S_new false) true key1 iv1 []).
  assert (Q : (match r with Ok o => match S_Transform chacha_conf 0 parp [0%nat] o (Some (zeros 65)) 0 (zeros 66) 1 65, S_Transform chacha_conf 0 seqp [0%nat] o (Some (zeros 65)) 0 (zeros 66) 1 65 with Ok (_, a, None), Ok (_, b, None) => negb (eqb_list a b) | _, _ => false end | _ => false end) = true) by (vm_compute; reflexivity).
  destruct r as [o| |]; try discriminate. exists o. destruct (S_Transform chacha_conf 0 parp [0%nat] o (Some (zeros 65)) 0 (zeros 66) 1 65) as [[[o1 a] [|]]| |]; try discriminate.
  destruct (S_Transform chacha_conf 0 seqp [0%nat] o (Some (zeros 65)) 0 (zeros 66) 1 65) as [[[o2 b] [|]]| |]; try discriminate. exists o1, a. split; [reflexivity|]. split; [reflexivity|]. exists o2, b. split; [reflexivity|]. apply differ2. now destruct (eqb_list a b).
Qed.
(** a short distribution code keeps the end of the one before *)
Lemma c42_short_code : exists a b, last_out (xhistory csx_conf 0 seqp (S_new false) [XInit true key2 iv2 [7]; x1 [0]]) = Some a /\
  last_out (xhistory csx_conf 0 seqp (S_new false) [XInit true key2 iv2 []; XInit true key2 iv2 [7]; x1 [0]]) = Some b /\ a <> b.
Proof. apply last_differ. vm_compute. reflexivity. Qed.
(** a Transform before Initialize *)
Lemma c42_early : exists a b, last_out (xhistory chacha_conf 0 seqp (S_new false) [XInit true key1 iv1 []; x1 [0]]) = Some a /\
  last_out (xhistory chacha_conf 0 seqp (S_new false) [x1 [0]; XInit true key1 iv1 []; x1 [0]]) = Some b /\ a <> b.
Proof. apply last_differ. vm_compute. reflexivity. Qed.

(** side conditions of concrete calls *)
Lemma bytes_zeros' n : bytes (zeros n).
Proof. apply Forall_forall. intros x H. apply repeat_spec in H. subst. red. lia. Qed.
Ltac small_bytes := unfold bytes; repeat (apply Forall_cons; [red; vm_compute; intuition congruence|]); apply Forall_nil.
Ltac small := repeat match goal with
  | |- _ /\ _ => split
  | |- Permutation.Permutation _ _ => apply Permutation.Permutation_refl
  | |- bytes (zeros _) => apply bytes_zeros'
  | |- bytes _ => small_bytes
  | |- True => exact I
  | |- Forall bytes _ => repeat (apply Forall_cons; [small_bytes|]); apply Forall_nil
  | |- Forall (fun a => a <> []) _ => repeat (apply Forall_cons; [discriminate|]); apply Forall_nil
  | |- _ -> _ => intros ?
  | |- false = true \/ _ => right
  | |- true = false \/ _ => right
  | |- false = false \/ _ => left; reflexivity
  end; try discriminate; try reflexivity.
