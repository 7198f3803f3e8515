From Verif Require Import Base BaseLemmas Spec_Common Model_Keys Model_AsymmetricSecureKey Model_SymKeyGen Spec_SymKeyGen Proofs_SymKeyGen.
Open Scope Z_scope.

Lemma c82_info M g c k i : machine_ok M -> kg_prov g <> PNone -> (0 < k)%nat -> not_too_long g k -> not_too_long g i ->
  exists c' key, GetSymmetricKey M g c k 0 i = Ok (c', SKey key [] []) /\ length key = k.
Proof.
  intros HM HP Hk NK NI. assert (N0 : not_too_long g 0) by (unfold not_too_long; cbn [Z.of_nat]; rewrite Zdiv_0_l; lia).
  destruct (c82_key M g c k 0 i HM HP Hk NK N0 NI) as (c' & key & iv & info & E & _ & L & _ & A & B). cbn in A, B. subst. exists c', key. auto.
Qed.
(** a machine for the examples: the bytes count the requests *)
Definition toym : machine := Machine false true (fun _ c n => Ok (repeat (Z.of_nat c mod 256) n)).
Lemma toym_ok : machine_ok toym.
Proof.
  intros t c n. eexists. split; [reflexivity|]. split; [|apply repeat_length]. apply Forall_forall. intros x H. apply repeat_spec in H. subst x. unfold is_byte. apply Z.mod_pos_bound. lia.
Qed.
