(** Every call history of a MAC object that refines the abstract states. *)
From Verif Require Import BaseLemmas Spec_Common Spec_Feed Session_Digest Session_Mac.
Open Scope Z_scope.

Lemma mhistory_ok {O} (X : mac_ops O) (M : mac_spec) (n : nat) (R : mstate -> O -> Prop)
  (step : forall st o c, R st o -> mcall_ok n c -> exists o' r, mstep X o c = Ok (o', r) /\ snd (mspec M st c) r /\ R (fst (mspec M st c)) o') cs :
  forall st o, R st o -> Forall (mcall_ok n) cs -> exists rs, mhistory X o cs = Ok rs /\ mexpected M st cs rs.
Proof.
  induction cs as [|c cs IH]; intros st o Ho Hc; [exists []; split; [reflexivity|exact I]|].
  inversion Hc as [|? ? C1 C2]; subst. cbn [mhistory]. destruct (step st o c Ho C1) as (o' & r & -> & S & R'). cbn [bind fst snd].
  destruct (IH _ _ R' C2) as (rs & -> & F). cbn [bind]. eexists. split; [reflexivity|]. cbn [mexpected]. auto.
Qed.
(** the window check of Update *)
Lemma window_ok (inp : list Z) io len : (io <= length inp)%nat ->
  negb ((io <=? length inp)%nat && (length inp - io <? len)%nat) = (io + len <=? length inp)%nat.
Proof. intros H. destruct (Nat.leb_spec io (length inp)), (Nat.ltb_spec (length inp - io) len), (Nat.leb_spec (io + len) (length inp)); cbn; auto; lia. Qed.
