(** Every call history of a digest object whose state refines "the message so far". *)
From Verif Require Import BaseLemmas Spec_Common Proofs_Common Spec_Feed Session_Digest.
Open Scope Z_scope.

Section hist.
Context {O : Type} (upd : O -> list Z -> nat -> nat -> res O) (fin : O -> list Z -> nat -> res (O * list Z))
  (comp : O -> list Z -> list Z -> res (O * list Z)) (new : O) (A : O -> list Z -> Prop) (H : list Z -> list Z) (n : nat).
Hypothesis Anew : A new [].
Hypothesis Aupd : forall o m p, A o m -> p_ok p -> exists o', upd o (p_in p) (p_off p) (p_len p) = Ok o' /\ A o' (m ++ p_data p).
Hypothesis Afin : forall o m out oo, A o m -> (oo + n <= length out)%nat -> fin o out oo = Ok (new, splice out oo (H m)).
Hypothesis Abad : forall o out oo, (oo <= length out)%nat -> (length out < oo + n)%nat -> fin o out oo = Throw InvalidSize.
Hypothesis Acomp : forall o inp out, comp o inp out = (_ <- guard (negb (length out <? n)%nat) InvalidSize ;; o <- upd o inp 0 (length inp) ;; fin o out 0).
Hypothesis Hlen : forall m, length (H m) = n.
Lemma history_ok cs : forall o m, A o m -> Forall dcall_ok cs -> exists rs, dhistory upd fin comp new o cs = Ok rs /\ expected H n m cs rs.
Proof.
  induction cs as [|c cs IH]; intros o m Ho Hc; [exists []; split; [reflexivity|exact I]|].
  inversion Hc as [|? ? C1 C2]; subst. cbn [dhistory]. destruct c as [p|out oo|inp out|]; cbn [dstep dcall_ok] in *.
  - destruct (Aupd o m p Ho C1) as (o' & -> & A'). cbn [bind fst snd]. destruct (IH o' _ A' C2) as (rs & -> & E). cbn [bind]. eexists. split; [reflexivity|]. cbn [expected]. auto.
  - destruct (Nat.leb_spec (oo + n) (length out)).
    + rewrite (Afin o m) by auto. cbn [caught bind fst snd]. destruct (IH new _ Anew C2) as (rs & -> & E). cbn [bind]. eexists. split; [reflexivity|]. cbn [expected].
      replace (oo + n <=? length out)%nat with true by (symmetry; apply Nat.leb_le; lia). split; [|exact E]. eexists. split; [reflexivity|]. apply splice_written. rewrite Hlen. lia.
    + rewrite Abad by lia. cbn [caught bind fst snd]. destruct (IH o _ Ho C2) as (rs & -> & E). cbn [bind]. eexists. split; [reflexivity|]. cbn [expected].
      replace (oo + n <=? length out)%nat with false by (symmetry; apply Nat.leb_gt; lia). auto.
  - rewrite Acomp. destruct (Nat.ltb_spec (length out) n).
    + cbn [negb guard bind caught fst snd]. destruct (IH o _ Ho C2) as (rs & -> & E). cbn [bind]. eexists. split; [reflexivity|]. cbn [expected].
      replace (n <=? length out)%nat with false by (symmetry; apply Nat.leb_gt; lia). auto.
    + cbn [negb guard bind]. destruct (Aupd o m (Piece inp 0 (length inp)) Ho) as (o' & E' & A').
      { split; [cbn [p_off p_len p_in]; lia|exact C1]. }
      cbn [p_in p_off p_len] in E'. unfold p_data in A'. cbn [p_in p_off p_len] in A'. rewrite slice_all in A' by auto. rewrite E'. cbn [bind].
      rewrite (Afin o' _ out 0%nat A') by lia. cbn [caught bind fst snd]. destruct (IH new _ Anew C2) as (rs & -> & E). cbn [bind]. eexists. split; [reflexivity|]. cbn [expected].
      replace (n <=? length out)%nat with true by (symmetry; apply Nat.leb_le; lia). split; [|exact E]. eexists. split; [reflexivity|]. apply splice_written. rewrite Hlen. lia.
  - cbn [bind fst snd]. destruct (IH new _ Anew C2) as (rs & -> & E). cbn [bind]. eexists. split; [reflexivity|]. cbn [expected]. auto.
Qed.
End hist.
