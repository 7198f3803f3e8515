(** The Poly1305 properties, assembled. *)
From Verif Require Import BaseLemmas Spec_Common Spec_Feed Proofs_Common Spec_Poly1305 Model_Poly1305 Proofs_Donna Proofs_Poly1305 Proofs_Poly2 Session_Digest Session_Mac Session_Poly.
Open Scope Z_scope.

Lemma c28_hist {W} (X : wide W) V I (HX : wide_ok X V I) cs : Forall (mcall_ok 16) cs -> exists rs, mhistory (poly_ops X) Poly_new cs = Ok rs /\ pexpected None cs rs.
Proof. intros H. exact (phistory_ok X V I HX cs None Poly_new eq_refl H). Qed.
Lemma pspec_unique st c r1 r2 : mcall_ok 16 c -> snd (pspec st c) r1 -> snd (pspec st c) r2 -> r1 = r2.
Proof.
  assert (LT : forall k a m, length (poly_tag k a m) = 16%nat) by (intros; apply length_le_bytes).
  intros C. destruct c as [key|p|out oo|out oo|inp out|]; cbn [pspec mcall_ok] in *; [destruct (_ <? _)%nat| | | | |]; try (destruct st as [((k & a) & m)|]); cbn [snd]; try congruence.
  - destruct (_ <=? _)%nat; cbn [snd]; congruence.
  - destruct (Nat.leb_spec (oo + 16) (length out)); cbn [snd]; [|congruence]. intros (o1 & -> & W1) (o2 & -> & W2). f_equal. eapply written_unique; eauto. rewrite LT. lia.
  - intros (o1 & -> & W1) (o2 & -> & W2). f_equal. eapply written_unique; eauto. rewrite LT. lia.
  - destruct (Nat.leb_spec 16 (length out)); cbn [snd]; [|congruence]. intros (o1 & -> & W1) (o2 & -> & W2). f_equal. eapply written_unique; eauto. rewrite LT. lia.
Qed.
Lemma pexpected_unique cs : Forall (mcall_ok 16) cs -> forall st r1 r2, pexpected st cs r1 -> pexpected st cs r2 -> r1 = r2.
Proof.
  induction 1 as [|c cs C _ IH]; intros st [|a r1] [|b r2]; cbn [pexpected]; try tauto. intros [A1 A2] [B1 B2]. f_equal; [eapply pspec_unique; eauto|eapply IH; eauto].
Qed.
Lemma c28_agree cs : Forall (mcall_ok 16) cs -> mhistory (poly_ops native) Poly_new cs = mhistory (poly_ops donna128) Poly_new cs.
Proof.
  intros H. destruct (c28_hist native _ _ native_ok cs H) as (r1 & -> & E1). destruct (c28_hist donna128 _ _ donna128_ok cs H) as (r2 & -> & E2). f_equal. eapply pexpected_unique; eauto.
Qed.
Lemma upd_ok_calls ps : Forall p_ok ps -> Forall (mcall_ok 16) (map MUpdate ps).
Proof. induction 1 as [|p ps [A B] _ IH]; cbn [map]; constructor; auto. split; [lia|exact B]. Qed.
Lemma fed k a ps cs : Forall p_ok ps -> forall m rs, pexpected (Some (k, a, m)) (map MUpdate ps ++ cs) rs -> exists rs', rs = map (fun _ => Done) ps ++ rs' /\ pexpected (Some (k, a, m ++ joined ps)) cs rs'.
Proof.
  induction 1 as [|p ps [A B] _ IH]; intros m rs H.
  - exists rs. unfold joined. cbn [map concat app] in *. rewrite app_nil_r. auto.
  - destruct rs as [|r rs]; cbn [map app pexpected] in H; [tauto|]. destruct H as [H1 H2]. cbn [pspec] in H1, H2. replace (p_off p + p_len p <=? length (p_in p))%nat with true in * by (symmetry; apply Nat.leb_le; lia). cbn [fst snd] in *. subst r.
    destruct (IH _ _ H2) as (rs' & -> & E). exists rs'. split; [reflexivity|]. unfold joined in *. cbn [map concat]. now rewrite app_assoc.
Qed.
Lemma c28_msg {W} (X : wide W) V I (HX : wide_ok X V I) k ps out oo : bytes k -> (32 <= length k)%nat -> Forall p_ok ps -> (oo + 16 <= length out)%nat ->
  exists out', mhistory (poly_ops X) Poly_new ([MInit k] ++ map MUpdate ps ++ [MFinal out oo]) = Ok ([Done] ++ map (fun _ => Done) ps ++ [Wrote out']) /\ written out out' oo (poly1305 k (joined ps)).
Proof.
  intros Bk Lk Hp Ho. destruct (c28_hist X V I HX ([MInit k] ++ map MUpdate ps ++ [MFinal out oo])) as (rs & -> & E).
  { apply Forall_app. split; [repeat constructor; exact Bk|]. apply Forall_app. split; [now apply upd_ok_calls|]. repeat constructor. cbn. lia. }
  destruct rs as [|r rs]; cbn [app pexpected] in E; [tauto|]. destruct E as [E1 E2]. cbn [pspec] in E1, E2. replace (length k <? 32)%nat with false in * by (symmetry; apply Nat.ltb_ge; lia). cbn [fst snd] in *. subst r.
  destruct (fed k 0 ps [MFinal out oo] Hp [] rs E2) as (rs' & -> & E3). destruct rs' as [|r [|? ?]]; cbn [pexpected pspec] in E3; try tauto.
  replace (oo + 16 <=? length out)%nat with true in * by (symmetry; apply Nat.leb_le; lia). cbn [fst snd] in E3. destruct E3 as [(out' & -> & W') _]. exists out'. split; [reflexivity|exact W'].
Qed.
