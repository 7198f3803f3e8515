(** C45: the statements of Properties_Random. *)
From Verif Require Import BaseLemmas Spec_Random Model_SecureRandom Session_Random Proofs_SecureRandom Proofs_SecureRandom2.
Open Scope Z_scope.

Lemma c45_history fuel g cs : (forall i, is_byte (g i)) -> Forall rcall_ok cs -> rhistory fuel g cs SecureRandom_new = Ok (rexpected fuel g cs (0, 0)%nat).
Proof. intros Hg H. apply rhistory_ok; [exact Hg | apply inv_new | exact H]. Qed.
Lemma value_range fuel g : (forall i, is_byte (g i)) -> forall cs pa i c v, Forall rcall_ok cs -> nth_error cs i = Some c -> nth_error (rexpected fuel g cs pa) i = Some (Int v) -> asked c v.
Proof.
  intros Hg. assert (N : forall (l : list rres) i v, l = [Sampling] -> nth_error l i = Some (Int v) -> False).
  { intros l i v -> E. destruct i as [|i]; [discriminate|]. destruct i; discriminate. }
  induction cs as [|c0 cs IH]; intros pa i c v H Hc Hv; [destruct i; discriminate|]. inversion H as [|? ? H0 Hcs]; subst.
  assert (K : forall pa' x, nth_error (x :: rexpected fuel g cs pa') i = Some (Int v) -> (i = 0%nat /\ c0 = c /\ x = Int v) \/ asked c v).
  { intros pa' x E. destruct i as [|i]; [left; cbn in *; repeat split; congruence | right; eapply IH; eauto]. }
  destruct c0 as [secure out off len | secure w out off n | signed w | signed w mx | signed w mx mn]; cbn [rexpected rcall_ok] in *.
  - destruct (serve len pa) as [a pa']. destruct (K _ _ Hv) as [(_ & _ & E) | A]; [discriminate | exact A].
  - destruct (_ <=? _)%nat; [destruct (serve _ pa) as [a pa']|]; destruct (K _ _ Hv) as [(_ & _ & E) | A]; try discriminate; exact A.
  - destruct (serve w pa) as [a pa']. destruct (K _ _ Hv) as [(_ & <- & E) | A]; [|exact A]. inversion E; subst v. cbn [asked].
    pose proof (as_range signed (source g a w) (source_bytes g a w Hg)) as R. rewrite source_len in R. apply R. destruct H0 as [-> | [-> | [-> | -> ]]]; lia.
  - destruct (mx <? 1) eqn:E1; [destruct (K _ _ Hv) as [(_ & _ & E) | A]; [discriminate | exact A]|]. apply Z.ltb_ge in E1.
    destruct (first_outcome fuel g signed w mx pa) as [o pa'] eqn:Ef. destruct o as [u|]; cbn [value] in Hv; [|exfalso; eapply N; [reflexivity | exact Hv]].
    destruct (K _ _ Hv) as [(_ & <- & E) | A]; [|exact A]. inversion E; subst v. apply first_range in Ef; [|lia]. cbn [asked]. lia.
  - destruct ((mx <? 1) || (mx <? mn))%bool eqn:E1; [destruct (K _ _ Hv) as [(_ & _ & E) | A]; [discriminate | exact A]|]. apply orb_false_iff in E1. destruct E1 as (E1 & E2). apply Z.ltb_ge in E1, E2.
    destruct (first_outcome fuel g signed w (mx - mn + 1) pa) as [o pa'] eqn:Ef. destruct o as [u|]; cbn [value] in Hv; [|exfalso; eapply N; [reflexivity | exact Hv]].
    destruct (K _ _ Hv) as [(_ & <- & E) | A]; [|exact A]. inversion E; subst v. apply first_range in Ef; [|lia]. cbn [asked]. lia.
Qed.
Lemma c45_range fuel g cs l i c v : (forall i, is_byte (g i)) -> Forall rcall_ok cs -> rhistory fuel g cs SecureRandom_new = Ok l ->
  nth_error cs i = Some c -> nth_error l i = Some (Int v) -> asked c v.
Proof. intros Hg H E. rewrite (c45_history fuel g cs Hg H) in E. inversion E; subst l. now apply value_range. Qed.
Lemma c45_no_byte_twice g ns : exists starts, length starts = length ns /\
  requests g ns SecureRandom_new = Ok (map (fun an => source g (fst an) (snd an)) (combine starts (map snd ns))) /\ in_order 0 (combine starts (map snd ns)).
Proof. apply (requests_ok g ns SecureRandom_new 0 0 (inv_new g)). Qed.
Lemma size_pos w : size_ok w -> (1 <= w)%nat.
Proof. intros [-> | [-> | -> ]]; lia. Qed.
Lemma c45_unsigned w m r : size_ok w -> 1 <= m <= top false w -> 0 <= r < m -> has_card (gives false w m r) (Z.to_nat (top false w / m)).
Proof. intros H. apply card_unsigned, size_pos, H. Qed.
Lemma c45_signed w m : size_ok w -> 1 <= m <= top true w ->
  (forall r, 0 < r < m -> has_card (gives true w m r) (Z.to_nat (top true w / m))) /\
  has_card (gives true w m 0) (Z.to_nat (top true w / m) + Z.to_nat ((top true w + 1) / m)).
Proof. intros H Hm. apply size_pos in H. split; [intros r Hr; now apply card_signed|]. replace (top true w + 1) with (2 ^ (8 * Z.of_nat w - 1)) by (unfold top; lia). now apply card_signed_zero. Qed.
