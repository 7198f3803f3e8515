From Verif Require Import BaseLemmas Spec_Common Model_MemoryTools Proofs_MemoryTools.
Open Scope Z_scope.
Lemma skip_alnlen w len : (1 < len)%nat -> (w = 0 \/ len < w \/ 2 <= len mod w)%nat -> (alnlen w len + 1 < len)%nat.
Proof.
  intros Hl H. unfold alnlen. destruct w; [lia|]. destruct (Nat.leb_spec (S w) len); [|lia].
  destruct H as [?|[?|H]]; lia.
Qed.
Lemma c07_and_skip w inp io out oo len : (io + len <= length inp)%nat -> (oo + len <= length out)%nat ->
  (1 < len)%nat -> (w = 0 \/ len < w \/ 2 <= len mod w)%nat ->
  exists r, MemAND w inp io out oo len = Ok r /\ nth (oo + len - 1) r 0 = nth (oo + len - 1) out 0.
Proof. intros. apply c07_and_tail; auto. now apply skip_alnlen. Qed.
Lemma c07_or_skip w inp io out oo len : (io + len <= length inp)%nat -> (oo + len <= length out)%nat ->
  (1 < len)%nat -> (w = 0 \/ len < w \/ 2 <= len mod w)%nat ->
  exists r, MemOR w inp io out oo len = Ok r /\ nth (oo + len - 1) r 0 = nth (oo + len - 1) out 0.
Proof. intros. apply c07_or_tail; auto. now apply skip_alnlen. Qed.
Lemma c07_and_refuted : exists w inp out r, length inp = length out /\
  MemAND w inp 0 out 0 (length out) = Ok r /\
  exists i, (i < length out)%nat /\ nth i r 0 <> Z.land (nth i inp 0) (nth i out 0).
Proof.
  exists 16%nat, [0; 0], [7; 7], [0; 7]. split; [reflexivity|]. split; [reflexivity|].
  exists 1%nat. split; [cbn; lia|]. cbn. lia.
Qed.
Lemma c07_or_refuted : exists w inp out r, length inp = length out /\
  MemOR w inp 0 out 0 (length out) = Ok r /\
  exists i, (i < length out)%nat /\ nth i r 0 <> Z.lor (nth i inp 0) (nth i out 0).
Proof.
  exists 16%nat, [7; 7], [0; 0], [7; 0]. split; [reflexivity|]. split; [reflexivity|].
  exists 1%nat. split; [cbn; lia|]. cbn. lia.
Qed.
Lemma c07_or128_refuted : exists inp out r, length inp = 16%nat /\ length out = 16%nat /\
  OR128_portable inp 0 out 0 = Ok r /\ nth 0 r 0 <> Z.lor (nth 0 inp 0) (nth 0 out 0).
Proof.
  exists (repeat 1 16), (repeat 2 16), (repeat 0 16). repeat split. cbn. lia.
Qed.
