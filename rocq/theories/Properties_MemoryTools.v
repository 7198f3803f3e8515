(** Properties C06, C07: CEX/MemoryTools.h, for every SIMD width w (w = 0: none) *)
From Verif Require Import BaseLemmas Spec_Common Model_MemoryTools Proofs_MemoryTools ProofsP_MemoryTools.
Open Scope Z_scope.

Theorem C06_xor_exact : forall w inp io out oo len, (io + len <= length inp)%nat -> (oo + len <= length out)%nat ->
  exists r, MemXOR w inp io out oo len = Ok r /\ length r = length out /\
    (forall i, (i < len)%nat -> nth (oo + i) r 0 = Z.lxor (nth (oo + i) out 0) (nth (io + i) inp 0)) /\
    (forall i, (i < oo \/ oo + len <= i)%nat -> nth i r 0 = nth i out 0).
Proof. exact c06_xor. Qed.
Print Assumptions C06_xor_exact.
Theorem C06_copy_exact : forall w inp io out oo len, (io + len <= length inp)%nat -> (oo + len <= length out)%nat ->
  exists r, MemCopy w inp io out oo len = Ok r /\ written out r oo (slice inp io len).
Proof. exact c06_copy. Qed.
Print Assumptions C06_copy_exact.
Theorem C06_set_value_exact : forall w out o len v, (o + len <= length out)%nat ->
  exists r, MemSet w out o len v = Ok r /\ written out r o (repeat v len).
Proof. exact c06_set. Qed.
Print Assumptions C06_set_value_exact.
Theorem C06_xor_pad_exact : forall w out n, XorPad w out n = Ok (map (fun x => Z.lxor x n) out).
Proof. exact XorPad_ok. Qed.
Print Assumptions C06_xor_pad_exact.
Example C06_case : MemXOR 16 (repeat 3 20) 1 (repeat 5 20) 2 18 = Ok ([5; 5] ++ repeat 6 18).
Proof. reflexivity. Qed.

(** AND and OR are exact when the length is a multiple of the vector width (or one more) *)
Theorem C07_and_aligned : forall w inp io out oo len, (io + len <= length inp)%nat -> (oo + len <= length out)%nat ->
  (w <> 0)%nat -> (w <= len)%nat -> (len mod w <= 1)%nat ->
  exists r, MemAND w inp io out oo len = Ok r /\ length r = length out /\
    (forall i, (i < len)%nat -> nth (oo + i) r 0 = Z.land (nth (io + i) inp 0) (nth (oo + i) out 0)) /\
    (forall i, (i < oo \/ oo + len <= i)%nat -> nth i r 0 = nth i out 0).
Proof. exact c07_and_aligned. Qed.
Print Assumptions C07_and_aligned.
Theorem C07_or_aligned : forall w inp io out oo len, (io + len <= length inp)%nat -> (oo + len <= length out)%nat ->
  (w <> 0)%nat -> (w <= len)%nat -> (len mod w <= 1)%nat ->
  exists r, MemOR w inp io out oo len = Ok r /\ length r = length out /\
    (forall i, (i < len)%nat -> nth (oo + i) r 0 = Z.lor (nth (io + i) inp 0) (nth (oo + i) out 0)) /\
    (forall i, (i < oo \/ oo + len <= i)%nat -> nth i r 0 = nth i out 0).
Proof. exact c07_or_aligned. Qed.
Print Assumptions C07_or_aligned.
(** for every other length the last byte of the range is never touched, whatever the data:
    [len < w] or [len mod w >= 2], or no SIMD and [len >= 2] *)
Theorem C07_and_tail_skipped : forall w inp io out oo len, (io + len <= length inp)%nat -> (oo + len <= length out)%nat ->
  (1 < len)%nat -> (w = 0 \/ len < w \/ 2 <= len mod w)%nat ->
  exists r, MemAND w inp io out oo len = Ok r /\ nth (oo + len - 1) r 0 = nth (oo + len - 1) out 0.
Proof. exact c07_and_skip. Qed.
Print Assumptions C07_and_tail_skipped.
Theorem C07_or_tail_skipped : forall w inp io out oo len, (io + len <= length inp)%nat -> (oo + len <= length out)%nat ->
  (1 < len)%nat -> (w = 0 \/ len < w \/ 2 <= len mod w)%nat ->
  exists r, MemOR w inp io out oo len = Ok r /\ nth (oo + len - 1) r 0 = nth (oo + len - 1) out 0.
Proof. exact c07_or_skip. Qed.
Print Assumptions C07_or_tail_skipped.
Theorem C07_and_refuted : exists w inp out r, length inp = length out /\
  MemAND w inp 0 out 0 (length out) = Ok r /\
  exists i, (i < length out)%nat /\ nth i r 0 <> Z.land (nth i inp 0) (nth i out 0).
Proof. exact c07_and_refuted. Qed.
Print Assumptions C07_and_refuted.
Theorem C07_or_refuted : exists w inp out r, length inp = length out /\
  MemOR w inp 0 out 0 (length out) = Ok r /\
  exists i, (i < length out)%nat /\ nth i r 0 <> Z.lor (nth i inp 0) (nth i out 0).
Proof. exact c07_or_refuted. Qed.
Print Assumptions C07_or_refuted.
(** the portable 128-bit OR computes AND *)
Theorem C07_or128_portable_refuted : exists inp out r, length inp = 16%nat /\ length out = 16%nat /\
  OR128_portable inp 0 out 0 = Ok r /\ nth 0 r 0 <> Z.lor (nth 0 inp 0) (nth 0 out 0).
Proof. exact c07_or128_refuted. Qed.
Print Assumptions C07_or128_portable_refuted.
Example C07_case : MemAND 16 (repeat 6 16) 0 (repeat 3 17) 1 16 = Ok (3 :: repeat 2 16) /\
  MemAND 16 [0; 0] 0 [7; 7] 0 2 = Ok [0; 7].
Proof. split; reflexivity. Qed.
