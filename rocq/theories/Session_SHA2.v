(** Vocabulary for the SHA-2 properties. *)
From Verif Require Import Base Spec_Common Spec_Feed Spec_SHA2 Model_SHA2 Model_SHA2Par.
Open Scope Z_scope.

(** the number the code writes in the 128-bit length field for a message of [n] bytes: when the padding
    takes two blocks, the high word is read after the first of them has been counted *)
Definition code_field (n : Z) : Z :=
  if n mod 128 <? 112 then 8 * n else 8 * n + 2 ^ 64 * ((n + 128) / 2 ^ 61 - n / 2 ^ 61).
Definition sha512_code (m : list Z) : list Z := sha512_with_length (code_field (Z.of_nat (length m))) m.

(** ** parallel mode: [hdr i] is the parameter block of leaf i *)
Definition hdr_ok (rate : nat) (hdr : nat -> list Z) : Prop := forall i, bytes (hdr i) /\ length (hdr i) = rate.
(** [h] is the digest of [m]: whatever the pieces the message comes in and whatever the multiple [c] of the
    minimum size that ParallelBlockSize is set to, Finalize writes [h] and leaves a new object *)
Definition value256 hdr d (m : list Z) (h : list Z) : Prop :=
  exists n0, SHA2256P_new hdr d = Ok n0 /\ length h = 32%nat /\ forall pblk c ps, (0 < c)%nat -> pblk = (c * (d * 64))%nat -> Forall p_ok ps -> joined ps = m ->
  exists o, feed (SHA2256P_Update d pblk) ps n0 = Ok o /\ forall out oo, (oo + 32 <= length out)%nat ->
    exists out', SHA2256P_Finalize hdr d o out oo = Ok (n0, out') /\ written out out' oo h.
Definition value512 hdr d (m : list Z) (h : list Z) : Prop :=
  exists n0, SHA2512P_new hdr d = Ok n0 /\ length h = 64%nat /\ forall pblk c ps, (0 < c)%nat -> pblk = (c * (d * 128))%nat -> Forall p_ok ps -> joined ps = m ->
  exists o, feed (SHA2512P_Update d pblk) ps n0 = Ok o /\ forall out oo, (oo + 64 <= length out)%nat ->
    exists out', SHA2512P_Finalize hdr d o out oo = Ok (n0, out') /\ written out out' oo h.
(** equal lengths and equal blocks j * d + i for i < d / 2; the other blocks are free *)
Definition same_first_half (rate d : nat) (m m' : list Z) : Prop :=
  length m = length m' /\ forall j i, (i < d / 2)%nat -> slice m ((j * d + i) * rate) rate = slice m' ((j * d + i) * rate) rate.
