(** C45 SecureRandom: where the random bytes come from, and the bounded integers.
    The engine is any sequence of bytes [g]; [fuel] bounds the number of raw samples one call may draw. *)
From Verif Require Import BaseLemmas Spec_Random Model_SecureRandom Session_Random Proofs_SecureRandom2 ProofsP_Random.
Open Scope Z_scope.

(** every call history: each call returns what the specification says, from the next bytes of the engine *)
Theorem C45_history : forall fuel g cs, (forall i, is_byte (g i)) -> Forall rcall_ok cs ->
  rhistory fuel g cs SecureRandom_new = Ok (rexpected fuel g cs (0, 0)%nat).
Proof. exact c45_history. Qed.
Print Assumptions C45_history.
(** the integers returned in any history lie in the range asked for *)
Theorem C45_range : forall fuel g cs l i c v, (forall i, is_byte (g i)) -> Forall rcall_ok cs -> rhistory fuel g cs SecureRandom_new = Ok l ->
  nth_error cs i = Some c -> nth_error l i = Some (Int v) -> asked c v.
Proof. exact c45_range. Qed.
Print Assumptions C45_range.
(** no byte of the engine is handed out twice: the answers are windows of its output, one after the other *)
Theorem C45_no_byte_twice : forall g ns, exists starts, length starts = length ns /\
  requests g ns SecureRandom_new = Ok (map (fun an => source g (fst an) (snd an)) (combine starts (map snd ns))) /\ in_order 0 (combine starts (map snd ns)).
Proof. exact c45_no_byte_twice. Qed.
Print Assumptions C45_no_byte_twice.
(** unsigned types: each of the [m] values comes from the same number of raw samples *)
Theorem C45_unsigned_uniform : forall w m r, size_ok w -> 1 <= m <= top false w -> 0 <= r < m -> has_card (gives false w m r) (Z.to_nat (top false w / m)).
Proof. exact c45_unsigned. Qed.
Print Assumptions C45_unsigned_uniform.
(** finding: signed types also accept the negative multiples of the range, so zero (the minimum) is about twice as likely as any other value *)
Theorem C45_signed_uniform_refuted : forall w m, size_ok w -> 1 <= m <= top true w ->
  (forall r, 0 < r < m -> has_card (gives true w m r) (Z.to_nat (top true w / m))) /\
  has_card (gives true w m 0) (Z.to_nat (top true w / m) + Z.to_nat ((top true w + 1) / m)).
Proof. exact c45_signed. Qed.
Print Assumptions C45_signed_uniform_refuted.
(** finding: NextInt16(Maximum, Minimum) with 2^15 or more values never returns the maximum, and with exactly 2^15 values always the minimum *)
Theorem C45_int16_wide_refuted : forall fuel g mx mn s v s', in_type true 2 mx -> in_type true 2 mn -> 1 <= mx -> 2 ^ 15 <= mx - mn + 1 ->
  NextRange fuel g true 2 mx mn s = Ok (Some v, s') -> mn <= v < mx /\ (mx - mn + 1 = 2 ^ 15 -> v = mn) /\ v < mn + (2 ^ 16 - (mx - mn + 1)).
Proof. exact wrapped. Qed.
Print Assumptions C45_int16_wide_refuted.
(** finding: the whole range of a type is a division by zero ... *)
Theorem C45_whole_range_refuted : forall fuel g s,
  (forall w mx, size_ok w -> mx = top false w -> NextRange fuel g false w mx 0 s = UB) /\ NextRange fuel g true 2 32767 (- 32768) s = UB.
Proof. exact (fun fuel g s => conj (fun w mx => whole_unsigned fuel g w mx s) (whole_int16 fuel g s)). Qed.
Print Assumptions C45_whole_range_refuted.
(** ... and 2^31 (2^63) values or more of a signed type are a signed overflow *)
Theorem C45_wide_range_refuted : forall fuel g w mx mn s, (w = 4%nat \/ w = 8%nat) -> 1 <= mx -> mn <= mx -> top true w < mx - mn + 1 ->
  NextRange fuel g true w mx mn s = UB.
Proof. exact too_wide. Qed.
Print Assumptions C45_wide_range_refuted.

(** the hypotheses are met: an engine and a history with a refill, a discarded rest, rejected samples and an error *)
Definition eng (i : nat) : Z := Z.of_nat (7 * i + 3) mod 256.
Definition hist : list rcall :=
  [CGenerate false (zeros 4) 1 3; CNext true 2; CNextMax false 2 10; CNextMax true 4 0; CNextRange true 2 5 (-5); CFill false 2 [1; 2] 1 2; CFill true 4 [1; 2; 3] 1 2].
Example C45_case :
  (forall i, is_byte (eng i)) /\ Forall rcall_ok hist /\
  rhistory 50 eng hist SecureRandom_new = Ok [Array [0; 3; 10; 17]; Int 7960; Int 8; Failed IllegalOperation; Int 4; Failed InvalidParam; Array [1; 1464879426; 1936483678]] /\
  requests eng [(true, 3%nat); (false, 1022%nat); (false, 2%nat)] SecureRandom_new = Ok [source eng 0 3; source eng 1024 1022; source eng 2046 2] /\
  has_card (gives false 2 40000 39999) 1 /\ has_card (gives true 2 30000 0) 2 /\
  NextRange 5 (fun _ => 128) true 2 32767 0 SecureRandom_new = Ok (None, Rnd (zeros 10 ++ repeat 128 1014) 10 1) /\
  NextRange 5 (fun i => if Nat.odd i then 128 else 0) true 2 32767 0 SecureRandom_new = Ok (Some 0, Rnd (zeros 2 ++ map (fun i => if Nat.odd i then 128 else 0) (seq 2 1022)) 2 1).
Proof.
  split; [intros i; apply Z.mod_pos_bound; lia|].
  split. { unfold hist, rcall_ok, size_ok, in_type, top. repeat constructor; cbn; auto; lia. }
  split; [vm_compute; reflexivity|]. split; [vm_compute; reflexivity|].
  split. { apply (c45_unsigned 2 40000 39999); [left; reflexivity | cbn; lia | lia]. }
  split. { apply (c45_signed 2 30000); [left; reflexivity | cbn; lia]. }
  split; vm_compute; reflexivity.
Qed.
