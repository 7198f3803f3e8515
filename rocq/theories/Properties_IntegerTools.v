(** Properties C01-C05 and the constant-time helpers: CEX/IntegerTools.h *)
From Verif Require Import BaseLemmas Spec_Common Model_IntegerTools Proofs_Common
  Proofs_IntegerTools Proofs_IntegerTools2 ProofsP_IntegerTools.
Open Scope Z_scope.

(** * C01: byte conversions *)
(** writing then reading returns the word, and only the word's window changes *)
Theorem C01_be16_round_trip : forall v out o, 0 <= v < 2 ^ 16 -> (o + 2 <= length out)%nat -> bytes out ->
  exists out', Be16ToBytes v out o = Ok out' /\ written out out' o (slice out' o 2) /\
    BeBytesTo16 out' o = Ok v /\ value_be (slice out' o 2) = v.
Proof. exact c01_be16. Qed.
Print Assumptions C01_be16_round_trip.
Theorem C01_be32_round_trip : forall v out o, 0 <= v < 2 ^ 32 -> (o + 4 <= length out)%nat -> bytes out ->
  exists out', Be32ToBytes v out o = Ok out' /\ written out out' o (slice out' o 4) /\
    BeBytesTo32 out' o = Ok v /\ value_be (slice out' o 4) = v.
Proof. exact c01_be32. Qed.
Print Assumptions C01_be32_round_trip.
Theorem C01_be64_round_trip : forall v out o, 0 <= v < 2 ^ 64 -> (o + 8 <= length out)%nat -> bytes out ->
  exists out', Be64ToBytes v out o = Ok out' /\ written out out' o (slice out' o 8) /\
    BeBytesTo64 out' o = Ok v /\ value_be (slice out' o 8) = v.
Proof. exact c01_be64. Qed.
Print Assumptions C01_be64_round_trip.
Theorem C01_le_round_trip : forall n v out o, 0 <= v < 256 ^ Z.of_nat n -> (o + n <= length out)%nat ->
  exists out', LeToBytes n v out o = Ok out' /\ written out out' o (slice out' o n) /\
    LeBytesTo n out' o = Ok v /\ value_le (slice out' o n) = v.
Proof. exact c01_le. Qed.
Print Assumptions C01_le_round_trip.
(** reading is the positional value of the window *)
Theorem C01_be_read : forall inp o, bytes inp ->
  ((o + 2 <= length inp)%nat -> BeBytesTo16 inp o = Ok (value_be (slice inp o 2))) /\
  ((o + 4 <= length inp)%nat -> BeBytesTo32 inp o = Ok (value_be (slice inp o 4))) /\
  ((o + 8 <= length inp)%nat -> BeBytesTo64 inp o = Ok (value_be (slice inp o 8))).
Proof. exact c01_be_read. Qed.
Print Assumptions C01_be_read.
Theorem C01_le_read_length : forall inp o len, bytes inp -> (0 < len <= 8)%nat -> (o + len <= length inp)%nat ->
  LeBytesToLen 64 inp o len = Ok (value_le (slice inp o len)).
Proof. exact c01_le_read_length. Qed.
Print Assumptions C01_le_read_length.
Example C01_case : Be32ToBytes 0x01020304 [9;9;9;9;9;9] 1 = Ok [9;1;2;3;4;9] /\
  (1 + 4 <= length [9;9;9;9;9;9])%nat /\ bytes [9;9;9;9;9;9].
Proof. repeat split; try (cbn; lia). solve_bytes. Qed.

(** * C02: increments *)
Theorem C02_be_increment : forall out, bytes out -> out <> [] ->
  exists r, BeIncrement8 out = Ok r /\ bytes r /\ length r = length out /\
    value_be r = (value_be out + 1) mod 256 ^ Z.of_nat (length out).
Proof. exact c02_be. Qed.
Print Assumptions C02_be_increment.
Theorem C02_be_increment_range : forall out o len, bytes out -> (0 < len)%nat -> (o + len <= length out)%nat ->
  exists r, BeIncrement8_range out o len = Ok r /\ bytes r /\ written out r o (slice r o len) /\
    value_be (slice r o len) = (value_be (slice out o len) + 1) mod 256 ^ Z.of_nat len.
Proof. exact c02_be_range. Qed.
Print Assumptions C02_be_increment_range.
Theorem C02_le_increment : forall out len, bytes out -> (len <= length out)%nat ->
  exists r, LeIncrement_len out len = Ok r /\ bytes r /\ written out r 0 (slice r 0 len) /\
    value_le (slice r 0 len) = (value_le (slice out 0 len) + 1) mod 256 ^ Z.of_nat len.
Proof. exact c02_le. Qed.
Print Assumptions C02_le_increment.
(** two-word counters of w-bit words *)
Theorem C02_le_increment_words : forall w a b, 0 < w -> 0 <= a < 2 ^ w -> 0 <= b < 2 ^ w ->
  exists a' b', LeIncrementW w [a; b] = Ok [a'; b'] /\
    0 <= a' < 2 ^ w /\ 0 <= b' < 2 ^ w /\
    a' + 2 ^ w * b' = (a + 2 ^ w * b + 1) mod 2 ^ (2 * w).
Proof. exact LeIncrementW_correct. Qed.
Print Assumptions C02_le_increment_words.
Example C02_case : BeIncrement8 [0; 255; 255] = Ok [1; 0; 0] /\ BeIncrement8 [255; 255] = Ok [0; 0].
Proof. split; reflexivity. Qed.

(** * C03: increase by a value *)
(** Exact characterisation: the result is input + value (value truncated to its type) modulo
    256^size if and only if no byte position below the top one sees value byte 0xFF together
    with an incoming carry. *)
Theorem C03_be_increase_exact_iff : forall tsize inp out v, bytes inp -> inp <> [] -> length out = length inp ->
  let n := length inp in let d := v mod 256 ^ Z.of_nat tsize in
  exists r, BeIncrease8 tsize inp out v = Ok r /\ bytes r /\ length r = n /\
    (value_be r = (value_be inp + d) mod 256 ^ Z.of_nat n <->
     ~ exists j : nat, (S j < n)%nat /\ (d / 256 ^ Z.of_nat j) mod 256 = 255 /\
         256 ^ Z.of_nat j <= value_be inp mod 256 ^ Z.of_nat j + d mod 256 ^ Z.of_nat j).
Proof. exact c03_be. Qed.
Print Assumptions C03_be_increase_exact_iff.
Theorem C03_le_increase_exact_iff : forall tsize inp out v, bytes inp -> inp <> [] -> length out = length inp ->
  let n := length inp in let d := v mod 256 ^ Z.of_nat tsize in
  exists r, LeIncrease8 tsize inp out v = Ok r /\ bytes r /\ length r = n /\
    (value_le r = (value_le inp + d) mod 256 ^ Z.of_nat n <->
     ~ exists j : nat, (S j < n)%nat /\ (d / 256 ^ Z.of_nat j) mod 256 = 255 /\
         256 ^ Z.of_nat j <= value_le inp mod 256 ^ Z.of_nat j + d mod 256 ^ Z.of_nat j).
Proof. exact c03_le. Qed.
Print Assumptions C03_le_increase_exact_iff.
(** the full claim is false of the code *)
Theorem C03_be_increase_refuted : exists inp out v r, bytes inp /\ length out = length inp /\ 0 <= v < 2 ^ 32 /\
  BeIncrease8 4 inp out v = Ok r /\
  value_be r <> (value_be inp + v) mod 256 ^ Z.of_nat (length inp).
Proof. exact c03_be_refuted. Qed.
Print Assumptions C03_be_increase_refuted.
Theorem C03_le_increase_refuted : exists inp out v r, bytes inp /\ length out = length inp /\ 0 <= v < 2 ^ 32 /\
  LeIncrease8 4 inp out v = Ok r /\
  value_le r <> (value_le inp + v) mod 256 ^ Z.of_nat (length inp).
Proof. exact c03_le_refuted. Qed.
Print Assumptions C03_le_increase_refuted.
Theorem C03_le_increase_words : forall w a b out n, 0 < w -> 0 <= a < 2 ^ w -> 0 <= b < 2 ^ w ->
  length out = 2%nat -> 0 <= n < 2 ^ w ->
  exists a' b', LeIncreaseW w [a; b] out n = Ok [a'; b'] /\
    0 <= a' < 2 ^ w /\ 0 <= b' < 2 ^ w /\
    a' + 2 ^ w * b' = (a + 2 ^ w * b + n) mod 2 ^ (2 * w).
Proof. exact LeIncreaseW_correct. Qed.
Print Assumptions C03_le_increase_words.
Example C03_case : BeIncrease8 4 [1; 2; 250] [0; 0; 0] 10 = Ok [1; 3; 4] /\
  BeIncrease8 4 [0; 0; 1] [0; 0; 0] 65535 = Ok [0; 0; 0].
Proof. split; reflexivity. Qed.

(** * C04: comparison *)
Theorem C04_compare_iff_equal : forall a ao b bo len, (ao + len <= length a)%nat -> (bo + len <= length b)%nat ->
  bytes a -> bytes b ->
  exists r, Compare a ao b bo len = Ok r /\
    (r = true <-> forall i, (i < len)%nat -> nth (ao + i) a 0 = nth (bo + i) b 0).
Proof. exact c04_compare. Qed.
Print Assumptions C04_compare_iff_equal.
Theorem C04_verify_zero_iff_equal : forall a ao b bo len, (ao + len <= length a)%nat -> (bo + len <= length b)%nat ->
  bytes a -> bytes b ->
  exists r, Verify a ao b bo len = Ok r /\
    (r = 0 <-> forall i, (i < len)%nat -> nth (ao + i) a 0 = nth (bo + i) b 0).
Proof. exact c04_verify. Qed.
Print Assumptions C04_verify_zero_iff_equal.
Example C04_case : Compare [1;2;3] 1 [9;2;3] 1 2 = Ok true /\ Compare [1;2;3] 0 [9;2;3] 0 3 = Ok false.
Proof. split; reflexivity. Qed.

(** * C05: rotations *)
Theorem C05_rotl_bits : forall w v s, 0 <= v < 2 ^ w -> 0 < s < w ->
  exists r, RotL w v s = Ok r /\ 0 <= r < 2 ^ w /\
    forall i, 0 <= i < w -> Z.testbit r i = Z.testbit v ((i - s) mod w).
Proof. exact RotL_bits. Qed.
Print Assumptions C05_rotl_bits.
Theorem C05_rotr_bits : forall w v s, 0 <= v < 2 ^ w -> 0 < s < w ->
  exists r, RotR w v s = Ok r /\ 0 <= r < 2 ^ w /\
    forall i, 0 <= i < w -> Z.testbit r i = Z.testbit v ((i + s) mod w).
Proof. exact RotR_bits. Qed.
Print Assumptions C05_rotr_bits.
Theorem C05_rotr_inverts_rotl : forall w v s, 0 <= v < 2 ^ w -> 0 < s < w ->
  (r <- RotL w v s ;; RotR w r s) = Ok v.
Proof. exact RotR_RotL. Qed.
Print Assumptions C05_rotr_inverts_rotl.
Theorem C05_rotr_is_rotl_complement : forall w v s, 0 < s < w -> RotR w v s = RotL w v (w - s).
Proof. exact RotR_is_RotL. Qed.
Print Assumptions C05_rotr_is_rotl_complement.
(** rotating by 0 or by the width is undefined in the portable branch *)
Theorem C05_rot_by_zero_undefined : forall w v, RotL w v 0 = UB /\ RotL w v w = UB.
Proof. exact c05_rot_zero. Qed.
Print Assumptions C05_rot_by_zero_undefined.
Example C05_case : RotL 32 0x80000001 4 = Ok 0x18 /\ RotR 64 1 1 = Ok (2 ^ 63).
Proof. split; reflexivity. Qed.

(** * C47: constant-time selection helpers; the element width is 2^k bits *)
Theorem C47_expand_mask : forall k x, 0 <= x < 2 ^ (2 ^ Z.of_nat k) ->
  ExpandMask k x = if x =? 0 then 0 else 2 ^ (2 ^ Z.of_nat k) - 1.
Proof. exact ExpandMask_correct. Qed.
Print Assumptions C47_expand_mask.
Theorem C47_predicates : forall k x y, 0 <= x < 2 ^ (2 ^ Z.of_nat k) -> 0 <= y < 2 ^ (2 ^ Z.of_nat k) ->
  let yes := 2 ^ (2 ^ Z.of_nat k) - 1 in
  (IsZero k x = if x =? 0 then yes else 0) /\
  (IsEqual k x y = if x =? y then yes else 0) /\
  (IsLess k x y = if x <? y then yes else 0) /\
  (IsLte k x y = if x <=? y then yes else 0).
Proof. exact c47_predicates. Qed.
Print Assumptions C47_predicates.
Theorem C47_conditional_copy : forall k a b x, 0 <= a < 2 ^ (2 ^ Z.of_nat k) -> 0 <= b < 2 ^ (2 ^ Z.of_nat k) ->
  0 <= x < 2 ^ (2 ^ Z.of_nat k) -> ConditionalCopy1 k x a b = if x =? 0 then b else a.
Proof. exact ConditionalCopy1_correct. Qed.
Print Assumptions C47_conditional_copy.
Theorem C47_cmov : forall inp io out oo len cond, (io + len <= length inp)%nat -> (oo + len <= length out)%nat ->
  bytes inp -> bytes out -> cond = 0 \/ cond = 1 ->
  exists r, CMov inp io out oo len cond = Ok r /\
    (cond = 1 -> written out r oo (slice inp io len)) /\ (cond = 0 -> r = out).
Proof. exact c47_cmov. Qed.
Print Assumptions C47_cmov.
Theorem C47_value_or_zero : forall k p v, 0 <= v < 2 ^ (2 ^ Z.of_nat k) -> 0 <= p < 2 ^ (2 ^ Z.of_nat k) ->
  ValueOrZero k p v = if p =? 0 then 0 else v.
Proof. exact ValueOrZero_correct. Qed.
Print Assumptions C47_value_or_zero.
(** the documented "maximum" and "minimum" selectors do not select the maximum/minimum *)
Theorem C47_cmax_refuted : exists a b, 0 <= a < 2 ^ 32 /\ 0 <= b < 2 ^ 32 /\ CMax 5 a b <> Z.max a b.
Proof. exact c47_cmax. Qed.
Print Assumptions C47_cmax_refuted.
Theorem C47_cmin_refuted : exists a b, 0 <= a < 2 ^ 32 /\ 0 <= b < 2 ^ 32 /\ CMin 5 a b <> Z.min a b.
Proof. exact c47_cmin. Qed.
Print Assumptions C47_cmin_refuted.
(** DiffMask decides equality of byte arrays ... *)
Theorem C47_diffmask_bytes : forall a b len, (len <= length a)%nat -> (len <= length b)%nat -> bytes a -> bytes b ->
  exists d, DiffMask a b len = Ok d /\ (d = 0 <-> firstn len a = firstn len b) /\
     (d = -1 <-> firstn len a <> firstn len b).
Proof. exact DiffMask_bytes. Qed.
Print Assumptions C47_diffmask_bytes.
(** ... but not of 16-bit word arrays, which its type also admits *)
Theorem C47_diffmask_words_refuted : exists a b, Forall (is_word 16) a /\ Forall (is_word 16) b /\
  length a = length b /\ a <> b /\ DiffMask a b (length a) = Ok 0.
Proof. exact c47_diffmask16. Qed.
Print Assumptions C47_diffmask_words_refuted.
Example C47_case : ExpandMask 3 0x40 = 255 /\ CMov [1;2] 0 [7;8] 0 2 1 = Ok [1;2] /\ CMov [1;2] 0 [7;8] 0 2 0 = Ok [7;8].
Proof. repeat split; reflexivity. Qed.

(** * C48: the other integer helpers *)
Theorem C48_shift_left_doubles : forall inp out, bytes inp -> inp <> [] -> length out = length inp ->
  exists r c, ShiftLeft inp out = Ok (r, c) /\ 0 <= c <= 1 /\ length r = length inp /\ bytes r /\
    c * 256 ^ Z.of_nat (length inp) + value_be r = 2 * value_be inp.
Proof. exact c48_shiftleft. Qed.
Print Assumptions C48_shift_left_doubles.
Theorem C48_mod_power_of_two : forall a k, 0 <= k -> ModPowerOf2 a (2 ^ k) = a mod 2 ^ k.
Proof. exact ModPowerOf2_correct. Qed.
Print Assumptions C48_mod_power_of_two.
Theorem C48_crop : forall v n, 0 <= v < 2 ^ 64 -> 0 <= n -> Crop v n = v mod 2 ^ n.
Proof. exact Crop_correct. Qed.
Print Assumptions C48_crop.
Theorem C48_is_power_of_two : forall v, IsPowerOf2 v = true <-> exists k, 0 <= k /\ v = 2 ^ k.
Proof. exact IsPowerOf2_correct. Qed.
Print Assumptions C48_is_power_of_two.
(** Parity is the sum of the 64 bits modulo 2 *)
Theorem C48_parity : forall v, 0 <= v < 2 ^ 64 ->
  Parity v = (sum_upto 64 (fun i => Z.b2z (Z.testbit v (Z.of_nat i)))) mod 2.
Proof. exact c48_parity. Qed.
Print Assumptions C48_parity.
Theorem C48_hex_round_trip : forall inp, bytes inp ->
  (s <- ToHex inp 0 (length inp) ;; FromHex s (length s)) = Ok inp.
Proof. exact hex_round_trip. Qed.
Print Assumptions C48_hex_round_trip.
Example C48_case : ShiftLeft [0x81; 0x80] [0; 0] = Ok ([3; 0], 1) /\ Parity 7 = 1 /\
  ToHex [0xAF; 9] 0 2 = Ok [65; 70; 48; 57].
Proof. repeat split; reflexivity. Qed.
