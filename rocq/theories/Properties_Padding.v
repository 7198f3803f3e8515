(** Properties C08-C11: CEX/PKCS7.cpp, X923.cpp, ESP.cpp, ZeroOne.cpp.
    [Z.of_nat len < 2 ^ 64] says that the size fits a size_t. *)
From Verif Require Import BaseLemmas Spec_Common Model_Padding Proofs_Padding ProofsP_Padding.
Open Scope Z_scope.

(** A block [inp] of which [len] bytes are used, payload in the first [o]; [lo] is where the
    caller says the block starts when stripping. *)
Theorem C08_pkcs7_round_trip : forall inp lo o len, bytes inp -> (lo + 2 <= len)%nat -> (lo <= o < len)%nat ->
  (len - o <= 255)%nat ->
  (len <= length inp)%nat -> Z.of_nat len < 2 ^ 64 ->
  exists out, PKCS7_AddPadding inp o len = Ok out /\
    length out = length inp /\ firstn o out = firstn o inp /\ skipn len out = skipn len inp /\
    PKCS7_GetBlockLength_range out lo len = Ok (Z.of_nat o).
Proof. exact c_pkcs7_round_trip. Qed.
Print Assumptions C08_pkcs7_round_trip.
Theorem C08_pkcs7_block_round_trip : forall inp o, bytes inp -> (2 <= length inp)%nat -> (o < length inp)%nat ->
  (length inp - o <= 255)%nat ->
  Z.of_nat (length inp) < 2 ^ 64 ->
  exists out, PKCS7_AddPadding inp o (length inp) = Ok out /\ firstn o out = firstn o inp /\
    PKCS7_GetBlockLength out = Ok (Z.of_nat o).
Proof. exact c_pkcs7_block. Qed.
Print Assumptions C08_pkcs7_block_round_trip.
Example C08_pkcs7_case : PKCS7_AddPadding [9; 3; 3; 0; 0; 0] 3 6 = Ok [9; 3; 3; 3; 3; 3] /\
  PKCS7_GetBlockLength [9; 3; 3; 3; 3; 3] = Ok 3.
Proof. split; reflexivity. Qed.

(** A block [inp] of which [len] bytes are used, payload in the first [o]; [lo] is where the
    caller says the block starts when stripping. *)
Theorem C09_x923_round_trip : forall inp lo o len, bytes inp -> (lo + 2 <= len)%nat -> (lo <= o < len)%nat ->
  (len - o <= 255)%nat ->
  (len <= length inp)%nat -> Z.of_nat len < 2 ^ 64 ->
  exists out, X923_AddPadding inp o len = Ok out /\
    length out = length inp /\ firstn o out = firstn o inp /\ skipn len out = skipn len inp /\
    X923_GetBlockLength_range out lo len = Ok (Z.of_nat o).
Proof. exact c_x923_round_trip. Qed.
Print Assumptions C09_x923_round_trip.
Theorem C09_x923_block_round_trip : forall inp o, bytes inp -> (2 <= length inp)%nat -> (o < length inp)%nat ->
  (length inp - o <= 255)%nat ->
  Z.of_nat (length inp) < 2 ^ 64 ->
  exists out, X923_AddPadding inp o (length inp) = Ok out /\ firstn o out = firstn o inp /\
    X923_GetBlockLength out = Ok (Z.of_nat o).
Proof. exact c_x923_block. Qed.
Print Assumptions C09_x923_block_round_trip.
Example C09_x923_case : X923_AddPadding [9; 0; 7; 1; 1; 1] 3 6 = Ok [9; 0; 7; 0; 0; 3] /\
  X923_GetBlockLength [9; 0; 7; 0; 0; 3] = Ok 3.
Proof. split; reflexivity. Qed.

(** A block [inp] of which [len] bytes are used, payload in the first [o]; [lo] is where the
    caller says the block starts when stripping. *)
Theorem C10_esp_round_trip : forall inp lo o len, bytes inp -> (lo <= o < len)%nat ->
  (len - o <= 255)%nat ->
  (len <= length inp)%nat -> Z.of_nat len < 2 ^ 64 ->
  exists out, ESP_AddPadding inp o len = Ok out /\
    length out = length inp /\ firstn o out = firstn o inp /\ skipn len out = skipn len inp /\
    ESP_GetBlockLength_range out lo len = Ok (Z.of_nat o).
Proof. exact c_esp_round_trip. Qed.
Print Assumptions C10_esp_round_trip.
Theorem C10_esp_block_round_trip : forall inp o, bytes inp -> (o < length inp)%nat ->
  (length inp - o <= 255)%nat ->
  Z.of_nat (length inp) < 2 ^ 64 ->
  exists out, ESP_AddPadding inp o (length inp) = Ok out /\ firstn o out = firstn o inp /\
    ESP_GetBlockLength out = Ok (Z.of_nat o).
Proof. exact c_esp_block. Qed.
Print Assumptions C10_esp_block_round_trip.
Example C10_esp_case : ESP_AddPadding [9; 0; 7; 0; 0; 0] 3 6 = Ok [9; 0; 7; 1; 2; 3] /\
  ESP_GetBlockLength [9; 0; 7; 1; 2; 3] = Ok 3.
Proof. split; reflexivity. Qed.

(** A block [inp] of which [len] bytes are used, payload in the first [o]; [lo] is where the
    caller says the block starts when stripping. *)
Theorem C10_zeroone_round_trip : forall inp lo o len, bytes inp -> (lo <= o < len)%nat ->
  (len <= length inp)%nat -> Z.of_nat len < 2 ^ 64 ->
  exists out, ZeroOne_AddPadding inp o len = Ok out /\
    length out = length inp /\ firstn o out = firstn o inp /\ skipn len out = skipn len inp /\
    ZeroOne_GetBlockLength_range out lo len = Ok (Z.of_nat o).
Proof. exact c_zeroone_round_trip. Qed.
Print Assumptions C10_zeroone_round_trip.
Theorem C10_zeroone_block_round_trip : forall inp o, bytes inp -> (o < length inp)%nat ->
  Z.of_nat (length inp) < 2 ^ 64 ->
  exists out, ZeroOne_AddPadding inp o (length inp) = Ok out /\ firstn o out = firstn o inp /\
    ZeroOne_GetBlockLength out = Ok (Z.of_nat o).
Proof. exact c_zeroone_block. Qed.
Print Assumptions C10_zeroone_block_round_trip.
Example C10_zeroone_case : ZeroOne_AddPadding [9; 128; 0; 1; 1; 1] 3 6 = Ok [9; 128; 0; 128; 0; 0] /\
  ZeroOne_GetBlockLength [9; 128; 0; 128; 0; 0] = Ok 3.
Proof. split; reflexivity. Qed.

(** C11: which blocks are accepted. [r = len] means "no padding found". *)
(** PKCS7: accepted exactly when the last byte p is at most the size and every pad byte except
    the one at the range's first position equals p *)
Theorem C11_pkcs7_accepts_iff : forall inp o len, bytes inp -> (o + 2 <= len)%nat -> (len <= length inp)%nat ->
  Z.of_nat len < 2 ^ 64 ->
  let p := nth (len - 1) inp 0 in
  let valid := p <= Z.of_nat len /\
    forall i, (o < i < len - 1)%nat -> Z.of_nat len - p <= Z.of_nat i -> nth i inp 0 = p in
  exists r, PKCS7_GetBlockLength_range inp o len = Ok r /\
    (valid -> r = Z.of_nat len - p) /\ (~ valid -> r = Z.of_nat len).
Proof. exact PKCS7_spec. Qed.
Print Assumptions C11_pkcs7_accepts_iff.
Theorem C11_x923_accepts_iff : forall inp o len, bytes inp -> (o + 2 <= len)%nat -> (len <= length inp)%nat ->
  Z.of_nat len < 2 ^ 64 ->
  let p := nth (len - 1) inp 0 in
  let valid := p <= Z.of_nat len /\
    forall i, (o < i < len - 1)%nat -> Z.of_nat len - p <= Z.of_nat i -> nth i inp 0 = 0 in
  exists r, X923_GetBlockLength_range inp o len = Ok r /\
    (valid -> r = Z.of_nat len - p) /\ (~ valid -> r = Z.of_nat len).
Proof. exact X923_spec. Qed.
Print Assumptions C11_x923_accepts_iff.
(** ESP checks every pad byte: each is its successor minus one (modulo 256), down to the first *)
Theorem C11_esp_accepts_iff : forall inp o len, bytes inp -> (o + 1 <= len)%nat -> (len <= length inp)%nat ->
  Z.of_nat len < 2 ^ 64 ->
  let p := nth (len - 1) inp 0 in
  let valid := p <= Z.of_nat len /\
    forall i, (o < i <= len - 1)%nat -> Z.of_nat len - p < Z.of_nat i -> nth (i - 1) inp 0 = (nth i inp 0 - 1) mod 256 in
  exists r, ESP_GetBlockLength_range inp o len = Ok r /\
    (valid -> r = Z.of_nat len - p) /\ (~ valid -> r = Z.of_nat len).
Proof. exact ESP_spec. Qed.
Print Assumptions C11_esp_accepts_iff.
(** ZeroOne: the position of the 0x80 that only zeros follow, or the whole length *)
Theorem C11_zeroone_accepts_iff : forall inp o len, bytes inp -> (o <= len)%nat -> (1 <= len)%nat -> (len <= length inp)%nat ->
  Z.of_nat len < 2 ^ 64 ->
  let marker k := (k < len)%nat /\ nth k inp 0 = 128 /\ forall i, (k < i < len)%nat -> nth i inp 0 = 0 in
  exists r, ZeroOne_GetBlockLength_range inp o len = Ok r /\
    (forall k, (o <= k)%nat -> marker k -> r = Z.of_nat k) /\
    ((forall k, (o <= k)%nat -> ~ marker k) -> r = Z.of_nat len).
Proof. exact ZeroOne_spec. Qed.
Print Assumptions C11_zeroone_accepts_iff.
(** consequence: outside the unchecked first position, an accepted block really ends in that padding,
    and the reported length never exceeds the block *)
Theorem C11_pkcs7_sound : forall inp r, bytes inp -> (2 <= length inp)%nat -> Z.of_nat (length inp) < 2 ^ 64 ->
  PKCS7_GetBlockLength inp = Ok r -> 0 <= r <= Z.of_nat (length inp) /\
  (r < Z.of_nat (length inp) ->
   forall i, (0 < i < length inp)%nat -> r <= Z.of_nat i -> nth i inp 0 = Z.of_nat (length inp) - r).
Proof. exact c11_pkcs7_sound. Qed.
Print Assumptions C11_pkcs7_sound.
Theorem C11_x923_sound : forall inp r, bytes inp -> (2 <= length inp)%nat -> Z.of_nat (length inp) < 2 ^ 64 ->
  X923_GetBlockLength inp = Ok r -> 0 <= r <= Z.of_nat (length inp) /\
  (r < Z.of_nat (length inp) -> nth (length inp - 1) inp 0 = Z.of_nat (length inp) - r /\
   forall i, (0 < i < length inp - 1)%nat -> r <= Z.of_nat i -> nth i inp 0 = 0).
Proof. exact c11_x923_sound. Qed.
Print Assumptions C11_x923_sound.
Theorem C11_esp_sound : forall inp r, bytes inp -> (1 <= length inp)%nat -> Z.of_nat (length inp) < 2 ^ 64 ->
  ESP_GetBlockLength inp = Ok r -> 0 <= r <= Z.of_nat (length inp) /\
  (r < Z.of_nat (length inp) ->
   forall i, (i < length inp)%nat -> r <= Z.of_nat i -> nth i inp 0 = Z.of_nat i - r + 1).
Proof. exact c11_esp_sound. Qed.
Print Assumptions C11_esp_sound.
(** the first position is never compared: a malformed full-padding block is accepted *)
Theorem C11_pkcs7_first_byte_refuted : exists inp, bytes inp /\ length inp = 3%nat /\
  nth 0 inp 0 <> nth 2 inp 0 /\ PKCS7_GetBlockLength inp = Ok 0.
Proof. exact c11_pkcs7_refuted. Qed.
Print Assumptions C11_pkcs7_first_byte_refuted.
Theorem C11_x923_first_byte_refuted : exists inp, bytes inp /\ length inp = 3%nat /\
  nth 0 inp 0 <> 0 /\ X923_GetBlockLength inp = Ok 0.
Proof. exact c11_x923_refuted. Qed.
Print Assumptions C11_x923_first_byte_refuted.
(** blocks of fewer than two bytes: the counter [size - 2] underflows *)
Theorem C11_short_block_ub : forall inp, (length inp < 2)%nat ->
  PKCS7_GetBlockLength inp = UB /\ X923_GetBlockLength inp = UB.
Proof. exact c11_short. Qed.
Print Assumptions C11_short_block_ub.
Example C11_case : PKCS7_GetBlockLength [1; 2; 9; 3; 3] = Ok 5 /\ X923_GetBlockLength [1; 2; 9; 0; 3] = Ok 5 /\
  ESP_GetBlockLength [1; 2; 1; 7; 3] = Ok 5 /\ ZeroOne_GetBlockLength [1; 2; 128; 0; 1] = Ok 5.
Proof. repeat split; reflexivity. Qed.
