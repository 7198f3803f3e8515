(** FIPS 180-4, sections 3.2, 4.1, 4.2, 5.1, 5.2, 5.3 and 6.2/6.4.  No model definition is used here. *)
From Verif Require Import Base.
Open Scope Z_scope.

(** 3.2: operations on w-bit words *)
Definition ADD (w x y : Z) : Z := (x + y) mod 2 ^ w.
Definition SHR (n x : Z) : Z := Z.shiftr x n.
Definition ROTR (w n x : Z) : Z := Z.lor (Z.shiftr x n) ((Z.shiftl x (w - n)) mod 2 ^ w).
Definition NOT (w x : Z) : Z := (- x - 1) mod 2 ^ w.

(** 4.1.2, 4.1.3 *)
Definition Ch (w x y z : Z) : Z := Z.lxor (Z.land x y) (Z.land (NOT w x) z).
Definition Maj (x y z : Z) : Z := Z.lxor (Z.lxor (Z.land x y) (Z.land x z)) (Z.land y z).
Definition Sum0_256 (x : Z) : Z := Z.lxor (Z.lxor (ROTR 32 2 x) (ROTR 32 13 x)) (ROTR 32 22 x).
Definition Sum1_256 (x : Z) : Z := Z.lxor (Z.lxor (ROTR 32 6 x) (ROTR 32 11 x)) (ROTR 32 25 x).
Definition sig0_256 (x : Z) : Z := Z.lxor (Z.lxor (ROTR 32 7 x) (ROTR 32 18 x)) (SHR 3 x).
Definition sig1_256 (x : Z) : Z := Z.lxor (Z.lxor (ROTR 32 17 x) (ROTR 32 19 x)) (SHR 10 x).
Definition Sum0_512 (x : Z) : Z := Z.lxor (Z.lxor (ROTR 64 28 x) (ROTR 64 34 x)) (ROTR 64 39 x).
Definition Sum1_512 (x : Z) : Z := Z.lxor (Z.lxor (ROTR 64 14 x) (ROTR 64 18 x)) (ROTR 64 41 x).
Definition sig0_512 (x : Z) : Z := Z.lxor (Z.lxor (ROTR 64 1 x) (ROTR 64 8 x)) (SHR 7 x).
Definition sig1_512 (x : Z) : Z := Z.lxor (Z.lxor (ROTR 64 19 x) (ROTR 64 61 x)) (SHR 6 x).

(** 4.2.2, 4.2.3, 5.3: the constants are the first w bits of the fractional parts of the
    cube roots of the first 64 / 80 primes and of the square roots of the first 8 primes *)
Definition prime_b (p : Z) : bool :=   (* no divisor d >= 2 with d * d <= p; used for p < 22 * 22 *)
  forallb (fun d => (p <? d * d) || negb (p mod d =? 0)) (map Z.of_nat (seq 2 20)).
Definition primes (count upto : nat) : list Z := firstn count (filter prime_b (map Z.of_nat (seq 2 upto))).
(** the largest x < 2^n with x^3 <= v, bit by bit *)
Fixpoint cbrt_bits (n : nat) (x v : Z) : Z :=
  match n with
  | O => x
  | S k => let y := x + 2 ^ Z.of_nat k in cbrt_bits k (if y * y * y <=? v then y else x) v
  end.
Definition frac_cbrt (w : Z) (p : Z) : Z := cbrt_bits (Z.to_nat w + 4) 0 (p * 2 ^ (3 * w)) mod 2 ^ w.
Definition frac_sqrt (w : Z) (p : Z) : Z := Z.sqrt (p * 2 ^ (2 * w)) mod 2 ^ w.
Definition K256 : list Z := map (frac_cbrt 32) (primes 64 400).
Definition K512 : list Z := map (frac_cbrt 64) (primes 80 450).
Definition H256 : list Z := map (frac_sqrt 32) (primes 8 30).
Definition H512 : list Z := map (frac_sqrt 64) (primes 8 30).

Section fips.
Variables (w : Z) (Sum0 Sum1 sig0 sig1 : Z -> Z) (Ks : list Z).
(** 6.2.2 step 1: the schedule W_0 .. W_{rounds-1} grows from the 16 message words *)
Definition next_W (ws : list Z) : Z :=
  let t := length ws in
  let W k := nth (t - k) ws 0 in
  ADD w (ADD w (ADD w (sig1 (W 2%nat)) (W 7%nat)) (sig0 (W 15%nat))) (W 16%nat).
Definition schedule (rounds : nat) (m : list Z) : list Z := Nat.iter (rounds - 16) (fun ws => ws ++ [next_W ws]) m.
(** 6.2.2 step 3 *)
Definition sha2_round (s : list Z) (kw : Z * Z) : list Z :=
  match s with
  | [a; b; c; d; e; f; g; h] =>
    let T1 := ADD w (ADD w (ADD w (ADD w h (Sum1 e)) (Ch w e f g)) (fst kw)) (snd kw) in
    let T2 := ADD w (Sum0 a) (Maj a b c) in
    [ADD w T1 T2; a; b; c; ADD w d T1; e; f; g]
  | _ => s
  end.
(** 6.2.2 step 4: the compression function on a chaining value and 16 message words *)
Definition sha2_compress (h m : list Z) : list Z :=
  map (fun p => ADD w (fst p) (snd p)) (combine h (fold_left sha2_round (combine Ks (schedule (length Ks) m)) h)).
End fips.

Definition compress256 : list Z -> list Z -> list Z := sha2_compress 32 Sum0_256 Sum1_256 sig0_256 sig1_256 K256.
Definition compress512 : list Z -> list Z -> list Z := sha2_compress 64 Sum0_512 Sum1_512 sig0_512 sig1_512 K512.

(** 5.2: a block of bytes as words, most significant byte first *)
Definition be_words (n : nat) (b : list Z) : list Z := map be_val (chunks n b).
(** 5.1: the padded message: 0x80, the smallest number of zero bytes, the bit length *)
Definition pad_zeros (rate lenb n : nat) : nat := ((rate - (n + 1 + lenb) mod rate) mod rate)%nat.
Definition sha2_pad (rate lenb : nat) (m : list Z) : list Z :=
  m ++ [128] ++ zeros (pad_zeros rate lenb (length m)) ++ be_bytes lenb (8 * Z.of_nat (length m)).
(** 6.2.2, 6.4.2: the iterated hash of a byte string for a compression function [F] on byte blocks *)
Definition merkle (rate lenb : nat) (F : list Z -> list Z -> list Z) (h0 m : list Z) : list Z :=
  fold_left F (chunks rate (sha2_pad rate lenb m)) h0.
Definition words_out (n : nat) (h : list Z) : list Z := concat (map (be_bytes n) h).

Definition sha256 (m : list Z) : list Z := words_out 4 (merkle 64 8 (fun h b => compress256 h (be_words 4 b)) H256 m).
Definition sha512 (m : list Z) : list Z := words_out 8 (merkle 128 16 (fun h b => compress512 h (be_words 8 b)) H512 m).
(** 5.3.4, 6.5: SHA-384 uses the square roots of the ninth to sixteenth primes and six of the eight words *)
Definition H384 : list Z := map (frac_sqrt 64) (skipn 8 (primes 16 60)).
Definition sha384 (m : list Z) : list Z := words_out 8 (firstn 6 (merkle 128 16 (fun h b => compress512 h (be_words 8 b)) H384 m)).

(** SHA-512 with a given number in the length field instead of 8 * length *)
Definition sha512_with_length (f : Z) (m : list Z) : list Z :=
  words_out 8 (fold_left (fun h b => compress512 h (be_words 8 b)) (chunks 128 (m ++ [128] ++ zeros (pad_zeros 128 16 (length m)) ++ be_bytes 16 f)) H512).

(** the chaining value of leaf [i] of [d]: a header block, then blocks i, i + d, i + 2d, ... of the message *)
Definition leaf_value (rate : nat) (F : list Z -> list Z -> list Z) (h0 : list Z) (hdr : nat -> list Z) (d : nat) (m : list Z) (i : nat) : list Z :=
  fold_left F (map (fun j => slice m ((j * d + i) * rate) rate) (seq 0 (length m / (d * rate)))) (F h0 (hdr i)).
