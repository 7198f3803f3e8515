(** The mathematics of Kyber: the ring Z_q[X]/(X^256 + 1), the transform, rounding, and the error of decryption. *)
From Verif Require Import Base Spec_Keccak.
Open Scope Z_scope.

Definition Q : Z := 3329.
(** sum of [f i] for i < n *)
Fixpoint zsum (n : nat) (f : nat -> Z) : Z := match n with O => 0 | S k => zsum k f + f k end.

(** * Polynomials: lists of 256 coefficients, read modulo Q *)
Definition is_poly (p : list Z) : Prop := length p = 256%nat.
Definition coef (p : list Z) (i : nat) : Z := nth i p 0.
(** equal modulo Q, coefficient by coefficient *)
Definition same (a b : list Z) : Prop := length a = length b /\ forall i, coef a i mod Q = coef b i mod Q.
Definition poly_of (f : nat -> Z) : list Z := map f (seq 0 256).
Definition zero_poly : list Z := zeros 256.
Definition add (a b : list Z) : list Z := poly_of (fun i => coef a i + coef b i).
Definition sub (a b : list Z) : list Z := poly_of (fun i => coef a i - coef b i).
(** multiplication in Z[X]/(X^256 + 1), by the schoolbook formula: X^256 = -1 *)
Definition mul (f g : list Z) : list Z :=
  poly_of (fun n => zsum 256 (fun i => coef f i * (if (i <=? n)%nat then coef g (n - i) else - coef g (256 + n - i)))).
(** inner product of two vectors of polynomials, matrix times vector, transpose *)
Fixpoint dot (a b : list (list Z)) : list Z :=
  match a, b with x :: a, y :: b => add (mul x y) (dot a b) | _, _ => zero_poly end.
Definition mat_vec (A : list (list (list Z))) (v : list (list Z)) : list (list Z) := map (fun r => dot r v) A.
Definition vec_add (a b : list (list Z)) : list (list Z) := map (fun p => add (fst p) (snd p)) (combine a b).
Definition vec_sub (a b : list (list Z)) : list (list Z) := map (fun p => sub (fst p) (snd p)) (combine a b).
Definition same_vec (a b : list (list Z)) : Prop := Forall2 same a b.
Definition transpose (K : nat) (A : list (list (list Z))) : list (list (list Z)) :=
  map (fun j => map (fun r => nth j r zero_poly) A) (seq 0 K).

(** * The transform: the values modulo X^2 - gamma_j, gamma_j = 17^(2 rev(j) + 1), rev = reversal of 7 bits *)
Fixpoint rev_bits (n : nat) (j : nat) : nat := match n with O => O | S k => (2 ^ k * (j mod 2) + rev_bits k (j / 2))%nat end.
Definition gamma (j : nat) : Z := 17 ^ Z.of_nat (2 * rev_bits 7 j + 1).
Definition ntt (p : list Z) : list Z :=
  poly_of (fun n => zsum 128 (fun i => coef p (2 * i + n mod 2) * gamma (n / 2) ^ Z.of_nat i)).

(** * Rounding: Compress_d (x) = nearest integer to 2^d x / Q, modulo 2^d; Decompress_d (y) = nearest integer to Q y / 2^d *)
Definition compress (d : Z) (x : Z) : Z := ((2 * 2 ^ d * (x mod Q) + Q) / (2 * Q)) mod 2 ^ d.
Definition decompress (d : Z) (y : Z) : Z := (2 * Q * y + 2 ^ d) / (2 * 2 ^ d).
Definition rounded (d : Z) (p : list Z) : list Z := map (fun x => decompress d (compress d x)) p.
(** a message of 32 bytes as a polynomial: bit i of the message times (Q + 1) / 2 *)
Definition msg_bit_at (m : list Z) (i : nat) : Z := (nth (i / 8) m 0 / 2 ^ Z.of_nat (i mod 8)) mod 2.
Definition msg_poly (m : list Z) : list Z := poly_of (fun i => 1665 * msg_bit_at m i).

(** * Noise: coefficient i of the polynomial made from a byte string: the number of ones among its bits 2 eta i ... 2 eta i + eta - 1
    minus the number of ones among the next eta *)
Definition bit_at (b : list Z) (i : nat) : Z := (nth (i / 8) b 0 / 2 ^ Z.of_nat (i mod 8)) mod 2.
Definition cbd (eta : nat) (b : list Z) : list Z :=
  poly_of (fun i => zsum eta (fun k => bit_at b (2 * eta * i + k)) - zsum eta (fun k => bit_at b (2 * eta * i + eta + k))).
Definition noise (eta : nat) (seed : list Z) (nonce : nat) : list Z := cbd eta (shake 24 136 (seed ++ [Z.of_nat nonce]) (64 * eta)).
Definition noises (eta : nat) (seed : list Z) (first n : nat) : list (list Z) := map (noise eta seed) (seq first n).

(** * Encryption without the transform.  [A]: the public matrix; s, e: secret and error of the key; r, e1, e2: secret and
    errors of the encryption; m: the message as a polynomial; du, dv: bits kept of each coefficient *)
Record pke := PKE { pA : list (list (list Z)); ps : list (list Z); pe : list (list Z);
                    pr : list (list Z); pe1 : list (list Z); pe2 : list Z; pm : list Z; pdu : Z; pdv : Z }.
Definition pke_t (x : pke) : list (list Z) := vec_add (mat_vec (pA x) (ps x)) (pe x).
Definition pke_u (x : pke) : list (list Z) := vec_add (mat_vec (transpose (length (ps x)) (pA x)) (pr x)) (pe1 x).
Definition pke_v (x : pke) : list Z := add (add (dot (pke_t x) (pr x)) (pe2 x)) (pm x).
(** what is lost by rounding the ciphertext *)
Definition lost_u (x : pke) : list (list Z) := map (fun u => sub (rounded (pdu x) u) u) (pke_u x).
Definition lost_v (x : pke) : list Z := sub (rounded (pdv x) (pke_v x)) (pke_v x).
(** the error of decryption: e . r + e2 + lost_v - s . (e1 + lost_u) *)
Definition error (x : pke) : list Z :=
  sub (add (add (dot (pe x) (pr x)) (pe2 x)) (lost_v x)) (dot (ps x) (vec_add (pe1 x) (lost_u x))).
(** every coefficient is, modulo Q, less than Q / 4 = 832.25 in absolute value (832 itself is too much for a bit that is 1) *)
Definition small (p : list Z) : Prop := forall i, (i < 256)%nat -> exists x, -832 <= x <= 831 /\ coef p i mod Q = x mod Q.

(** * Sampling of the matrix: two 12-bit values from every three bytes, and those below Q are kept *)
Definition two12 (b : list Z) : list Z := [nth 0 b 0 + 256 * (nth 1 b 0 mod 16); nth 1 b 0 / 16 + 16 * nth 2 b 0].
Definition accepted (b : list Z) : list Z := filter (fun x => x <? Q) (concat (map two12 (chunks 3 b))).
Definition xof_bytes (seed : list Z) (x y n : nat) : list Z := shake 24 168 (seed ++ [Z.of_nat x; Z.of_nat y]) n.
(** the polynomial for (x, y): the first 256 values kept from the output stream, of which enough blocks are read *)
Definition sampled (seed : list Z) (x y : nat) (p : list Z) : Prop :=
  exists n, (256 <= length (accepted (xof_bytes seed x y (168 * n))))%nat /\ p = firstn 256 (accepted (xof_bytes seed x y (168 * n))).
