(** GF(2^128), GHASH and GCM as in NIST SP 800-38D, on integers read as polynomials over GF(2).
    Nothing here mentions a model definition. *)
From Verif Require Import Base Spec_Common Spec_Modes.
Open Scope Z_scope.

(** bit i of an integer is the coefficient of x^i; addition is [Z.lxor].
    The product of [a] with the [n] low coefficients of [b]: *)
Definition gf2_mul (n : nat) (a b : Z) : Z :=
  fold_right Z.lxor 0 (map (fun i => if Z.testbit b (Z.of_nat i) then Z.shiftl a (Z.of_nat i) else 0) (seq 0 n)).
(** x^128 + x^7 + x^2 + x + 1 *)
Definition gcm_modulus : Z := 2 ^ 128 + 2 ^ 7 + 2 ^ 2 + 2 ^ 1 + 2 ^ 0.
(** long division of a polynomial of degree < 256 *)
Definition gf_reduce (v : Z) : Z :=
  fold_right (fun i v => if Z.testbit v (128 + Z.of_nat i) then Z.lxor v (Z.shiftl gcm_modulus (Z.of_nat i)) else v) v (seq 0 128).
(** multiplication in GF(2)[x]/(x^128 + x^7 + x^2 + x + 1) *)
Definition gf_mul (a b : Z) : Z := gf_reduce (gf2_mul 128 a b).

(** the polynomial of a 16-byte block: the leftmost bit (most significant bit of the first byte) is
    the coefficient of x^0 *)
Definition poly (b : list Z) : Z :=
  fold_right Z.lor 0 (map (fun i => if Z.testbit (nth (i / 8) b 0) (7 - Z.of_nat (i mod 8)) then 2 ^ Z.of_nat i else 0) (seq 0 128)).
Definition block (p : Z) : list Z :=
  map (fun k => fold_right Z.lor 0 (map (fun j => if Z.testbit p (Z.of_nat (8 * k + j)) then 2 ^ (7 - Z.of_nat j) else 0) (seq 0 8))) (seq 0 16).
(** the product of two blocks *)
Definition gmul (h x : list Z) : list Z := block (gf_mul (poly h) (poly x)).

(** GHASH of a list of blocks under the hash key [h] *)
Definition ghash_from (h : list Z) (y : list Z) (bs : list (list Z)) : list Z := fold_left (fun y x => gmul h (xorl y x)) bs y.
(** zero-padded blocks of a byte string *)
Definition pad_blocks (l : list Z) : list (list Z) := map (fun b => b ++ zeros (16 - length b)) (chunks 16 l).
(** the length block: both bit lengths as 64-bit big-endian numbers *)
Definition len_block (a c : nat) : list Z := be_bytes 8 (8 * Z.of_nat a) ++ be_bytes 8 (8 * Z.of_nat c).
(** the GHASH of associated data and ciphertext *)
Definition ghash_of (h a c : list Z) : list Z :=
  ghash_from h (zeros 16) (pad_blocks a ++ pad_blocks c ++ [len_block (length a) (length c)]).

(** the pre-counter block J0 *)
Definition gcm_j0 (h iv : list Z) : list Z :=
  if (length iv =? 12)%nat then iv ++ [0; 0; 0; 1] else ghash_of h [] iv.
(** 32-bit increment: the last four bytes count modulo 2^32 *)
Definition inc32 (j : list Z) (n : Z) : list Z :=
  firstn 12 j ++ be_bytes 4 (value_be (skipn 12 j) + n).
(** the authentication tag of a ciphertext *)
Definition gcm_tag (E : list Z -> list Z) (iv aad c : list Z) : list Z :=
  let h := E (zeros 16) in xorl (ghash_of h aad c) (E (gcm_j0 h iv)).
(** GCM encryption (SP 800-38D, 7.1): ciphertext and 16-byte tag *)
Definition gcm_stream (E : list Z -> list Z) (j0 msg : list Z) : list Z :=
  map (fun i => Z.lxor (nth i msg 0) (nth (i mod 16) (E (inc32 j0 (1 + Z.of_nat (i / 16)))) 0)) (seq 0 (length msg)).
Definition gcm_seal (E : list Z -> list Z) (iv aad msg : list Z) : list Z * list Z :=
  let c := gcm_stream E (gcm_j0 (E (zeros 16)) iv) msg in (c, gcm_tag E iv aad c).
(** the keystream with a 128-bit counter: what CEX computes *)
Definition gcm_wide (E : list Z -> list Z) (iv msg : list Z) : list Z :=
  ctr_crypt E (be_bytes 16) (value_be (gcm_j0 (E (zeros 16)) iv) + 1) msg.
(** the keyed cipher maps 16-byte blocks to 16-byte blocks *)
Definition cipher (E : list Z -> list Z -> list Z) : Prop :=
  forall k b, length b = 16%nat -> length (E k b) = 16%nat /\ (bytes b -> bytes (E k b)).
