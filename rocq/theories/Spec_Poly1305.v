(** RFC 8439, section 2.5. *)
From Verif Require Import Base Spec_Common.
Open Scope Z_scope.

Definition p1305 : Z := 2 ^ 130 - 5.
(** 2.5.1: the two halves of the one-time key *)
Definition poly_r (key : list Z) : Z := Z.land (value_le (firstn 16 key)) 0x0ffffffc0ffffffc0ffffffc0fffffff.
Definition poly_s (key : list Z) : Z := value_le (firstn 16 (skipn 16 key)).
(** the accumulator, from [a], after the blocks of 16 bytes of [m] (the last one may be shorter) *)
Definition poly_sum (r a : Z) (m : list Z) : Z :=
  fold_left (fun a b => (a + value_le (b ++ [1])) * r mod p1305) (chunks 16 m) a.
Definition poly_tag (key : list Z) (a : Z) (m : list Z) : list Z :=
  le_bytes 16 ((poly_sum (poly_r key) a m + poly_s key) mod 2 ^ 128).
Definition poly1305 (key m : list Z) : list Z := poly_tag key 0 m.
