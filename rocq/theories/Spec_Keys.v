(** The serialized forms of the key containers, from the English description alone. *)
From Verif Require Import Base.
Open Scope Z_scope.

(** a size as two bytes, low byte first *)
Definition size_bytes (n : nat) : list Z := [Z.of_nat n mod 256; Z.of_nat n / 256].
(** three sizes, then the three arrays *)
Definition key_stream (key iv info : list Z) : list Z :=
  size_bytes (length key) ++ size_bytes (length iv) ++ size_bytes (length info) ++ key ++ iv ++ info.
(** a size read back from two bytes *)
Definition size_at (s : list Z) (o : nat) : nat := Z.to_nat (nth o s 0 + 256 * nth (o + 1) s 0).
(** class, parameters, primitive, then the polynomial *)
Definition asym_stream (poly : list Z) (prim class params : Z) : list Z := [class; params; prim] ++ poly.
