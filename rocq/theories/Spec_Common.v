(** Small specification vocabulary shared by the property files.
    Nothing here mentions a model definition. *)
From Verif Require Import Base.
Open Scope Z_scope.

(** [out'] is [out] with exactly the bytes [d] written at [o]: same length, the window
    [o, o + length d) holds [d], every other position keeps its value. *)
Definition written (out out' : list Z) (o : nat) (d : list Z) : Prop :=
  length out' = length out /\
  (forall i, (i < length d)%nat -> nth (o + i) out' 0 = nth i d 0) /\
  (forall i, (i < o \/ o + length d <= i)%nat -> nth i out' 0 = nth i out 0).

(** numeric value of a byte string: most significant byte first / last.
    Written as weighted sums, independently of the recursion used in the model. *)
Definition sum_upto (n : nat) (f : nat -> Z) : Z :=
  fold_right Z.add 0 (map f (seq 0 n)).
Definition value_be (l : list Z) : Z :=
  sum_upto (length l) (fun i => nth i l 0 * 256 ^ (Z.of_nat (length l) - 1 - Z.of_nat i)).
Definition value_le (l : list Z) : Z :=
  sum_upto (length l) (fun i => nth i l 0 * 256 ^ Z.of_nat i).
