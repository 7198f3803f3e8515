(** What SecureRandom should do, independently of the model. *)
From Verif Require Import Base.
Open Scope Z_scope.

(** [n] bytes of the engine's output starting with byte number [a] *)
Definition source (g : nat -> Z) (a n : nat) : list Z := map g (seq a n).

(** where the next [n] bytes come from, when [p] bytes were used or discarded and [a] more are buffered:
    from the buffer if it holds enough, otherwise the buffered bytes are discarded *)
Definition serve (n : nat) (pa : nat * nat) : nat * (nat * nat) :=
  let '(p, a) := pa in
  if (n <=? a)%nat then (p, (p + n, a - n)%nat)
  else (p + a, (p + a + n, 1024 - n mod 1024))%nat.

(** exactly [k] integers satisfy [P] *)
Definition has_card (P : Z -> Prop) (k : nat) : Prop := exists l, NoDup l /\ length l = k /\ forall x, In x l <-> P x.

(** the values of an integer type of [w] bytes *)
Definition in_type (signed : bool) (w : nat) (x : Z) : Prop :=
  if signed then - 2 ^ (8 * Z.of_nat w - 1) <= x < 2 ^ (8 * Z.of_nat w - 1) else 0 <= x < 2 ^ (8 * Z.of_nat w).
(** the number of random bytes as a value of the type *)
Definition as_type (signed : bool) (w : nat) (l : list Z) : Z :=
  if (signed && (2 ^ (8 * Z.of_nat w - 1) <=? le_val l))%bool then le_val l - 2 ^ (8 * Z.of_nat w) else le_val l.
Definition top (signed : bool) (w : nat) : Z := if signed then 2 ^ (8 * Z.of_nat w - 1) - 1 else 2 ^ (8 * Z.of_nat w) - 1.

(** what a raw sample [x] becomes when one of [m] values is wanted: the whole multiples of [m] up to the largest value of the
    type are used; a negative sample only if it is a multiple of [m] *)
Definition outcome (signed : bool) (w : nat) (m x : Z) : option Z :=
  if x <? 0 then (if x mod m =? 0 then Some 0 else None)
  else if x <? top signed w / m * m then Some (x mod m) else None.
(** [x] is a sample that gives the value [r] *)
Definition gives (signed : bool) (w : nat) (m r x : Z) : Prop := in_type signed w x /\ outcome signed w m x = Some r.
(** the first sample that gives a value, at most [fuel] samples *)
Fixpoint first_outcome (fuel : nat) (g : nat -> Z) (signed : bool) (w : nat) (m : Z) (pa : nat * nat) : option Z * (nat * nat) :=
  match fuel with
  | O => (None, pa)
  | S f =>
    let '(at_, pa) := serve w pa in
    match outcome signed w m (as_type signed w (source g at_ w)) with
    | Some v => (Some v, pa)
    | None => first_outcome f g signed w m pa
    end
  end.
