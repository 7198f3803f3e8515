(** Shared vocabulary of the model: results, arrays, machine words.
    Nothing here models a particular CEX function; it is the modelling language. *)
From Coq Require Export ZArith List Lia Bool Arith.
Export ListNotations.
Open Scope Z_scope.

(** * Results.
    [Throw] is a C++ exception (the error codes of CEX/ErrorCodes.h that the model
    distinguishes); [UB] is undefined behaviour or a call that never returns
    (out-of-range access, over-wide shift, division by zero, endless loop). *)
Inductive err : Type :=
| InvalidKey | InvalidNonce | InvalidSize | InvalidParam | InvalidInfo | InvalidSalt
| NotInitialized | NotSupported | IllegalOperation | AuthenticationFailure
| MaxExceeded | OtherError.

Inductive res (A : Type) : Type :=
| Ok (a : A)
| Throw (e : err)
| UB.
Arguments Ok {A} a.
Arguments Throw {A} e.
Arguments UB {A}.

Definition bind {A B : Type} (m : res A) (k : A -> res B) : res B :=
  match m with Ok a => k a | Throw e => Throw e | UB => UB end.

Notation "x <- m ;; k" := (bind m (fun x => k))
  (at level 61, m at next level, right associativity).
Notation "' p <- m ;; k" := (bind m (fun x => match x with p => k end))
  (at level 61, p pattern, m at next level, right associativity).

Definition guard (b : bool) (e : err) : res unit := if b then Ok tt else Throw e.
Definition safe (b : bool) : res unit := if b then Ok tt else UB.

(** * Bytes and words *)
Definition is_byte (x : Z) : Prop := 0 <= x < 256.
Definition bytes (l : list Z) : Prop := Forall is_byte l.
Definition is_word (w : Z) (x : Z) : Prop := 0 <= x < 2 ^ w.

Definition u8 (x : Z) : Z := x mod 2 ^ 8.
Definition u16 (x : Z) : Z := x mod 2 ^ 16.
Definition u32 (x : Z) : Z := x mod 2 ^ 32.
Definition u64 (x : Z) : Z := x mod 2 ^ 64.

(** bitwise complement at width [w] *)
Definition wnot (w : Z) (x : Z) : Z := (- x - 1) mod 2 ^ w.
(** left shift at width [w], right shift *)
Definition wshl (w : Z) (x n : Z) : Z := (Z.shiftl x n) mod 2 ^ w.
Definition wshr (x n : Z) : Z := Z.shiftr x n.

(** * Arrays *)
Definition get (l : list Z) (i : nat) : res Z :=
  match nth_error l i with Some x => Ok x | None => UB end.

Fixpoint upd (l : list Z) (i : nat) (v : Z) : list Z :=
  match l, i with
  | [], _ => []
  | _ :: t, O => v :: t
  | x :: t, S j => x :: upd t j v
  end.

Definition put (l : list Z) (i : nat) (v : Z) : res (list Z) :=
  if (i <? length l)%nat then Ok (upd l i v) else UB.

(** [slice l o n]: the [n] elements of [l] starting at [o] *)
Definition slice {A} (l : list A) (o n : nat) : list A := firstn n (skipn o l).
(** [splice l o d]: [l] with [d] written over it at [o] *)
Definition splice {A} (l : list A) (o : nat) (d : list A) : list A :=
  firstn o l ++ d ++ skipn (o + length d) l.

Definition rd (l : list Z) (o n : nat) : res (list Z) :=
  if (o + n <=? length l)%nat then Ok (slice l o n) else UB.
Definition wr (l : list Z) (o : nat) (d : list Z) : res (list Z) :=
  if (o + length d <=? length l)%nat then Ok (splice l o d) else UB.

Definition zeros (n : nat) : list Z := repeat 0 n.

(** element-wise xor of two lists (stops at the shorter one) *)
Fixpoint xorl (a b : list Z) : list Z :=
  match a, b with
  | x :: a', y :: b' => Z.lxor x y :: xorl a' b'
  | _, _ => []
  end.

(** * Positional values *)
Fixpoint le_val (l : list Z) : Z :=
  match l with [] => 0 | b :: t => b + 256 * le_val t end.
Definition be_val (l : list Z) : Z := le_val (rev l).

Fixpoint le_bytes (n : nat) (x : Z) : list Z :=
  match n with O => [] | S m => x mod 256 :: le_bytes m (x / 256) end.
Definition be_bytes (n : nat) (x : Z) : list Z := rev (le_bytes n x).

(** * Loops: [for (i = a; i < a + n; ++i) s = f i s] *)
Fixpoint for_up {S : Type} (a n : nat) (f : nat -> S -> res S) (s : S) : res S :=
  match n with
  | O => Ok s
  | Datatypes.S m => s' <- f a s ;; for_up (Datatypes.S a) m f s'
  end.

(** split into blocks of [n]; the last block may be short *)
Fixpoint chunks_fuel {A} (fuel n : nat) (l : list A) : list (list A) :=
  match fuel with
  | O => []
  | S f => match l with
           | [] => []
           | _ => firstn n l :: chunks_fuel f n (skipn n l)
           end
  end.
Definition chunks {A} (n : nat) (l : list A) : list (list A) :=
  chunks_fuel (length l) n l.
