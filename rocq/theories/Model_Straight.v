(** A small language for straight-line C++ code on machine words.

    CEX contains fully unrolled block functions of several hundred to several thousand
    statements (SHA2.h, Keccak.h, Blake.h, ChaCha.h, Threefish.h, Serpent.h).  Each of them
    is a sequence of assignments to local variables or array elements at constant
    positions.  The translators in tools/ turn such a body, statement by statement, into a
    [prog]; its meaning is [exec].  Variables and array elements are numbered registers.

    Simplification: every operator is evaluated at the width [w] of the variables.  In the
    C++ text some literals carry the suffix UL (64 bits on this target) inside 32-bit
    expressions; the result is truncated to 32 bits by the assignment, and all operators
    applied to the widened value are additions or exclusive ors, whose low 32 bits do not
    depend on the width. *)
From Verif Require Import Base.
Open Scope Z_scope.

Inductive sx : Type :=
| R (r : nat)             (* variable or array element *)
| K (c : Z)               (* literal *)
| Ad (a b : sx) | Su (a b : sx) | Mu (a b : sx)
| Xo (a b : sx) | An (a b : sx) | Or (a b : sx) | No (a : sx)
| SL (a : sx) (n : Z) | SR (a : sx) (n : Z)
| RLo (a : sx) (n : Z)    (* IntegerTools::RotL32/64, RotFL32/64 *)
| RRo (a : sx) (n : Z).   (* IntegerTools::RotR32/64, RotFR32/64 *)

(** CEX/IntegerTools.h:2734-2844: RotL is (x << n) | (x >> (w - n)), RotR is
    (x >> n) | (x << (w - n)); only used here with 0 < n < w *)
Definition wrotl (w x n : Z) : Z := Z.lor (wshl w x n) (wshr x (w - n)).
Definition wrotr (w x n : Z) : Z := Z.lor (wshr x n) (wshl w x (w - n)).
Definition wadd (w a b : Z) : Z := (a + b) mod 2 ^ w.
Definition wsub (w a b : Z) : Z := (a - b) mod 2 ^ w.
Definition wmul (w a b : Z) : Z := (a * b) mod 2 ^ w.

Fixpoint ev (w : Z) (s : list Z) (e : sx) : Z :=
  match e with
  | R r => nth r s 0
  | K c => c
  | Ad a b => wadd w (ev w s a) (ev w s b)
  | Su a b => wsub w (ev w s a) (ev w s b)
  | Mu a b => wmul w (ev w s a) (ev w s b)
  | Xo a b => Z.lxor (ev w s a) (ev w s b)
  | An a b => Z.land (ev w s a) (ev w s b)
  | Or a b => Z.lor (ev w s a) (ev w s b)
  | No a => wnot w (ev w s a)
  | SL a n => wshl w (ev w s a) n
  | SR a n => wshr (ev w s a) n
  | RLo a n => wrotl w (ev w s a) n
  | RRo a n => wrotr w (ev w s a) n
  end.

Definition prog := list (nat * sx).

Definition exec1 (w : Z) (s : list Z) (i : nat * sx) : list Z := upd s (fst i) (ev w s (snd i)).
Definition exec (w : Z) (p : prog) (s : list Z) : list Z := fold_left (exec1 w) p s.
