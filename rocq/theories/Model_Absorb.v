(** The two buffering schemes that the Update functions of the CEX digests and MACs follow.
    [S] is the inner state, [f s Input InOffset] processes one block of [rate] bytes read from
    Input at InOffset.  A digest object is (inner state, message buffer, message length). *)
From Verif Require Import Base Model_Modes.
Open Scope Z_scope.

Section absorb.
Context {S : Type} (rate : nat) (f : S -> list Z -> nat -> res S).

(** * Eager: a full buffer is processed at once.
    SHA2256.cpp:331-361, SHA2512.cpp:322-352, SHA3256.cpp, SHA3512.cpp (sequential branches).
    [while (Length >= RATE)]: the fuel is Length, an upper bound on the number of iterations *)
Fixpoint eager_blocks (fuel : nat) (s : S) (inp : list Z) (io len : nat) : res (S * nat * nat) :=
  match fuel with
  | O => Ok (s, io, len)
  | Datatypes.S k =>
    if (rate <=? len)%nat then s <- f s inp io ;; eager_blocks k s inp (io + rate) (len - rate)
    else Ok (s, io, len)
  end.
Definition eager_update (st : S * list Z * nat) (inp : list Z) (io len : nat) : res (S * list Z * nat) :=
  let '(s, buf, pos) := st in
  if (len =? 0)%nat then Ok st
  else
    r <- (if (negb (pos =? 0) && (rate <=? pos + len))%nat then
            _ <- safe (pos <=? rate)%nat ;;
            let rmd := (rate - pos)%nat in
            buf <- wcopy inp io buf pos rmd ;;
            s <- f s buf 0 ;;
            Ok (s, buf, 0%nat, (io + rmd)%nat, (len - rmd)%nat)
          else Ok (s, buf, pos, io, len)) ;;
    let '(s, buf, pos, io, len) := r in
    r <- eager_blocks len s inp io len ;;
    let '(s, io, len) := r in
    if (len =? 0)%nat then Ok (s, buf, pos)
    else buf <- wcopy inp io buf pos len ;; Ok (s, buf, (pos + len)%nat).

(** * Lazy: a full buffer is kept until more input arrives.  CMAC.cpp:246-289 *)
Fixpoint lazy_blocks (fuel : nat) (s : S) (inp : list Z) (io len : nat) : res (S * nat * nat) :=
  match fuel with
  | O => Ok (s, io, len)
  | Datatypes.S k =>
    if (rate <? len)%nat then s <- f s inp io ;; lazy_blocks k s inp (io + rate) (len - rate)
    else Ok (s, io, len)
  end.
Definition lazy_update (st : S * list Z * nat) (inp : list Z) (io len : nat) : res (S * list Z * nat) :=
  let '(s, buf, pos) := st in
  if (len =? 0)%nat then Ok st
  else
    r <- (if (pos =? rate)%nat then s <- f s buf 0 ;; Ok (s, 0%nat) else Ok (s, pos)) ;;
    let '(s, pos) := r in
    _ <- safe (pos <=? rate)%nat ;;
    let rmd := (rate - pos)%nat in
    r <- (if (rmd <? len)%nat then
            buf <- wcopy inp io buf pos rmd ;;
            s <- f s buf 0 ;;
            r <- lazy_blocks len s inp (io + rmd) (len - rmd) ;;
            let '(s, io, len) := r in
            Ok (s, buf, 0%nat, io, len)
          else Ok (s, buf, pos, io, len)) ;;
    let '(s, buf, pos, io, len) := r in
    if (0 <? len)%nat then buf <- wcopy inp io buf pos len ;; Ok (s, buf, (pos + len)%nat)
    else Ok (s, buf, pos).
End absorb.
