(** Sequences of calls on one BCR, CSR or HCR object. *)
From Verif Require Import Base Spec_Random Model_SecureRandom Session_Random Model_Prng.
Open Scope Z_scope.

Inductive pcall : Type :=
| PVec (out : list Z) | PVecAt (out : list Z) (off n : nat) | PSec (out : list Z) | PSecAt (out : list Z) (off n : nat)
| PNext (w : nat) | PReset (avail : bool).
Inductive pres : Type := PBytes (l : list Z) | PInt (v : Z) | PDone | PFail (e : err).
(** the offset lies in the array; [own]: see Prng_GenVO.  Where [own] is false only requests for the whole array, or ones that are
    refused, are safe *)
Definition pcall_ok (own : bool) (c : pcall) : Prop :=
  match c with
  | PVecAt out off n => (off <= length out)%nat /\ Z.of_nat (length out) < 2 ^ 64 /\ (own = true \/ n = length out \/ (length out < off + n)%nat)
  | PSecAt out off n => (off <= length out)%nat /\ Z.of_nat (length out) < 2 ^ 64
  | _ => True
  end.
Section history.
Context (own : bool) (g : nat -> Z).
Definition done {A} (r : res (A * rnd)) (s : rnd) (f : A -> pres) : res (pres * rnd) :=
  match r with Ok (a, s') => Ok (f a, s') | Throw e => Ok (PFail e, s) | UB => UB end.
Definition pstep (s : rnd) (c : pcall) : res (pres * rnd) :=
  match c with
  | PVec out => done (Prng_GenV g s out) s PBytes
  | PVecAt out off n => done (Prng_GenVO own g s out off n) s PBytes
  | PSec out => done (Prng_GenS g s out) s PBytes
  | PSecAt out off n => done (Prng_GenSO g s out off n) s PBytes
  | PNext w => done (Prng_Next g w s) s PInt
  | PReset avail => match Prng_Reset g avail s with Ok s' => Ok (PDone, s') | Throw e => Ok (PFail e, s) | UB => UB end
  end.
(** the results, and the object at the end *)
Fixpoint phistory (s : rnd) (cs : list pcall) : res (list pres * rnd) :=
  match cs with
  | [] => Ok ([], s)
  | c :: t => r <- pstep s c ;; q <- phistory (snd r) t ;; Ok (fst r :: fst q, snd q)
  end.
End history.
(** the expected results: [p] bytes of the generator were used or discarded and [a] more are buffered.  Reset makes a new buffer
    and goes on at the same place in it *)
Fixpoint pexpected (g : nat -> Z) (pa : nat * nat) (cs : list pcall) : list pres :=
  match cs with
  | [] => []
  | PVec out :: cs | PSec out :: cs => let '(a, pa') := serve (length out) pa in PBytes (source g a (length out)) :: pexpected g pa' cs
  | PVecAt out off n :: cs | PSecAt out off n :: cs =>
    if (length out <? off + n)%nat then PFail InvalidSize :: pexpected g pa cs
    else let '(a, pa') := serve n pa in PBytes (splice out off (source g a n)) :: pexpected g pa' cs
  | PNext w :: cs => let '(a, pa') := serve w pa in PInt (le_val (source g a w)) :: pexpected g pa' cs
  | PReset avail :: cs => if avail then PDone :: pexpected g (fst pa + 1024, snd pa)%nat cs else PFail OtherError :: pexpected g pa cs
  end.

(** requests of [n] bytes with Resets ([None]) between them; the answers if the [i]-th request is served from place [starts i] on *)
Definition ask (o : option nat) : pcall := match o with Some n => PVec (zeros n) | None => PReset true end.
Fixpoint sizes (os : list (option nat)) : list nat := match os with [] => [] | Some n :: t => n :: sizes t | None :: t => sizes t end.
Fixpoint answers (g : nat -> Z) (starts : list nat) (os : list (option nat)) : list pres :=
  match os, starts with
  | [], _ => []
  | None :: t, _ => PDone :: answers g starts t
  | Some n :: t, a :: st => PBytes (source g a n) :: answers g st t
  | Some _ :: _, [] => []
  end.
