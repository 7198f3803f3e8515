(** Call histories of a digest object: any sequence of Update, Finalize, Compute and Reset calls. *)
From Verif Require Import Base Spec_Common Spec_Feed.
Open Scope Z_scope.

(** the calls a user can make *)
Inductive dcall :=
| CUpdate (p : piece)                       (* Update(Input, InOffset, Length) *)
| CFinal (out : list Z) (oo : nat)          (* Finalize(Output, OutOffset) *)
| CCompute (inp out : list Z)               (* Compute(Input, Output) *)
| CReset.                                   (* Reset() *)
(** what a call gives back: nothing, the output array, or an exception *)
Inductive dres := Done | Wrote (out : list Z) | Failed (e : err).

(** windows and offsets inside their arrays; an output that is too short is allowed *)
Definition dcall_ok (c : dcall) : Prop :=
  match c with
  | CUpdate p => p_ok p
  | CFinal out oo => (oo <= length out)%nat
  | CCompute inp _ => bytes inp
  | CReset => True
  end.

(** ** running the model; an exception leaves the object as it was (the size check is the first statement) *)
Section run.
Context {O : Type} (upd : O -> list Z -> nat -> nat -> res O) (fin : O -> list Z -> nat -> res (O * list Z))
  (comp : O -> list Z -> list Z -> res (O * list Z)) (new : O).
Definition caught (o : O) (r : res (O * list Z)) : res (O * dres) :=
  match r with Ok (o', out) => Ok (o', Wrote out) | Throw e => Ok (o, Failed e) | UB => UB end.
Definition dstep (o : O) (c : dcall) : res (O * dres) :=
  match c with
  | CUpdate p => o' <- upd o (p_in p) (p_off p) (p_len p) ;; Ok (o', Done)
  | CFinal out oo => caught o (fin o out oo)
  | CCompute inp out => caught o (comp o inp out)
  | CReset => Ok (new, Done)
  end.
Fixpoint dhistory (o : O) (cs : list dcall) : res (list dres) :=
  match cs with
  | [] => Ok []
  | c :: t => r <- dstep o c ;; rs <- dhistory (fst r) t ;; Ok (snd r :: rs)
  end.
End run.

(** ** what the user expects: [H] is the hash function, [n] its output size, [m] the message so far *)
Fixpoint expected (H : list Z -> list Z) (n : nat) (m : list Z) (cs : list dcall) (rs : list dres) : Prop :=
  match cs, rs with
  | [], [] => True
  | CUpdate p :: cs, r :: rs => r = Done /\ expected H n (m ++ p_data p) cs rs
  | CReset :: cs, r :: rs => r = Done /\ expected H n [] cs rs
  | CFinal out oo :: cs, r :: rs =>
    if (oo + n <=? length out)%nat then (exists out', r = Wrote out' /\ written out out' oo (H m)) /\ expected H n [] cs rs
    else r = Failed InvalidSize /\ expected H n m cs rs
  | CCompute inp out :: cs, r :: rs =>
    if (n <=? length out)%nat then (exists out', r = Wrote out' /\ written out out' 0 (H (m ++ inp))) /\ expected H n [] cs rs
    else r = Failed InvalidSize /\ expected H n m cs rs
  | _, _ => False
  end.
