(** Call histories of a CSG object. *)
From Verif Require Import Base Spec_Common Spec_Keccak Spec_CSG Session_KMAC Model_CSG.
Open Scope Z_scope.

(** the calls: Initialize(key, IV, info), Generate(Output, OutOffset, Length), Update(Key) *)
Inductive gcall :=
| GInit (key iv info : list Z)
| GGen (out : list Z) (oo n : nat)
| GUpdate (key : list Z).
(** what a call gives: nothing, the Output array, an exception, or an exception after Output was written *)
Inductive gres := GDone | GWrote (out : list Z) | GFailed (e : err) | GLate (e : err) (out : list Z).
Definition gcall_ok (rate : nat) (c : gcall) : Prop :=
  match c with
  | GInit key iv info => bytes key /\ bytes iv /\ bytes info /\ short iv /\ short info /\
      ((length iv + length info > 0)%nat -> (11 <= rate)%nat /\ fits_block rate info iv)
  | GGen out oo n => (oo <= length out)%nat
  | GUpdate key => bytes key
  end.
(** a provider gives as many bytes as it is asked for *)
Definition provider_ok (prov : option (nat -> nat -> list Z)) : Prop :=
  match prov with None => True | Some f => forall k n, length (f k n) = n /\ bytes (f k n) end.
Section history.
Context (rate : nat) (prov : option (nat -> nat -> list Z)) (thr : Z).
Definition gstep (o : csg) (c : gcall) : res (csg * gres) :=
  match c with
  | GInit key iv info =>
    match CSG_Initialize rate o key iv info with Ok o' => Ok (o', GDone) | Throw e => Ok (o, GFailed e) | UB => UB end
  | GGen out oo n =>
    match CSG_Generate rate prov thr o out oo n with
    | Ok (o', None, out') => Ok (o', GWrote out') | Ok (o', Some e, out') => Ok (o', GLate e out')
    | Throw e => Ok (o, GFailed e) | UB => UB end
  | GUpdate key =>
    match CSG_Update rate prov o key with
    | Ok (o', None) => Ok (o', GDone) | Ok (o', Some e) => Ok (o', GFailed e)
    | Throw e => Ok (o, GFailed e) | UB => UB end
  end.
Fixpoint ghistory (o : csg) (cs : list gcall) : res (list gres) :=
  match cs with
  | [] => Ok []
  | c :: t => r <- gstep o c ;; rs <- ghistory (fst r) t ;; Ok (snd r :: rs)
  end.
(** what the calls return *)
Fixpoint gexpected (g : gen) (cs : list gcall) (rs : list gres) : Prop :=
  match cs, rs with
  | [], [] => True
  | GInit key iv info :: cs, r :: rs =>
    if (length key <? 16)%nat then r = GFailed InvalidKey /\ gexpected g cs rs
    else r = GDone /\ gexpected (keyed rate g key iv info) cs rs
  | GGen out oo n :: cs, r :: rs =>
    if negb (gn_ready g) then r = GFailed NotInitialized /\ gexpected g cs rs
    else if (length out <? oo + n)%nat then r = GFailed InvalidSize /\ gexpected g cs rs
    else if 102400000 <? Z.of_nat n then r = GFailed MaxExceeded /\ gexpected g cs rs
    else
      exists out', written out out' oo (next_bytes rate g n) /\
      let g1 := advance rate g n in
      match prov with
      | None => r = GWrote out' /\ gexpected g1 cs rs
      | Some p =>
        let total := gn_since g + Z.of_nat n in
        if total <? thr then r = GWrote out' /\ gexpected (with_counts g1 total (gn_reseeds g)) cs rs
        else if 10000 <=? gn_reseeds g then r = GLate MaxExceeded out' /\ gexpected (with_counts g1 total (gn_reseeds g + 1)) cs rs
        else r = GWrote out' /\ gexpected (with_counts (provided rate p g1) 0 (gn_reseeds g + 1)) cs rs
      end
  | GUpdate key :: cs, r :: rs =>
    if (length key <? 16)%nat then r = GFailed InvalidKey /\ gexpected g cs rs
    else if 10000 <=? gn_reseeds g then r = GFailed MaxExceeded /\ gexpected (with_counts g (gn_since g) (gn_reseeds g + 1)) cs rs
    else
      let g1 := with_counts g (gn_since g) (gn_reseeds g + 1) in
      let g2 := match prov with Some p => provided rate p g1 | None => g1 end in
      r = GDone /\ gexpected (reseed rate g2 key) cs rs
  | _, _ => False
  end.
End history.
