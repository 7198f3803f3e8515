(** Call histories of an HCG object. *)
From Verif Require Import Base Spec_Common Spec_MAC Spec_HCG Model_HMAC Model_CSG Session_CSG Model_HCG.
Open Scope Z_scope.

(** the calls and their results are those of Session_CSG.v *)
Definition hcall_ok (c : gcall) : Prop :=
  match c with
  | GInit key iv info => bytes key /\ bytes iv /\ bytes info /\ Z.of_nat (length info) < 65000
  | GGen out oo n => (oo <= length out)%nat
  | GUpdate key => bytes key
  end.
Section history.
Context {D : Type} (rate n : nat) (dupd : D -> list Z -> nat -> nat -> res D) (dfin : D -> list Z -> nat -> res (D * list Z)) (dnew : D) (name : list Z).
Context (prov : option (nat -> nat -> list Z)) (thr : Z).
Definition hstep (o : hcg D) (c : gcall) : res (hcg D * gres) :=
  match c with
  | GInit key iv info =>
    match HCG_Initialize rate n dupd dfin dnew name o key iv info with Ok o' => Ok (o', GDone) | Throw e => Ok (o, GFailed e) | UB => UB end
  | GGen out oo len =>
    match HCG_Generate rate n dupd dfin dnew prov thr o out oo len with
    | Ok (o', None, out') => Ok (o', GWrote out') | Ok (o', Some e, out') => Ok (o', GLate e out')
    | Throw e => Ok (o, GFailed e) | UB => UB end
  | GUpdate key =>
    match HCG_Update rate n dupd dfin dnew o key with
    | Ok (o', None) => Ok (o', GDone) | Ok (o', Some e) => Ok (o', GFailed e)
    | Throw e => Ok (o, GFailed e) | UB => UB end
  end.
Fixpoint hhistory (o : hcg D) (cs : list gcall) : res (list gres) :=
  match cs with
  | [] => Ok []
  | c :: t => r <- hstep o c ;; rs <- hhistory (fst r) t ;; Ok (snd r :: rs)
  end.
End history.
(** what the calls return *)
Section expected.
Context (H : list Z -> list Z) (rate n : nat) (name : list Z) (prov : option (nat -> nat -> list Z)) (thr : Z).
Fixpoint hexpected (g : hgen) (cs : list gcall) (rs : list gres) : Prop :=
  match cs, rs with
  | [], [] => True
  | GInit key iv info :: cs, r :: rs =>
    if (length key <? 16)%nat then r = GFailed InvalidNonce /\ hexpected g cs rs
    else r = GDone /\ hexpected (hkeyed H rate name g key iv info) cs rs
  | GGen out oo len :: cs, r :: rs =>
    if negb (hg_ready g) then r = GFailed NotInitialized /\ hexpected g cs rs
    else if (length out <? oo + len)%nat then r = GFailed InvalidSize /\ hexpected g cs rs
    else if 102400000 <? Z.of_nat len then r = GFailed MaxExceeded /\ hexpected g cs rs
    else
      exists out', written out out' oo (hnext_bytes H rate n g len) /\
      let g1 := hadvance H rate n g len in
      match prov with
      | None => r = GWrote out' /\ hexpected g1 cs rs
      | Some p =>
        let total := hg_since g + Z.of_nat len in
        if total <? thr then r = GWrote out' /\ hexpected (hwith_counts g1 total (hg_reseeds g)) cs rs
        else if 10000 <=? hg_reseeds g then r = GLate MaxExceeded out' /\ hexpected (hwith_counts g1 total (hg_reseeds g + 1)) cs rs
        else r = GWrote out' /\ hexpected (hwith_counts (hprovided H rate n p g1) 0 (hg_reseeds g + 1)) cs rs
      end
  | GUpdate key :: cs, r :: rs =>
    if (length key <? rate / 4)%nat then r = GFailed InvalidKey /\ hexpected g cs rs
    else
      let g1 := hwith_counts g (hg_since g) (hg_reseeds g + 1) in
      if 10000 <=? hg_reseeds g then r = GFailed MaxExceeded /\ hexpected g1 cs rs
      else if negb (hg_ready g) then r = GFailed NotInitialized /\ hexpected g1 cs rs
      else r = GDone /\ hexpected (hupdated H rate n g1 key) cs rs
  | _, _ => False
  end.
End expected.
