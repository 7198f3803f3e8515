(** Call histories of an SCBKDF object. *)
From Verif Require Import Base Spec_Common Spec_Keccak Spec_CSG Spec_SCBKDF Session_Digest Session_KMAC Model_SCBKDF.
Open Scope Z_scope.

(** the calls: Initialize(key, IV, info), Generate(Output, OutOffset, Length), assignments to CpuCost() and
    MemoryCost(), Reset() *)
Inductive bcall :=
| BInit (key iv info : list Z)
| BGen (out : list Z) (oo n : nat)
| BCosts (cpu : nat) (mem : Z)
| BReset.
Definition bcall_ok (rate : nat) (c : bcall) : Prop :=
  match c with
  | BInit key iv info => bytes key /\ bytes iv /\ bytes info /\ short iv /\ short info /\ fits_block rate info iv
  | BGen out oo n => (oo <= length out)%nat
  | _ => True
  end.
Definition bstep (rate : nat) (o : scb) (c : bcall) : res (scb * dres) :=
  match c with
  | BInit key iv info =>
    match SCB_Initialize rate o key iv info with Ok o' => Ok (o', Done) | Throw e => Ok (o, Failed e) | UB => UB end
  | BGen out oo n => caught o (SCB_Generate rate o out oo n)
  | BCosts cpu mem => Ok (SCB_costs o cpu mem, Done)
  | BReset => Ok (SCB_Reset o, Done)
  end.
(** the results and the last object *)
Fixpoint bhistory (rate : nat) (o : scb) (cs : list bcall) : res (scb * list dres) :=
  match cs with
  | [] => Ok (o, [])
  | c :: t => r <- bstep rate o c ;; rs <- bhistory rate (fst r) t ;; Ok (fst rs, snd r :: snd rs)
  end.
(** the cache grows when the memory cost, times a million, is more than 25 as a 64-bit number *)
Definition grows (mem : Z) : bool := 25 <? (mem * 1000000) mod 2 ^ 64.
(** what the calls return; the costs, and (state, cache) once initialized *)
Fixpoint bexpected (rate : nat) (cpu : nat) (mem : Z) (a : option (list Z * list Z)) (cs : list bcall) (rs : list dres) : Prop :=
  match cs, rs with
  | [], [] => True
  | BInit key iv info :: cs, r :: rs =>
    if (length key <? 16)%nat then r = Failed InvalidKey /\ bexpected rate cpu mem a cs rs
    else r = Done /\ bexpected rate cpu mem (Some (scb_start rate key iv info)) cs rs
  | BGen out oo n :: cs, r :: rs =>
    match a with
    | None => r = Failed NotInitialized /\ bexpected rate cpu mem a cs rs
    | Some p =>
      if (length out <? oo + n)%nat then r = Failed InvalidSize /\ bexpected rate cpu mem a cs rs
      else (exists out', r = Wrote out' /\ written out out' oo (scb_output rate (grows mem) cpu p n)) /\
        bexpected rate cpu mem (Some (scb_after rate (grows mem) cpu p n)) cs rs
    end
  | BCosts cpu' mem' :: cs, r :: rs => r = Done /\ bexpected rate cpu' mem' a cs rs
  | BReset :: cs, r :: rs => r = Done /\ bexpected rate cpu mem None cs rs
  | _, _ => False
  end.
(** the rates of SHAKE128, SHAKE256 and SHAKE512; the constructor refuses the others *)
Definition scb_rates : list nat := [168; 136; 72]%nat.
