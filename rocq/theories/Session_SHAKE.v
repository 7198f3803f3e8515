(** Call histories of a SHAKE object. *)
From Verif Require Import Base Spec_Common Spec_Keccak Session_Digest Session_KMAC Model_SHAKE.
Open Scope Z_scope.

(** the calls: Initialize(Key, Customization, Information), Generate(Output, OutOffset, Length), Reset() *)
Inductive scall :=
| SInit (key cust info : list Z)
| SGen (out : list Z) (oo n : nat)
| SReset.
Definition scall_ok (rate : nat) (c : scall) : Prop :=
  match c with
  | SInit key cust info => bytes key /\ bytes cust /\ bytes info /\ short cust /\ short info /\ fits_block rate info cust
  | SGen out oo n => (oo <= length out)%nat
  | SReset => True
  end.
Definition sstep (rate : nat) (o : shake_obj) (c : scall) : res (shake_obj * dres) :=
  match c with
  | SInit key cust info =>
    match SHAKE_Initialize rate o key cust info with Ok o' => Ok (o', Done) | Throw e => Ok (o, Failed e) | UB => UB end
  | SGen out oo n => caught o (SHAKE_Generate rate o out oo n)
  | SReset => Ok (SHAKE_new, Done)
  end.
Fixpoint shistory (rate : nat) (o : shake_obj) (cs : list scall) : res (list dres) :=
  match cs with
  | [] => Ok []
  | c :: t => r <- sstep rate o c ;; rs <- shistory rate (fst r) t ;; Ok (snd r :: rs)
  end.
(** what the calls return.  [a] is None before Initialize, otherwise (key, customization, name, [k], [p]): so far
    [k] whole blocks of the output of cSHAKE have been used up, and [p] requests did not end on a block boundary *)
Fixpoint sexpected (rate : nat) (a : option (list Z * list Z * list Z * nat * nat)) (cs : list scall) (rs : list dres) : Prop :=
  match cs, rs with
  | [], [] => True
  | SInit key cust info :: cs, r :: rs =>
    if (length key <? 4)%nat then r = Failed InvalidKey /\ sexpected rate a cs rs
    else if ((0 <? length cust) && (length cust <? 4))%nat then r = Failed InvalidSalt /\ sexpected rate a cs rs
    else r = Done /\ sexpected rate (Some (key, cust, info, 0%nat, 0%nat)) cs rs
  | SGen out oo n :: cs, r :: rs =>
    match a with
    | None => r = Failed NotInitialized /\ sexpected rate a cs rs
    | Some (key, cust, info, k, p) =>
      if (length out <? oo + n)%nat then r = Failed InvalidSize /\ sexpected rate a cs rs
      else if 1024000 <? Z.of_nat (p + n / rate) then r = Failed MaxExceeded /\ sexpected rate a cs rs
      else (exists out', r = Wrote out' /\ written out out' oo (skipn (k * rate) (cshake 24 rate key (k * rate + n) info cust))) /\
        sexpected rate (Some (key, cust, info, (k + (n + rate - 1) / rate)%nat, (p + if (n mod rate =? 0)%nat then 0 else 1)%nat)) cs rs
    end
  | SReset :: cs, r :: rs => r = Done /\ sexpected rate None cs rs
  | _, _ => False
  end.
(** the rates of SHAKE128, SHAKE256, SHAKE512 and SHAKE1024 *)
Definition shake_rates : list nat := [168; 136; 72; 32]%nat.
