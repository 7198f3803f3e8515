(** Call histories of a KPA object and what each call returns. *)
From Verif Require Import Base Spec_Common Spec_Feed Spec_Keccak Session_Digest Spec_KPA Model_KPA.
Open Scope Z_scope.

Inductive pcall :=
| PInit (key salt : list Z)
| PUpdate (p : piece)
| PFinal (out : list Z) (oo : nat)    (** into a vector *)
| PFinalS (out : list Z) (oo : nat)   (** into a SecureVector *)
| PCompute (inp out : list Z)
| PReset.
Definition short (s : list Z) : Prop := 8 * Z.of_nat (length s) < 2 ^ 56.
(** windows and offsets inside their arrays, lengths below 2^53 *)
Definition pcall_ok (c : pcall) : Prop :=
  match c with
  | PInit key salt => bytes key /\ bytes salt /\ short key /\ short salt
  | PUpdate p => p_ok p
  | PFinal out oo => (oo <= length out)%nat /\ short out
  | PFinalS out oo => (oo <= length out)%nat /\ short out
  | PCompute inp out => bytes inp /\ short out
  | PReset => True
  end.
(** message bytes that a call can add *)
Definition pcall_len (c : pcall) : nat := match c with PUpdate p => p_len p | PCompute inp _ => length inp | _ => 0%nat end.
Definition ptotal (cs : list pcall) : nat := list_sum (map pcall_len cs).

(** running the model; an exception leaves the object as it was (all checks come first) *)
Definition caught1 (o : kpa) (r : res kpa) : res (kpa * dres) :=
  match r with Ok o' => Ok (o', Done) | Throw e => Ok (o, Failed e) | UB => UB end.
Definition pstep (m : kpa_mode) (o : kpa) (c : pcall) : res (kpa * dres) :=
  match c with
  | PInit key salt => caught1 o (KPA_Initialize o key salt)
  | PUpdate p => caught1 o (KPA_Update o (p_in p) (p_off p) (p_len p))
  | PFinal out oo => caught o (KPA_Finalize m o out oo)
  | PFinalS out oo => caught o (KPA_FinalizeS m o out oo)
  | PCompute inp out => caught o (KPA_Compute m o inp out)
  | PReset => Ok (KPA_Reset o, Done)
  end.
Fixpoint phistory (m : kpa_mode) (o : kpa) (cs : list pcall) : res (list dres) :=
  match cs with
  | [] => Ok []
  | c :: t => r <- pstep m o c ;; rs <- phistory m (fst r) t ;; Ok (snd r :: rs)
  end.

(** what the calls return; [tag] is the least output size.  [a] is None before Initialize, otherwise the rate, the leaves that the
    message starts from and the message so far.  Finalize leaves the leaves where the message ended *)
Fixpoint pexpected (tag : nat) (a : option (nat * list (list Z) * list Z)) (cs : list pcall) (rs : list dres) : Prop :=
  match cs, rs with
  | [], [] => True
  | PInit key salt :: cs, r :: rs =>
    if (length key <? 16)%nat then r = Failed InvalidKey /\ pexpected tag a cs rs
    else r = Done /\ pexpected tag (Some (kpa_rate key, kpa_start key salt, [])) cs rs
  | PUpdate p :: cs, r :: rs =>
    match a with
    | None => r = Failed NotInitialized /\ pexpected tag a cs rs
    | Some (q, A, m) => r = Done /\ pexpected tag (Some (q, A, m ++ p_data p)) cs rs
    end
  | PFinal out oo :: cs, r :: rs =>
    match a with
    | None => r = Failed NotInitialized /\ pexpected tag a cs rs
    | Some (q, A, m) =>
      if (length out - oo <? tag)%nat then r = Failed InvalidSize /\ pexpected tag a cs rs
      else r = Wrote (firstn oo out ++ kpa_tag q A m (length out - oo)) /\ pexpected tag (Some (q, kpa_leaves q A m, [])) cs rs
    end
  | PFinalS out oo :: cs, r :: rs =>
    match a with
    | None => r = Failed NotInitialized /\ pexpected tag a cs rs
    | Some (q, A, m) =>
      if (length out - oo <? tag)%nat then r = Failed InvalidSize /\ pexpected tag a cs rs
      else r = Wrote (kpa_tag q A m (length out)) /\ pexpected tag (Some (q, kpa_leaves q A m, [])) cs rs
    end
  | PCompute inp out :: cs, r :: rs =>
    match a with
    | None => r = Failed NotInitialized /\ pexpected tag a cs rs
    | Some (q, A, m) =>
      if (length out <? tag)%nat then r = Failed InvalidSize /\ pexpected tag a cs rs
      else r = Wrote (kpa_tag q A (m ++ inp) (length out)) /\ pexpected tag (Some (q, kpa_leaves q A (m ++ inp), [])) cs rs
    end
  | PReset :: cs, r :: rs => r = Done /\ pexpected tag None cs rs
  | _, _ => False
  end.
(** a fresh object, Initialize, Update on every piece, Finalize into [n] zero bytes *)
Definition kpa_run (m : kpa_mode) (key salt : list Z) (ps : list piece) (n : nat) : res (list dres) :=
  o <- KPA_new m ;; phistory m o (PInit key salt :: map PUpdate ps ++ [PFinal (zeros n) 0]).
(** two messages one after the other, without Initialize in between *)
Definition kpa_two (m : kpa_mode) (key salt : list Z) (m1 m2 : list Z) (n : nat) : res (list dres) :=
  o <- KPA_new m ;; phistory m o [PInit key salt; PCompute m1 (zeros n); PCompute m2 (zeros n)].
