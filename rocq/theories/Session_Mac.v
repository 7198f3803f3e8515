(** Call histories of a MAC object: any sequence of Initialize, Update, Finalize, Compute and Reset calls. *)
From Verif Require Import Base Spec_Common Spec_Feed Session_Digest.
Open Scope Z_scope.

(** the calls a user can make *)
Inductive mcall :=
| MInit (key : list Z)                      (* Initialize(SymmetricKey(key)) *)
| MUpdate (p : piece)                       (* Update(Input, InOffset, Length) *)
| MFinal (out : list Z) (oo : nat)          (* Finalize(std::vector Output, OutOffset) *)
| MSecure (out : list Z) (oo : nat)         (* Finalize(SecureVector Output, OutOffset) *)
| MCompute (inp out : list Z)               (* Compute(Input, Output) *)
| MReset.                                   (* Reset() *)

(** offsets inside their arrays; windows may overrun and outputs may be too short, except for the
    SecureVector form of Finalize, which does not check its output array *)
Definition mcall_ok (n : nat) (c : mcall) : Prop :=
  match c with
  | MInit key => bytes key
  | MUpdate p => (p_off p <= length (p_in p))%nat /\ bytes (p_in p)
  | MFinal out oo => (oo <= length out)%nat
  | MSecure out oo => (oo + n <= length out)%nat
  | MCompute inp _ => bytes inp
  | MReset => True
  end.

(** ** running a model *)
Record mac_ops (O : Type) := {
  m_init : O -> list Z -> res (O * option err);   (* the exception, if any, and the state it leaves *)
  m_upd : O -> list Z -> nat -> nat -> res O;
  m_fin : O -> list Z -> nat -> res (O * list Z);
  m_sec : O -> list Z -> nat -> res (O * list Z);
  m_comp : O -> list Z -> list Z -> res (O * list Z);
  m_reset : O -> res O }.
Arguments m_init {O}. Arguments m_upd {O}. Arguments m_fin {O}. Arguments m_sec {O}. Arguments m_comp {O}. Arguments m_reset {O}.
Section run.
Context {O : Type} (X : mac_ops O).
Definition mstep (o : O) (c : mcall) : res (O * dres) :=
  match c with
  | MInit key => r <- m_init X o key ;; Ok (fst r, match snd r with None => Done | Some e => Failed e end)
  | MUpdate p => match m_upd X o (p_in p) (p_off p) (p_len p) with Ok o' => Ok (o', Done) | Throw e => Ok (o, Failed e) | UB => UB end
  | MFinal out oo => caught o (m_fin X o out oo)
  | MSecure out oo => caught o (m_sec X o out oo)
  | MCompute inp out => caught o (m_comp X o inp out)
  | MReset => o' <- m_reset X o ;; Ok (o', Done)
  end.
Fixpoint mhistory (o : O) (cs : list mcall) : res (list dres) :=
  match cs with
  | [] => Ok []
  | c :: t => r <- mstep o c ;; rs <- mhistory (fst r) t ;; Ok (snd r :: rs)
  end.
End run.

(** ** what the user expects *)
(** no key; key [k] and message [m] so far; or used up (a tag was taken and the object cannot start a new message) *)
Inductive mstate := MNone | MOn (k m : list Z) | MSpent.
Record mac_spec := {
  mac : list Z -> list Z -> list Z;        (* the MAC function *)
  tagsize : nat;
  minkey : nat;                            (* shorter keys are refused and the object is unchanged *)
  legal_key : nat -> bool;                   (* other refused lengths: the object loses its key *)
  after_final : mstate -> mstate;
  after_secure : mstate -> mstate;
  compute_shrinks : bool }.                (* Compute resizes its output array to the tag size *)
Section expect.
Context (M : mac_spec).
(** [t] is the tag due in state [st]; nothing is promised about the tag of a used-up object but its size *)
Definition due (st : mstate) (t : list Z) : Prop :=
  length t = tagsize M /\ match st with MOn k m => t = mac M k m | _ => True end.
Definition add (st : mstate) (d : list Z) : mstate := match st with MOn k m => MOn k (m ++ d) | s => s end.
(** next state and the allowed results of one call *)
Definition mspec (st : mstate) (c : mcall) : mstate * (dres -> Prop) :=
  match c with
  | MInit k =>
    if (length k <? minkey M)%nat then (st, fun r => r = Failed InvalidKey)
    else if legal_key M (length k) then (MOn k [], fun r => r = Done)
    else (MNone, fun r => r = Failed InvalidKey)
  | MReset => (MNone, fun r => r = Done)
  | _ =>
    match st with
    | MNone => (MNone, fun r => r = Failed NotInitialized)
    | _ =>
      match c with
      | MUpdate p =>
        if (p_off p + p_len p <=? length (p_in p))%nat then (add st (p_data p), fun r => r = Done) else (st, fun r => r = Failed InvalidSize)
      | MFinal out oo =>
        if (oo + tagsize M <=? length out)%nat then (after_final M st, fun r => exists out' t, r = Wrote out' /\ due st t /\ written out out' oo t)
        else (st, fun r => r = Failed InvalidSize)
      | MSecure out oo => (after_secure M st, fun r => exists out' t, r = Wrote out' /\ due st t /\ written out out' oo t)
      | MCompute inp out =>
        if (tagsize M <=? length out)%nat then
          (after_final M (add st inp), fun r => exists out' t, r = Wrote out' /\ due (add st inp) t /\ if compute_shrinks M then out' = t else written out out' 0 t)
        else (st, fun r => r = Failed InvalidSize)
      | _ => (st, fun _ => False)
      end
    end
  end.
Fixpoint mexpected (st : mstate) (cs : list mcall) (rs : list dres) : Prop :=
  match cs, rs with
  | [], [] => True
  | c :: cs, r :: rs => snd (mspec st c) r /\ mexpected (fst (mspec st c)) cs rs
  | _, _ => False
  end.
End expect.
