(** Call histories of a GMAC object, and what a user expects of them. *)
From Verif Require Import Base Spec_Common Spec_Feed Spec_GCM Session_Digest Model_GMAC.
Open Scope Z_scope.

Inductive gcall :=
| GInit (key iv : list Z)                   (* Initialize(SymmetricKey(key, iv)) *)
| GUpdate (p : piece)                       (* Update(Input, InOffset, Length) *)
| GFinal (out : list Z) (oo : nat)          (* Finalize(std::vector Output, OutOffset) *)
| GSecure (out : list Z) (oo : nat)         (* Finalize(SecureVector Output, OutOffset) *)
| GCompute (inp out : list Z)               (* Compute(Input, Output) *)
| GReset.
(** offsets inside their arrays; windows may overrun and outputs may be too short, except for the SecureVector form *)
Definition gcall_ok (c : gcall) : Prop :=
  match c with
  | GInit key iv => bytes iv
  | GUpdate p => (p_off p <= length (p_in p))%nat /\ bytes (p_in p)
  | GFinal out oo => (oo <= length out)%nat
  | GSecure out oo => (oo + 16 <= length out)%nat
  | GCompute inp _ => bytes inp
  | GReset => True
  end.
Section run.
Context (E : list Z -> list Z -> list Z) (legal : nat -> bool).
Definition gstep (o : gmac) (c : gcall) : res (gmac * dres) :=
  match c with
  | GInit key iv => r <- GMAC_Initialize E legal o key iv ;; Ok (fst r, match snd r with None => Done | Some e => Failed e end)
  | GUpdate p => match GMAC_Update o (p_in p) (p_off p) (p_len p) with Ok o' => Ok (o', Done) | Throw e => Ok (o, Failed e) | UB => UB end
  | GFinal out oo => caught o (GMAC_Finalize o out oo)
  | GSecure out oo => caught o (GMAC_FinalizeS o out oo)
  | GCompute inp out => caught o (GMAC_Compute o inp out)
  | GReset => o' <- GMAC_Reset o ;; Ok (o', Done)
  end.
Fixpoint ghistory (o : gmac) (cs : list gcall) : res (list dres) :=
  match cs with
  | [] => Ok []
  | c :: t => r <- gstep o c ;; rs <- ghistory (fst r) t ;; Ok (snd r :: rs)
  end.
(** GMAC is the tag of GCM for the message as associated data and no plaintext (SP 800-38D, 3) *)
Definition gmac_of (key iv m : list Z) : list Z := gcm_tag (E key) iv m [].
(** [None]: no key; [Some (key, iv, m)]: message [m] so far.  Each tag uses key and nonce up *)
Definition gspec (st : option (list Z * list Z * list Z)) (c : gcall) : option (list Z * list Z * list Z) * (dres -> Prop) :=
  match c with
  | GInit key iv =>
    if (length key <? 16)%nat then (st, fun r => r = Failed InvalidKey)
    else if (length iv <? 12)%nat then (st, fun r => r = Failed InvalidSalt)
    else if legal (length key) then (Some (key, iv, []), fun r => r = Done)
    else (None, fun r => r = Failed InvalidKey)
  | GReset => (None, fun r => r = Done)
  | _ =>
    match st with
    | None => (None, fun r => r = Failed NotInitialized)
    | Some (key, iv, m) =>
      match c with
      | GUpdate p =>
        if (p_off p + p_len p <=? length (p_in p))%nat then (Some (key, iv, m ++ p_data p), fun r => r = Done) else (st, fun r => r = Failed InvalidSize)
      | GFinal out oo =>
        if (oo + 16 <=? length out)%nat then (None, fun r => exists out', r = Wrote out' /\ written out out' oo (gmac_of key iv m)) else (st, fun r => r = Failed InvalidSize)
      | GSecure out oo => (None, fun r => exists out', r = Wrote out' /\ written out out' oo (gmac_of key iv m))
      | GCompute inp out =>
        if (16 <=? length out)%nat then (None, fun r => exists out', r = Wrote out' /\ written out out' 0 (gmac_of key iv (m ++ inp))) else (st, fun r => r = Failed InvalidSize)
      | _ => (st, fun _ => False)
      end
    end
  end.
Fixpoint gexpected (st : option (list Z * list Z * list Z)) (cs : list gcall) (rs : list dres) : Prop :=
  match cs, rs with
  | [], [] => True
  | c :: cs, r :: rs => snd (gspec st c) r /\ gexpected (fst (gspec st c)) cs rs
  | _, _ => False
  end.
End run.
