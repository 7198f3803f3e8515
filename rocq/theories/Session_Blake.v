(** Call histories of a Blake2 digest object: Initialize with a key, Update, Finalize, Compute and Reset in any order. *)
From Verif Require Import Base Spec_Common Spec_Feed Session_Digest.
Open Scope Z_scope.

Inductive bcall :=
| BKey (key iv info : list Z)   (* Initialize(SymmetricKey(key, iv, info)) *)
| BDo (c : dcall).              (* Update, Finalize, Compute, Reset *)
Definition bcall_ok (c : bcall) : Prop :=
  match c with BKey key _ _ => bytes key | BDo c => dcall_ok c end.

(** ** running the model; an exception leaves the object as it was (the checks come first) *)
Section run.
Context {O : Type} (init : O -> list Z -> list Z -> list Z -> res O) (upd : O -> list Z -> nat -> nat -> res O)
  (fin : O -> list Z -> nat -> res (O * list Z)) (comp : O -> list Z -> list Z -> res (O * list Z)) (reset : O -> res O).
Definition bstep (o : O) (c : bcall) : res (O * dres) :=
  match c with
  | BKey key iv info => match init o key iv info with Ok o' => Ok (o', Done) | Throw e => Ok (o, Failed e) | UB => UB end
  | BDo (CUpdate p) => o' <- upd o (p_in p) (p_off p) (p_len p) ;; Ok (o', Done)
  | BDo (CFinal out oo) => caught o (fin o out oo)
  | BDo (CCompute inp out) => caught o (comp o inp out)
  | BDo CReset => o' <- reset o ;; Ok (o', Done)
  end.
Fixpoint bhistory (o : O) (cs : list bcall) : res (list dres) :=
  match cs with
  | [] => Ok []
  | c :: t => r <- bstep o c ;; rs <- bhistory (fst r) t ;; Ok (snd r :: rs)
  end.
End run.

(** ** what the calls give back.  [H kk data] is the BLAKE2 hash with key length [kk] in its parameter block, [n] the digest
    size, [B] the block size; the state of the object is a key length [kk] and the data hashed so far *)
Definition key_error (kmin kmax slen : nat) (key iv info : list Z) : option err :=
  if ((length key <? kmin) || (kmax <? length key))%nat then Some InvalidKey
  else if negb ((length iv =? 0) || (length iv =? slen))%nat then Some InvalidNonce
  else if negb ((length info =? 0) || (length info =? slen))%nat then Some InvalidInfo
  else None.
Fixpoint bexpected (H : nat -> list Z -> list Z) (n B kmin kmax slen : nat) (kk : nat) (m : list Z) (cs : list bcall) (rs : list dres) : Prop :=
  match cs, rs with
  | [], [] => True
  | BKey key iv info :: cs, r :: rs =>
    match key_error kmin kmax slen key iv info with
    | Some e => r = Failed e /\ bexpected H n B kmin kmax slen kk m cs rs
    | None => r = Done /\ bexpected H n B kmin kmax slen (length key) (key ++ zeros (B - length key)) cs rs
    end
  | BDo (CUpdate p) :: cs, r :: rs => r = Done /\ bexpected H n B kmin kmax slen kk (m ++ p_data p) cs rs
  | BDo CReset :: cs, r :: rs => r = Done /\ bexpected H n B kmin kmax slen kk [] cs rs
  | BDo (CFinal out oo) :: cs, r :: rs =>
    if (oo + n <=? length out)%nat then (exists out', r = Wrote out' /\ written out out' oo (H kk m)) /\ bexpected H n B kmin kmax slen kk [] cs rs
    else r = Failed InvalidSize /\ bexpected H n B kmin kmax slen kk m cs rs
  | BDo (CCompute inp out) :: cs, r :: rs =>
    if (n <=? length out)%nat then (exists out', r = Wrote out' /\ written out out' 0 (H kk (m ++ inp))) /\ bexpected H n B kmin kmax slen kk [] cs rs
    else r = Failed InvalidSize /\ bexpected H n B kmin kmax slen kk m cs rs
  | _, _ => False
  end.

(** ** a keyed hash, then a second message on the same object *)
Definition mac_calls (key iv info : list Z) (ps : list piece) (out : list Z) (oo : nat) (ps2 : list piece) (out2 : list Z) (oo2 : nat) : list bcall :=
  BKey key iv info :: map (fun p => BDo (CUpdate p)) ps ++ BDo (CFinal out oo) :: map (fun p => BDo (CUpdate p)) ps2 ++ [BDo (CFinal out2 oo2)].
