(** Call histories of a KDF object: any sequence of Initialize, Generate and Reset calls. *)
From Verif Require Import Base Spec_Common Spec_KDF Session_Digest Model_KDF.
Open Scope Z_scope.

Inductive kcall :=
| KInit (key iv info : list Z)              (* Initialize(SymmetricKey(key, iv, info)) *)
| KGen (out : list Z) (oo len : nat)        (* Generate(std::vector, OutOffset, Length) *)
| KGenS (out : list Z) (oo len : nat)       (* Generate(SecureVector, OutOffset, Length) *)
| KGenAll (out : list Z)                    (* Generate(std::vector) *)
| KGenAllS (out : list Z)                   (* Generate(SecureVector) *)
| KReset.
(** [both]: Initialize may be given an IV and an info at the same time.  The SecureVector form with an offset is left
    out: it writes outside its buffer.  Requested windows may overrun the output *)
Definition kcall_ok (both : bool) (c : kcall) : Prop :=
  match c with
  | KInit key iv info => bytes key /\ bytes iv /\ bytes info /\ (both = true \/ iv = [] \/ info = [])
  | KGen out oo _ => (oo <= length out)%nat
  | KGenS _ oo _ => oo = 0%nat
  | _ => True
  end.

Record kdf_ops (O : Type) := {
  k_initialize : O -> list Z -> list Z -> list Z -> res (O * option err);
  k_gen : O -> list Z -> nat -> nat -> res (O * list Z);
  k_gens : O -> list Z -> nat -> nat -> res (O * list Z);
  k_all : O -> list Z -> res (O * list Z);
  k_alls : O -> list Z -> res (O * list Z);
  k_reset : O -> res O }.
Arguments k_initialize {O}. Arguments k_gen {O}. Arguments k_gens {O}. Arguments k_all {O}. Arguments k_alls {O}. Arguments k_reset {O}.
Section run.
Context {O : Type} (X : kdf_ops O).
Definition kstep (o : O) (c : kcall) : res (O * dres) :=
  match c with
  | KInit key iv info => r <- k_initialize X o key iv info ;; Ok (fst r, match snd r with None => Done | Some e => Failed e end)
  | KGen out oo len => caught o (k_gen X o out oo len)
  | KGenS out oo len => caught o (k_gens X o out oo len)
  | KGenAll out => caught o (k_all X o out)
  | KGenAllS out => caught o (k_alls X o out)
  | KReset => o' <- k_reset X o ;; Ok (o', Done)
  end.
Fixpoint khistory (o : O) (cs : list kcall) : res (list dres) :=
  match cs with
  | [] => Ok []
  | c :: t => r <- kstep o c ;; rs <- khistory (fst r) t ;; Ok (snd r :: rs)
  end.
End run.

(** ** what the user gets *)
(** not initialized, [left] being what remains of the info or salt of earlier calls; or initialized with parameters [p],
    [k] blocks already taken *)
Inductive kstate (P : Type) := KIdle (left : list Z) | KOn (p : P) (k : nat).
Arguments KIdle {P}. Arguments KOn {P}.
Record kdf_spec (P : Type) := {
  ks_minkey : nat;                                                   (* shorter keys are refused, nothing changes *)
  ks_init : list Z -> list Z -> list Z -> list Z -> (err * list Z) + P;  (* what is left, key, iv, info *)
  ks_left : P -> nat;                                                (* the length of the info or salt, which is all that Reset leaves *)
  ks_block : P -> nat -> list Z;                                     (* block number i of the output, from 0 *)
  ks_refuse : P -> nat -> nat -> bool -> option err;                 (* blocks taken, requested length, the window fits *)
  ks_count : nat -> nat }.                                           (* blocks a request consumes *)
Arguments ks_minkey {P}. Arguments ks_init {P}. Arguments ks_left {P}. Arguments ks_block {P}. Arguments ks_refuse {P}. Arguments ks_count {P}.
Section spec.
Context {P : Type} (S : kdf_spec P).
Definition left_of (st : kstate P) : list Z := match st with KIdle l => l | KOn p _ => zeros (ks_left S p) end.
(** a request of [len] bytes: consecutive blocks, the first one starting a new block, the last one truncated *)
Definition request (st : kstate P) (out : list Z) (oo len : nat) : kstate P * (dres -> Prop) :=
  match st with
  | KIdle _ => (st, fun r => r = Failed NotInitialized)
  | KOn p k =>
    match ks_refuse S p k len (oo + len <=? length out)%nat with
    | Some e => (st, fun r => r = Failed e)
    | None => (KOn p (k + ks_count S len), fun r => exists out', r = Wrote out' /\ written out out' oo (firstn len (blocks_from (ks_block S p) k (ks_count S len))))
    end
  end.
Definition kspec (st : kstate P) (c : kcall) : kstate P * (dres -> Prop) :=
  match c with
  | KInit key iv info =>
    if (length key <? ks_minkey S)%nat then (st, fun r => r = Failed InvalidKey)
    else match ks_init S (left_of st) key iv info with
         | inl (e, l) => (KIdle l, fun r => r = Failed e)
         | inr p => (KOn p 0, fun r => r = Done)
         end
  | KGen out oo len | KGenS out oo len => request st out oo len
  | KGenAll out | KGenAllS out => request st out 0 (length out)
  | KReset => (KIdle (zeros (length (left_of st))), fun r => r = Done)
  end.
Fixpoint kexpected (st : kstate P) (cs : list kcall) (rs : list dres) : Prop :=
  match cs, rs with
  | [], [] => True
  | c :: cs, r :: rs => snd (kspec st c) r /\ kexpected (fst (kspec st c)) cs rs
  | _, _ => False
  end.
End spec.

(** ** the three KDFs *)
Section objs.
Context {D : Type} (rate n : nat) (dupd : D -> list Z -> nat -> nat -> res D) (dfin : D -> list Z -> nat -> res (D * list Z)) (dnew : D).
Definition hkdf_ops : kdf_ops (hkdf_obj D) :=
  {| k_initialize := HKDF_Initialize rate n dupd dfin dnew; k_gen := HKDF_Gen n dupd dfin; k_gens := HKDF_GenS n dupd dfin;
     k_all := HKDF_GenAll n dupd dfin; k_alls := HKDF_GenAllS n dupd dfin; k_reset := HKDF_Reset dnew |}.
Definition kdf2_ops : kdf_ops (kdf2_obj D) :=
  {| k_initialize := KDF2_Initialize rate dnew; k_gen := KDF2_Gen n dupd dfin; k_gens := KDF2_GenS n dupd dfin;
     k_all := KDF2_GenAll n dupd dfin; k_alls := KDF2_GenAllS n dupd dfin; k_reset := KDF2_Reset dnew |}.
Definition pbkdf2_ops : kdf_ops (pbkdf2_obj D) :=
  {| k_initialize := PBKDF2_Initialize dnew; k_gen := PBKDF2_Gen rate n dupd dfin dnew; k_gens := PBKDF2_GenS rate n dupd dfin dnew;
     k_all := PBKDF2_GenAll rate n dupd dfin dnew; k_alls := PBKDF2_GenAllS rate n dupd dfin dnew; k_reset := PBKDF2_Reset dnew |}.
End objs.
(** HKDF over the MAC [HM] with [n]-byte tags.  Parameters: (PRK, info).  An IV asks for the extract step, and must be a
    legal HMAC key (8 bytes).  Without info what is left of the previous one is used.  The blocks repeat with
    period 256, and the limit is on complete blocks *)
Definition hkdf_kdf_spec (HM : list Z -> list Z -> list Z) (n : nat) : kdf_spec (list Z * list Z) :=
  {| ks_minkey := 16;
     ks_init := fun left key iv info =>
       let inf := if (length info =? 0)%nat then left else info in
       if (length iv =? 0)%nat then inr (key, inf)
       else if (length iv + length info <? 4)%nat then inl (InvalidSalt, inf)
       else if (length iv <? 8)%nat then inl (InvalidKey, inf)
       else inr (hkdf_extract HM iv key, inf);
     ks_left := fun p => length (snd p);
     ks_block := fun p i => hkdf_T HM (fst p) (snd p) (S (i mod 256));
     ks_refuse := fun _ k len fits => if (255 <? k mod 256 + len / n)%nat then Some MaxExceeded else if fits then None else Some InvalidSize;
     ks_count := blocks_for n |}.
(** KDF2 over the hash [H] with [n]-byte digests and [rate]-byte blocks.  Parameters: (Z, other info).  An empty request
    takes a block too.  Without an IV the key is padded with zeros to one block of the hash, or its bytes beyond one
    block become the other info; a short key drops the info and uses what is left of the previous salt *)
Definition kdf2_kdf_spec (H : list Z -> list Z) (rate n : nat) : kdf_spec (list Z * list Z) :=
  {| ks_minkey := 16;
     ks_init := fun left key iv info =>
       if (length iv =? 0)%nat then
         inr (if (length key <=? rate)%nat then (key ++ zeros (rate - length key), left) else (firstn rate key, skipn rate key ++ info))
       else if (length iv + length info <? 4)%nat then inl (InvalidSalt, left)
       else inr (key, iv ++ info);
     ks_left := fun p => length (snd p);
     ks_block := fun p i => kdf2_block H (fst p) (snd p) (S i);
     ks_refuse := fun _ k len fits => if (255 <? 1 + k + len / n)%nat then Some MaxExceeded else if fits then None else Some InvalidSize;
     ks_count := fun len => Nat.max 1 (blocks_for n len) |}.
(** PBKDF2 over the MAC [HM], [iter] iterations, where 0 stands for 2^64.  Parameters: (password, salt).  Keys of 4 to 7 bytes
    are accepted by Initialize and refused by Generate *)
Definition pbkdf2_kdf_spec (HM : list Z -> list Z -> list Z) (n : nat) (iter : Z) : kdf_spec (list Z * list Z) :=
  {| ks_minkey := 4;
     ks_init := fun left key iv info =>
       if (length iv + length info =? 0)%nat then inr (key, left)
       else if (length iv + length info <? 4)%nat then inl (InvalidSalt, left)
       else inr (key, iv ++ info);
     ks_left := fun p => length (snd p);
     ks_block := fun p i => pbkdf2_F HM (fst p) (snd p) (Z.to_nat ((iter - 1) mod 2 ^ 64)) (S i);
     ks_refuse := fun p k len fits =>
       if negb fits then Some InvalidSize else if 1024000 <? 1 + Z.of_nat k + Z.of_nat (len / n) then Some MaxExceeded
       else if (length (fst p) <? 8)%nat then Some InvalidKey else None;
     ks_count := fun len => Nat.max 1 (blocks_for n len) |}.
