(** Call histories of a KMAC object, and what each call returns, in terms of the sponge of Spec_Keccak. *)
From Verif Require Import Base Spec_Common Spec_Feed Spec_Keccak Session_Digest Model_SHAKE.
Open Scope Z_scope.

(** the calls a user can make; [info] is the Info() array of the key object, which replaces the function name *)
Inductive kcall :=
| KInit (key cust info : list Z)
| KUpdate (p : piece)
| KFinal (out : list Z) (oo : nat)
| KCompute (inp out : list Z)
| KReset.
Definition short (s : list Z) : Prop := 8 * Z.of_nat (length s) < 2 ^ 64.
Definition kmac_name : list Z := [75; 77; 65; 67].
Definition name_of (info : list Z) : list Z := if (0 <? length info)%nat then info else kmac_name.
(** the length of the customization string still fits into the block that holds the end of the name; true of the
    default name whatever the string *)
Definition fits_block (rate : nat) (name cust : list Z) : Prop :=
  ((length (left_encode (Z.of_nat rate) ++ encode_string name) - 1) mod rate + 1 + length (left_encode (8 * Z.of_nat (length cust))) <= rate)%nat.
(** windows and offsets inside their arrays, lengths that a 64-bit bit count can hold *)
Definition kcall_ok (rate : nat) (c : kcall) : Prop :=
  match c with
  | KInit key cust info => bytes key /\ bytes cust /\ bytes info /\ short key /\ short cust /\ short info /\ fits_block rate (name_of info) cust
  | KUpdate p => p_ok p
  | KFinal out oo => (oo <= length out)%nat /\ short out
  | KCompute inp out => bytes inp /\ short out
  | KReset => True
  end.

(** running the model; an exception leaves the object as it was (all checks come first) *)
Definition caught1 (o : kmac_obj) (r : res kmac_obj) : res (kmac_obj * dres) :=
  match r with Ok o' => Ok (o', Done) | Throw e => Ok (o, Failed e) | UB => UB end.
Definition kstep (rate tag : nat) (o : kmac_obj) (c : kcall) : res (kmac_obj * dres) :=
  match c with
  | KInit key cust info => caught1 o (KMAC_Initialize rate o key cust info)
  | KUpdate p => caught1 o (KMAC_Update rate o (p_in p) (p_off p) (p_len p))
  | KFinal out oo => caught o (KMAC_Finalize rate tag o out oo)
  | KCompute inp out => caught o (KMAC_Compute rate tag o inp out)
  | KReset => Ok (KMAC_new, Done)
  end.
Fixpoint khistory (rate tag : nat) (o : kmac_obj) (cs : list kcall) : res (list dres) :=
  match cs with
  | [] => Ok []
  | c :: t => r <- kstep rate tag o c ;; rs <- khistory rate tag (fst r) t ;; Ok (snd r :: rs)
  end.

(** ** the function computed *)
Section tag.
Variable rate : nat.
Let f := keccak 24.
(** the sponge state after name, customization string and key *)
Definition kmac_start (name key cust : list Z) : list Z :=
  absorb f rate zero_state (bytepad (encode_string name ++ encode_string cust) rate ++ bytepad (encode_string key) rate).
(** the last block: what remains of the message, the encoded output length and the domain byte, cut off at the
    rate; the top bit of the block is set *)
Definition kmac_tail (d enc : list Z) : list Z :=
  let b := firstn rate (d ++ enc ++ [4] ++ zeros rate) in firstn (rate - 1) b ++ [Z.lor (nth (rate - 1) b 0) 128].
(** the state after all blocks of the message [m], before the last permutation *)
Definition kmac_last (A m : list Z) (n : nat) : list Z :=
  let w := (length m / rate * rate)%nat in
  xor_lanes (absorb f rate A (firstn w m)) (lane_words (kmac_tail (skipn w m) (right_encode (8 * Z.of_nat n)) ++ zeros (200 - rate))).
Definition kmac_out (A m : list Z) (n : nat) : list Z := firstn n (squeeze f rate (n / rate + 1) (f (kmac_last A m n))).
(** the state a call of Finalize leaves behind: it has been permuted once for every block of output *)
Definition kmac_after (A m : list Z) (n : nat) : list Z := Nat.iter ((n + rate - 1) / rate) f (kmac_last A m n).
End tag.

(** ** what the calls return; [a] is None before Initialize, otherwise the state the message starts from and the message so far *)
Fixpoint kexpected (rate tag : nat) (a : option (list Z * list Z)) (cs : list kcall) (rs : list dres) : Prop :=
  match cs, rs with
  | [], [] => True
  | KInit key cust info :: cs, r :: rs =>
    if (length key <? 16)%nat then r = Failed InvalidKey /\ kexpected rate tag a cs rs
    else if ((0 <? length cust) && (length cust <? 4))%nat then r = Failed InvalidSalt /\ kexpected rate tag a cs rs
    else r = Done /\ kexpected rate tag (Some (kmac_start rate (name_of info) key cust, [])) cs rs
  | KUpdate p :: cs, r :: rs =>
    match a with
    | None => r = Failed NotInitialized /\ kexpected rate tag a cs rs
    | Some (A, m) => r = Done /\ kexpected rate tag (Some (A, m ++ p_data p)) cs rs
    end
  | KFinal out oo :: cs, r :: rs =>
    match a with
    | None => r = Failed NotInitialized /\ kexpected rate tag a cs rs
    | Some (A, m) =>
      let n := (length out - oo)%nat in
      if (n <? tag)%nat then r = Failed InvalidSize /\ kexpected rate tag a cs rs
      else (exists out', r = Wrote out' /\ written out out' oo (kmac_out rate A m n)) /\ kexpected rate tag (Some (kmac_after rate A m n, [])) cs rs
    end
  | KCompute inp out :: cs, r :: rs =>
    match a with
    | None => r = Failed NotInitialized /\ kexpected rate tag a cs rs
    | Some (A, m) =>
      let n := length out in
      if (n <? tag)%nat then r = Failed InvalidSize /\ kexpected rate tag a cs rs
      else (exists out', r = Wrote out' /\ written out out' 0 (kmac_out rate A (m ++ inp) n)) /\ kexpected rate tag (Some (kmac_after rate A (m ++ inp) n, [])) cs rs
    end
  | KReset :: cs, r :: rs => r = Done /\ kexpected rate tag None cs rs
  | _, _ => False
  end.
(** the three modes: (rate, tag size) of KMAC128, KMAC256 and KMAC512 *)
Definition kmac_modes : list (nat * nat) := [(168, 16); (136, 32); (72, 64)]%nat.
(** a fresh object, Initialize(key, cust), Update on every piece, Finalize into [n] zero bytes *)
Definition kmac_run (rate tag : nat) (key cust : list Z) (ps : list piece) (n : nat) : res (list dres) :=
  khistory rate tag KMAC_new (KInit key cust [] :: map KUpdate ps ++ [KFinal (zeros n) 0]).
Definition whole (m : list Z) : list piece := [Piece m 0 (length m)].
