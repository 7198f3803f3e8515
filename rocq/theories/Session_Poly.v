(** Call histories of a Poly1305 object. *)
From Verif Require Import Base Spec_Common Spec_Feed Spec_Poly1305 Session_Digest Session_Mac Model_Poly1305.
Open Scope Z_scope.

(** the integer a Donna128 holds, and that its halves are 64-bit words *)
Definition d_val (x : donna) : Z := d_low x + 2 ^ 64 * d_high x.
Definition d_ok (x : donna) : Prop := 0 <= d_low x < 2 ^ 64 /\ 0 <= d_high x < 2 ^ 64.

Section ops.
Context {W : Type} (X : wide W).
Definition poly_ops : mac_ops poly_obj :=
  {| m_init := Poly_Initialize; m_upd := Poly_Update X; m_fin := Poly_Finalize X; m_sec := Poly_FinalizeS X; m_comp := Poly_Compute X; m_reset := Poly_Reset |}.
End ops.
(** None before Initialize; otherwise the key, the accumulator the message starts from, and the message so far.
    Taking a tag does not end the message: the accumulator moves past all of it, and the bytes of its last, partial
    block stay in front of whatever comes next *)
Definition pstate : Type := option (list Z * Z * list Z).
Definition after_tag (key : list Z) (a : Z) (m : list Z) : pstate :=
  Some (key, poly_sum (poly_r key) a m, skipn (length m / 16 * 16) m).
(** next state and the allowed results of one call *)
Definition pspec (st : pstate) (c : mcall) : pstate * (dres -> Prop) :=
  match c with
  | MInit k => if (length k <? 32)%nat then (st, fun r => r = Failed InvalidKey) else (Some (k, 0, []), fun r => r = Done)
  | MReset => (None, fun r => r = Done)
  | _ =>
    match st with
    | None => (None, fun r => r = Failed NotInitialized)
    | Some (k, a, m) =>
      match c with
      | MUpdate p =>
        if (p_off p + p_len p <=? length (p_in p))%nat then (Some (k, a, m ++ p_data p), fun r => r = Done) else (st, fun r => r = Failed InvalidSize)
      | MFinal out oo =>
        if (oo + 16 <=? length out)%nat then (after_tag k a m, fun r => exists out', r = Wrote out' /\ written out out' oo (poly_tag k a m))
        else (st, fun r => r = Failed InvalidSize)
      | MSecure out oo => (after_tag k a m, fun r => exists out', r = Wrote out' /\ written out out' oo (poly_tag k a m))
      | MCompute inp out =>
        if (16 <=? length out)%nat then (after_tag k a (m ++ inp), fun r => exists out', r = Wrote out' /\ written out out' 0 (poly_tag k a (m ++ inp)))
        else (st, fun r => r = Failed InvalidSize)
      | _ => (st, fun _ => False)
      end
    end
  end.
Fixpoint pexpected (st : pstate) (cs : list mcall) (rs : list dres) : Prop :=
  match cs, rs with
  | [], [] => True
  | c :: cs, r :: rs => snd (pspec st c) r /\ pexpected (fst (pspec st c)) cs rs
  | _, _ => False
  end.
