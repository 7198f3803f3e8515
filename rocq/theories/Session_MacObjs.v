(** The MAC objects of the model as call interfaces, and what a user expects of them. *)
From Verif Require Import Base Spec_Common Spec_MAC Model_CMAC Model_HMAC Session_Digest Session_Mac.
Open Scope Z_scope.

(** ** CMAC over the block cipher [E key block], legal key sizes [legal]: taking a tag into a std::vector uses the
    object up, taking it into a SecureVector removes the key *)
Section cmac.
Context (E : list Z -> list Z -> list Z) (legal : nat -> bool).
Definition cmac_ops : mac_ops cmac_obj :=
  {| m_init := CMAC_Initialize E legal; m_upd := CMAC_Update E; m_fin := CMAC_Finalize E; m_sec := CMAC_FinalizeS E; m_comp := CMAC_Compute E; m_reset := CMAC_Reset |}.
Definition cmac_mac_spec : mac_spec :=
  {| mac := fun k m => cmac (E k) m; tagsize := 16; minkey := 16; legal_key := legal; after_final := fun _ => MSpent; after_secure := fun _ => MNone; compute_shrinks := true |}.

End cmac.

(** ** HMAC over a digest object for the hash [H]: after a tag the object starts a new message under the same key *)
Section hmac.
Context {D : Type} (rate n : nat) (dupd : D -> list Z -> nat -> nat -> res D) (dfin : D -> list Z -> nat -> res (D * list Z)) (dnew : D) (H : list Z -> list Z).
Definition hmac_ops : mac_ops (hmac_obj D) :=
  {| m_init := HMAC_Initialize rate n dupd dfin dnew; m_upd := HMAC_Update dupd; m_fin := HMAC_Finalize n dupd dfin; m_sec := HMAC_FinalizeS n dupd dfin;
     m_comp := HMAC_Compute n dupd dfin; m_reset := HMAC_Reset dnew |}.
Definition hmac_mac_spec : mac_spec :=
  {| mac := hmac H rate; tagsize := n; minkey := 8; legal_key := fun _ => true;
     after_final := fun st => match st with MOn k _ => MOn k [] | s => s end; after_secure := fun st => match st with MOn k _ => MOn k [] | s => s end; compute_shrinks := false |}.
End hmac.
