(** * Properties of GMAC: C63 *)
From Verif Require Import BaseLemmas Spec_Common Spec_Feed Spec_GCM Session_Digest Model_GMAC Session_GMAC Proofs_GMAC.
Open Scope Z_scope.

(** Every sequence of Initialize, Update, Finalize (both forms), Compute and Reset calls, over every 128-bit block cipher:
    each tag is the GCM tag (SP 800-38D) of the message fed since Initialize as associated data without plaintext; it uses
    up key and nonce, so that every further call is refused until the next Initialize; refused calls change nothing, except
    that an Initialize refused by the cipher removes the key *)
Theorem C63_every_history E legal cs : (forall k b, bytes b /\ length b = 16%nat -> bytes (E k b) /\ length (E k b) = 16%nat) ->
  Forall gcall_ok cs -> exists rs, ghistory E legal GMAC_new cs = Ok rs /\ gexpected E legal None cs rs.
Proof. exact (fun HE => gmac_hist E legal HE cs). Qed.
Print Assumptions C63_every_history.
Definition toy16 (k b : list Z) : list Z := map (fun x => (5 * x + 1 + nth 0 k 0) mod 256) b.
Definition gcalls : list gcall :=
  [GUpdate (Piece [1] 0 1); GInit (zeros 5) (zeros 12); GInit (zeros 16) (zeros 11); GInit (7 :: zeros 15) (zeros 12); GUpdate (Piece [9; 97; 98] 1 2); GFinal (zeros 8) 0;
   GUpdate (Piece (zeros 40) 3 30); GUpdate (Piece (zeros 4) 3 30); GFinal (zeros 20) 2; GUpdate (Piece [1] 0 1); GInit (zeros 32) (zeros 17); GCompute [1; 2; 3] (zeros 40); GReset; GSecure (zeros 16) 0].
Example C63_every_history_case : (forall k b, bytes b /\ length b = 16%nat -> bytes (toy16 k b) /\ length (toy16 k b) = 16%nat) /\ Forall gcall_ok gcalls /\
  match ghistory toy16 (fun n => (n =? 16)%nat || (n =? 32)%nat) GMAC_new gcalls with
  | Ok [Failed NotInitialized; Failed InvalidKey; Failed InvalidSalt; Done; Done; Failed InvalidSize; Done; Failed InvalidSize; Wrote _; Failed NotInitialized; Done; Wrote _; Done; Failed NotInitialized] => True
  | _ => False
  end.
Proof.
  split; [|split].
  - intros k b (_ & L). unfold toy16. rewrite map_length. split; [|exact L]. apply Forall_forall. intros x Hx. apply in_map_iff in Hx. destruct Hx as (y & <- & _). red. lia.
  - repeat first [apply Forall_nil | apply Forall_cons]; cbn; repeat split; auto; try lia; repeat constructor; unfold is_byte; lia.
  - vm_compute. exact I.
Qed.

(** One message: Compute into an array of tag size returns its GMAC *)
Theorem C63_one_message E legal key iv m out : (forall k b, bytes b /\ length b = 16%nat -> bytes (E k b) /\ length (E k b) = 16%nat) ->
  (16 <= length key)%nat -> legal (length key) = true -> bytes iv -> (12 <= length iv)%nat -> bytes m -> length out = 16%nat ->
  ghistory E legal GMAC_new [GInit key iv; GCompute m out] = Ok [Done; Wrote (gcm_tag (E key) iv m [])].
Proof. exact (one_message E legal key iv m out). Qed.
Print Assumptions C63_one_message.
