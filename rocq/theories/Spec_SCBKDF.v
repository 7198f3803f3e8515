(** The cost-based key derivation: what it computes.  No model definition is used here. *)
From Verif Require Import Base Spec_Common Spec_Keccak Spec_CSG.
Open Scope Z_scope.

Section scb.
Context (rate : nat).
Let f := keccak 24.
(** the state after the key, domain byte 24h; the IV is the customization, the info the function name *)
Definition scb_start (key iv info : list Z) : list Z * list Z :=
  let A0 := if (length iv + length info =? 0)%nat then zero_state else absorb f rate zero_state (bytepad (encode_string info ++ encode_string iv) rate) in
  let A := absorb f rate A0 (sponge_pad rate 36 key) in
  (A, firstn rate (lane_bytes A)).
(** one unit of cost: absorb the cache, and, if the cache is to grow, append a block of the state to it *)
Definition scb_unit (grow : bool) (p : list Z * list Z) : list Z * list Z :=
  let A := load rate (fst p) 36 (snd p) in
  (A, if grow then snd p ++ firstn rate (lane_bytes A) else snd p).
Definition scb_work (grow : bool) (cost : nat) (p : list Z * list Z) : list Z * list Z := Nat.iter cost (scb_unit grow) p.
(** a request for [n] bytes: the work, then the stream of the state; what stays behind is the state permuted once
    for every block, and the cache *)
Definition scb_output (grow : bool) (cost : nat) (p : list Z * list Z) (n : nat) : list Z := outputs rate (fst (scb_work grow cost p)) n.
Definition scb_after (grow : bool) (cost : nat) (p : list Z * list Z) (n : nat) : list Z * list Z :=
  let q := scb_work grow cost p in (Nat.iter (blocks_for rate n) f (fst q), snd q).
End scb.
