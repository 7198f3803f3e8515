(** C75: the cost-based key derivation function.  Statements only; see Spec_SCBKDF.v for what it computes and
    Session_SCBKDF.v for the call histories. *)
From Verif Require Import Base BaseLemmas Spec_Common Spec_Keccak Spec_CSG Spec_SCBKDF Model_SCBKDF Session_Digest Session_KMAC Session_SCBKDF Proofs_SCBKDF.
Open Scope Z_scope.

(** C75: whatever calls are made, and however the costs are set between them, each call returns what the
    specification says: one absorption of the cache for each unit of CpuCost, then the output stream. *)
Theorem C75_every_history : forall (rate cpu : nat) (mem : Z) (cs : list bcall), In rate scb_rates -> Forall (bcall_ok rate) cs ->
  exists o rs, bhistory rate (SCB_new cpu mem) cs = Ok (o, rs) /\ bexpected rate cpu mem None cs rs.
Proof. exact c75_every_history. Qed.
Print Assumptions C75_every_history.
Example C75_case :
  let cs := [BGen (zeros 3) 0 3; BInit (zeros 15) [] []; BInit (zeros 16) (zeros 8) [1; 2; 3]; BGen (zeros 20) 0 10; BCosts 3 1; BGen (zeros 300) 10 290; BGen (zeros 4) 2 3; BReset; BGen [] 0 0] in
  In 168%nat scb_rates /\ Forall (bcall_ok 168) cs.
Proof.
  cbv zeta. split; [left; reflexivity|].
  repeat (apply Forall_cons; [cbn [bcall_ok]; repeat split; try (cbn [length]; lia); try apply bytes_zeros; try (repeat (apply Forall_cons; [red; lia|]); apply Forall_nil); try (unfold short, fits_block; vm_compute; reflexivity || lia)|]). apply Forall_nil.
Qed.

(** Refuted: "MemoryCost is the amount of memory used by the function, in megabytes".  Whatever the positive
    memory cost, the output is the same and the memory held is [rate] bytes for each unit of CpuCost. *)
Theorem C75_memory_cost_refuted : forall (rate cpu : nat) (mem : Z) (key iv info : list Z) (n : nat),
  In rate scb_rates -> bcall_ok rate (BInit key iv info) -> (16 <= length key)%nat -> 0 < mem < 2 ^ 44 ->
  exists o, bhistory rate (SCB_new cpu mem) [BInit key iv info; BGen (zeros n) 0 n] = Ok (o, [Done; Wrote (scb_output rate true cpu (scb_start rate key iv info) n)]) /\
    length (sb_cache o) = (rate * (cpu + 1))%nat.
Proof. exact c75_memory. Qed.
Print Assumptions C75_memory_cost_refuted.
(** one megabyte asked for, the default CpuCost of 10000: 1.68 megabytes *)
Example C75_memory_cost_case : bcall_ok 168 (BInit (zeros 16) [] []) /\ 0 < 1 < 2 ^ 44 /\ 168 * (10000 + 1) > 1 * 1000000.
Proof.
  split; [|lia]. cbn [bcall_ok]; repeat split; try apply bytes_zeros; try apply Forall_nil; try (unfold short, fits_block; vm_compute; reflexivity || lia).
Qed.
