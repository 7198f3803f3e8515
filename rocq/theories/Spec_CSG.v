(** A random generator on a sponge: what its calls should compute.  No model definition is used here. *)
From Verif Require Import Base Spec_Common Spec_Keccak.
Open Scope Z_scope.

Section sponge.
Context (rate : nat).
Let f := keccak 24.
(** absorb a padded message, leaving the last permutation to the squeezing phase *)
Definition load (A : list Z) (dom : Z) (m : list Z) : list Z :=
  let bs := chunks rate (sponge_pad rate dom m) in
  xor_lanes (fold_left (absorb_block f rate) (removelast bs) A) (lane_words (last bs [] ++ zeros (200 - rate))).
(** the output stream of a loaded state *)
Definition outputs (A : list Z) (n : nat) : list Z := firstn n (squeeze f rate (n / rate + 1) (f A)).
(** blocks of [rate] bytes that hold [n] bytes *)
Definition blocks_for (n : nat) : nat := ((n + rate - 1) / rate)%nat.

(** the generator: loaded state [A], [k] blocks of its stream made and [pos] bytes of it given out *)
Record gen := Gen { gn_ready : bool; gn_A : list Z; gn_dom : Z; gn_k : nat; gn_pos : nat; gn_since : Z; gn_reseeds : Z; gn_calls : nat }.
Definition gen_new : gen := Gen false zero_state 0 0 0 0 0 0.
(** a new seed: absorbed into the state that the made blocks have led to; one block is made at once *)
Definition reseed (g : gen) (m : list Z) : gen :=
  Gen (gn_ready g) (load (Nat.iter (gn_k g) f (gn_A g)) (gn_dom g) m) (gn_dom g) 1 0 (gn_since g) (gn_reseeds g) (gn_calls g).
(** the next [n] bytes *)
Definition next_bytes (g : gen) (n : nat) : list Z := skipn (gn_pos g) (outputs (gn_A g) (gn_pos g + n)).
Definition advance (g : gen) (n : nat) : gen :=
  Gen (gn_ready g) (gn_A g) (gn_dom g) (Nat.max (gn_k g) (blocks_for (gn_pos g + n))) (gn_pos g + n) (gn_since g) (gn_reseeds g) (gn_calls g).
Definition keyed (g : gen) (key iv info : list Z) : gen :=
  if (length iv + length info =? 0)%nat then Gen true (load zero_state 31 key) 31 0 0 0 0 (gn_calls g)
  else Gen true (load (absorb f rate zero_state (bytepad (encode_string info ++ encode_string iv) rate)) 4 key) 4 0 0 0 0 (gn_calls g).
(** one call of the provider: [(200 - rate) / 2] bytes of seed *)
Definition provided (p : nat -> nat -> list Z) (g : gen) : gen :=
  let g' := reseed g (p (gn_calls g) ((200 - rate) / 2)%nat) in
  Gen (gn_ready g') (gn_A g') (gn_dom g') (gn_k g') (gn_pos g') (gn_since g') (gn_reseeds g') (S (gn_calls g)).
Definition with_counts (g : gen) (since reseeds : Z) : gen :=
  Gen (gn_ready g) (gn_A g) (gn_dom g) (gn_k g) (gn_pos g) since reseeds (gn_calls g).
End sponge.
