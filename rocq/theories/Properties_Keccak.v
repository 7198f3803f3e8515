(** * Properties of the Keccak permutations and SHA3: C34, C35 *)
From Verif Require Import Base Spec_Common Spec_Feed Spec_Keccak Model_Keccak Model_SHA3 Session_Digest Proofs_Keccak ProofsP_Keccak.
Open Scope Z_scope.

(** ** C34 SHA3 *)
(** any sequence of Update, Finalize, Compute and Reset calls on one object *)
Theorem C34_every_history256 cs : Forall dcall_ok cs ->
  exists rs, dhistory SHA3256_Update SHA3256_Finalize SHA3256_Compute SHA3256_new SHA3256_new cs = Ok rs /\ expected sha3_256 32 [] cs rs.
Proof. exact (c34_hist256 cs). Qed.
Print Assumptions C34_every_history256.
Theorem C34_every_history512 cs : Forall dcall_ok cs ->
  exists rs, dhistory SHA3512_Update SHA3512_Finalize SHA3512_Compute SHA3512_new SHA3512_new cs = Ok rs /\ expected sha3_512 64 [] cs rs.
Proof. exact (c34_hist512 cs). Qed.
Print Assumptions C34_every_history512.
Example C34_case : Forall dcall_ok [CUpdate (Piece [9; 97; 98] 1 2); CFinal (zeros 16) 0; CUpdate (Piece [99] 0 1); CFinal (zeros 40) 4; CReset; CCompute [1] (zeros 32)].
Proof. repeat first [apply Forall_nil | apply Forall_cons]; cbn; auto; try (split; cbn; auto); repeat constructor; unfold is_byte; lia. Qed.
(** the stateless form: every even number of rounds up to 48, every even rate from 67 bytes on *)
Theorem C34_stateless R rate inp io len out oo : (R <= 48)%nat -> Nat.even R = true -> bytes inp -> (io + len <= length inp)%nat -> (67 <= rate < 200)%nat -> Nat.even rate = true ->
  (oo + (200 - rate) / 2 <= length out)%nat ->
  exists out', Compute R inp io len out oo rate = Ok out' /\ written out out' oo (sponge (keccak R) rate zero_state 6 (slice inp io len) ((200 - rate) / 2)).
Proof. exact (c34_compute R rate inp io len out oo). Qed.
Print Assumptions C34_stateless.
Example C34_stateless_case : (24 <= 48)%nat /\ Nat.even 24 = true /\ (67 <= 136 < 200)%nat /\ Nat.even 136 = true /\ ((200 - 136) / 2 = 32)%nat.
Proof. cbv. intuition lia. Qed.
(** the specification on the FIPS 202 sample message "abc" *)
Example C34_spec_abc : be_val (firstn 16 (sha3_256 [97; 98; 99])) = 0x3a985da74fe225b2045c172d6bd390bd.
Proof. vm_compute. reflexivity. Qed.

(** ** C35 The permutation *)
Theorem C35_unrolled24 st : is_state st -> PermuteR24P1600U st = keccak 24 st.
Proof. exact (R24_ok st). Qed.
Print Assumptions C35_unrolled24.
Theorem C35_unrolled48 st : is_state st -> PermuteR48P1600U st = keccak 48 st.
Proof. exact (R48_ok st). Qed.
Print Assumptions C35_unrolled48.
(** the compact form, with any even number of rounds up to 48 *)
Theorem C35_compact n st : (n <= 24)%nat -> is_state st -> Permute (2 * n) st = keccak (2 * n) st.
Proof. exact (Permute_ok n st). Qed.
Print Assumptions C35_compact.
(** it maps states to states and has a two-sided inverse *)
Theorem C35_bijective n : exists g, forall A, is_state A -> is_state (keccak n A) /\ is_state (g A) /\ g (keccak n A) = A /\ keccak n (g A) = A.
Proof. exact (c35_bijective n). Qed.
Print Assumptions C35_bijective.
Example C35_case : is_state (map (fun i => Z.of_nat i * 0x0102030405060708) (seq 0 25)).
Proof. split; [reflexivity|]. repeat constructor; cbn; lia. Qed.
