(** * Properties of the SHA-2 digests: C30, C31, C32, C33, C50 *)
From Verif Require Import BaseLemmas Spec_Common Spec_Feed Spec_SHA2 Model_SHA2 Model_SHA2Par Session_Digest Session_SHA2 ProofsP_SHA2 Proofs_SHA2obj Proofs_SHA2cmp.
Open Scope Z_scope.

(** ** C30 SHA2-256 *)
(** any sequence of Update, Finalize, Compute and Reset calls on one object *)
Theorem C30_every_history cs : Forall dcall_ok cs ->
  exists rs, dhistory SHA2256_Update SHA2256_Finalize SHA2256_Compute SHA2256_new SHA2256_new cs = Ok rs /\ expected sha256 32 [] cs rs.
Proof. exact (c30_hist cs). Qed.
Print Assumptions C30_every_history.
Example C30_case : Forall dcall_ok [CUpdate (Piece [9; 97; 98] 1 2); CFinal (zeros 16) 0; CUpdate (Piece [99] 0 1); CFinal (zeros 40) 4; CReset; CCompute [1] (zeros 32)].
Proof. repeat first [apply Forall_nil | apply Forall_cons]; cbn; auto; try (split; cbn; auto); repeat constructor; unfold is_byte; lia. Qed.
(** the stateless form *)
Theorem C30_compute256 inp io len out oo : bytes inp -> (io + len <= length inp)%nat -> (oo + 32 <= length out)%nat ->
  exists out', SHA2_Compute256 inp io len out oo = Ok out' /\ written out out' oo (sha256 (slice inp io len)).
Proof. exact (c30_compute256 inp io len out oo). Qed.
Print Assumptions C30_compute256.
(** the specification on the FIPS 180-4 sample message "abc" *)
Example C30_spec_abc : be_val (sha256 [97; 98; 99]) = 0xba7816bf8f01cfea414140de5dae2223b00361a396177a9cb410ff61f20015ad.
Proof. vm_compute. reflexivity. Qed.

(** ** C31 SHA2-512 *)
Theorem C31_every_history cs : Forall dcall_ok cs ->
  exists rs, dhistory SHA2512_Update SHA2512_Finalize SHA2512_Compute SHA2512_new SHA2512_new cs = Ok rs /\ expected sha512_code 64 [] cs rs.
Proof. exact (c31_hist cs). Qed.
Print Assumptions C31_every_history.
(** [sha512_code] is SHA-512 unless the length is within 128 bytes below a multiple of 2^61 and the padding takes two blocks *)
Theorem C31_is_sha512 m : Z.of_nat (length m) mod 128 < 112 \/ Z.of_nat (length m) mod 2 ^ 61 < 2 ^ 61 - 128 -> sha512_code m = sha512 m.
Proof. exact (c31_exact m). Qed.
Print Assumptions C31_is_sha512.
Example C31_case : Z.of_nat (length (zeros 200)) mod 128 < 112 \/ Z.of_nat (length (zeros 200)) mod 2 ^ 61 < 2 ^ 61 - 128.
Proof. left. vm_compute. reflexivity. Qed.
(** for the remaining lengths the length field is not the bit length *)
Theorem C31_length_field_refuted n : n mod 128 >= 112 -> n mod 2 ^ 61 >= 2 ^ 61 - 128 -> code_field n mod 2 ^ 128 <> (8 * n) mod 2 ^ 128.
Proof.
  intros H1 H2. rewrite (c31_other n H1 H2). intros E. change (2 ^ 128) with 340282366920938463463374607431768211456 in E. change (2 ^ 64) with 18446744073709551616 in E. clear H1 H2. lia.
Qed.
Print Assumptions C31_length_field_refuted.
Example C31_length_field_case : (2 ^ 61 - 1) mod 128 >= 112 /\ (2 ^ 61 - 1) mod 2 ^ 61 >= 2 ^ 61 - 128 /\ code_field (2 ^ 61 - 1) = 8 * (2 ^ 61 - 1) + 2 ^ 64.
Proof. vm_compute. intuition discriminate. Qed.
Theorem C31_compute512 inp io len out oo : bytes inp -> (io + len <= length inp)%nat -> (oo + 64 <= length out)%nat -> Z.of_nat len < 2 ^ 61 ->
  exists out', SHA2_Compute512 inp io len out oo = Ok out' /\ written out out' oo (sha512 (slice inp io len)).
Proof. exact (c31_compute512 inp io len out oo). Qed.
Print Assumptions C31_compute512.
Theorem C31_compute384 inp io len out oo : bytes inp -> (io + len <= length inp)%nat -> (oo + 48 <= length out)%nat -> Z.of_nat len < 2 ^ 61 ->
  exists out', SHA2_Compute384 inp io len out oo = Ok out' /\ written out out' oo (sha384 (slice inp io len)).
Proof. exact (c31_compute384 inp io len out oo). Qed.
Print Assumptions C31_compute384.
Example C31_spec_abc : be_val (firstn 16 (sha512 [97; 98; 99])) = 0xddaf35a193617abacc417349ae204131.
Proof. vm_compute. reflexivity. Qed.

(** ** C32 The block functions *)
Theorem C32_unrolled256 inp io h : length h = 8%nat -> bytes inp -> (io + 64 <= length inp)%nat ->
  PermuteR64P512U inp io h = Ok (compress256 h (be_words 4 (slice inp io 64))).
Proof. exact (permute256_ok inp io h). Qed.
Print Assumptions C32_unrolled256.
Theorem C32_compact256 inp io h : length h = 8%nat -> bytes inp -> (io + 64 <= length inp)%nat ->
  PermuteR64P512C inp io h = Ok (compress256 h (be_words 4 (slice inp io 64))).
Proof. exact (permute256C_ok inp io h). Qed.
Print Assumptions C32_compact256.
Theorem C32_unrolled512 inp io h : length h = 8%nat -> bytes inp -> (io + 128 <= length inp)%nat ->
  PermuteR80P1024U inp io h = Ok (compress512 h (be_words 8 (slice inp io 128))).
Proof. exact (permute512_ok inp io h). Qed.
Print Assumptions C32_unrolled512.
Theorem C32_compact512 inp io h : length h = 8%nat -> bytes inp -> (io + 128 <= length inp)%nat ->
  PermuteR80P1024C inp io h = Ok (compress512 h (be_words 8 (slice inp io 128))).
Proof. exact (permute512C_ok inp io h). Qed.
Print Assumptions C32_compact512.
Example C32_case : length H256 = 8%nat /\ length H512 = 8%nat /\ bytes (zeros 130) /\ (2 + 128 <= length (zeros 130))%nat.
Proof. split; [rewrite <- H256_eq; reflexivity|]. split; [rewrite <- H512_eq; reflexivity|]. split; [apply bytes_zeros|]. rewrite length_zeros. lia. Qed.

(** ** C33 Parallel mode reads only half of the leaves *)
(** the digest of a message that fills all [d] leaves is the plain hash of the first d / 2 chaining values, each
    followed by as many zero bytes *)
Theorem C33_digest256 hdr d m : (0 < d)%nat -> Nat.even d = true -> hdr_ok 64 hdr -> bytes m -> (length m mod (d * 64) = 0)%nat ->
  value256 hdr d m (sha256 (concat (map (fun i => words_out 4 (leaf_value 64 (fun h b => compress256 h (be_words 4 b)) H256 hdr d m i) ++ zeros 32) (seq 0 (d / 2))))).
Proof. exact (c33_256 hdr d m). Qed.
Print Assumptions C33_digest256.
Theorem C33_digest512 hdr d m : (0 < d)%nat -> Nat.even d = true -> hdr_ok 128 hdr -> bytes m -> (length m mod (d * 128) = 0)%nat ->
  value512 hdr d m (sha512 (concat (map (fun i => words_out 8 (leaf_value 128 (fun h b => compress512 h (be_words 8 b)) H512 hdr d m i) ++ zeros 64) (seq 0 (d / 2))))).
Proof. exact (c33_512 hdr d m). Qed.
Print Assumptions C33_digest512.
(** messages that differ only in the other half of the blocks have the same digest *)
Theorem C33_collision256 hdr d m m' h : (0 < d)%nat -> Nat.even d = true -> hdr_ok 64 hdr -> bytes m -> bytes m' -> (length m mod (d * 64) = 0)%nat ->
  same_first_half 64 d m m' -> value256 hdr d m h -> value256 hdr d m' h.
Proof. exact (c33_collide256 hdr d m m' h). Qed.
Print Assumptions C33_collision256.
Theorem C33_collision512 hdr d m m' h : (0 < d)%nat -> Nat.even d = true -> hdr_ok 128 hdr -> bytes m -> bytes m' -> (length m mod (d * 128) = 0)%nat ->
  same_first_half 128 d m m' -> value512 hdr d m h -> value512 hdr d m' h.
Proof. exact (c33_collide512 hdr d m m' h). Qed.
Print Assumptions C33_collision512.
(** and there are such messages for every even number of leaves: explicit collisions *)
Theorem C33_every_leaf_refuted hdr d : (0 < d)%nat -> Nat.even d = true ->
  (hdr_ok 64 hdr -> exists m m' h, m <> m' /\ bytes m /\ bytes m' /\ value256 hdr d m h /\ value256 hdr d m' h) /\
  (hdr_ok 128 hdr -> exists m m' h, m <> m' /\ bytes m /\ bytes m' /\ value512 hdr d m h /\ value512 hdr d m' h).
Proof.
  intros Hd He. split; intros Hh.
  - destruct (half_block 64 d) as (m & m' & B & B' & N & L & S); auto; [lia|]. destruct (c50_256 hdr d m Hd Hh B) as (h & V). exists m, m', h. split; [auto|]. split; [auto|]. split; [auto|]. split; [exact V|].
    apply (c33_collide256 hdr d m m'); auto. rewrite L. apply Nat.mod_same. lia.
  - destruct (half_block 128 d) as (m & m' & B & B' & N & L & S); auto; [lia|]. destruct (c50_512 hdr d m Hd Hh B) as (h & V). exists m, m', h. split; [auto|]. split; [auto|]. split; [auto|]. split; [exact V|].
    apply (c33_collide512 hdr d m m'); auto. rewrite L. apply Nat.mod_same. lia.
Qed.
Print Assumptions C33_every_leaf_refuted.
Example C33_case : hdr_ok 64 (fun i => Z.of_nat (i mod 256) :: zeros 63) /\ (0 < 8)%nat /\ Nat.even 8 = true.
Proof.
  split; [|split; [lia|reflexivity]]. intros i. split; [|reflexivity]. constructor; [|apply bytes_zeros]. pose proof (Nat.mod_upper_bound i 256 ltac:(lia)). unfold is_byte. lia.
Qed.

(** ** C50 The parallel digest does not depend on the pieces or on ParallelBlockSize *)
Theorem C50_digest256 hdr d m : (0 < d)%nat -> hdr_ok 64 hdr -> bytes m -> exists h, value256 hdr d m h.
Proof. exact (c50_256 hdr d m). Qed.
Print Assumptions C50_digest256.
Theorem C50_digest512 hdr d m : (0 < d)%nat -> hdr_ok 128 hdr -> bytes m -> exists h, value512 hdr d m h.
Proof. exact (c50_512 hdr d m). Qed.
Print Assumptions C50_digest512.
Theorem C50_one_value hdr d m h1 h2 : bytes m -> (value256 hdr d m h1 -> value256 hdr d m h2 -> h1 = h2) /\ (value512 hdr d m h1 -> value512 hdr d m h2 -> h1 = h2).
Proof. intros B. split; [exact (value256_unique hdr d m h1 h2 B)|exact (value512_unique hdr d m h1 h2 B)]. Qed.
Print Assumptions C50_one_value.
Example C50_case : hdr_ok 128 (fun i => Z.of_nat (i mod 256) :: zeros 127) /\ bytes (zeros 3000) /\ (3000 mod (8 * 128) <> 0)%nat.
Proof.
  split; [|split; [apply bytes_zeros|cbn; lia]]. intros i. split; [|reflexivity]. constructor; [|apply bytes_zeros]. pose proof (Nat.mod_upper_bound i 256 ltac:(lia)). unfold is_byte. lia.
Qed.
