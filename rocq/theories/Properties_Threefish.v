(** C66: the Threefish permutations behind TSX256, TSX512, TSX1024 and the Skein digests. *)
From Verif Require Import Base Spec_Threefish Model_Threefish ProofsP_Threefish.
Open Scope Z_scope.

(** TSX256 encrypts the counter, completed by all-one words, with 72-round Threefish-256 *)
Theorem C66_tsx256_block : forall key ctr tw, length key = 4%nat -> length ctr = 2%nat -> length tw = 2%nat ->
  PemuteR72P256U key ctr tw = Ok (threefish threefish256 72 key tw (ctr ++ repeat (2 ^ 64 - 1) 2)).
Proof. exact c66_256. Qed.
Print Assumptions C66_tsx256_block.
(** TSX512 and TSX1024: 96 and 120 rounds of Threefish, except that the last subkey takes its key and tweak words as
    subkey 18 (20) does and adds the number 24 (30) *)
Theorem C66_tsx512_block : forall key ctr tw, length key = 8%nat -> length ctr = 2%nat -> length tw = 2%nat ->
  PemuteR96P512U key ctr tw = Ok (tf_encrypt threefish512 96 (subkey threefish512 key tw 18 24) key tw (ctr ++ repeat (2 ^ 64 - 1) 6)).
Proof. exact c66_512. Qed.
Print Assumptions C66_tsx512_block.
Theorem C66_tsx1024_block : forall key ctr tw, length key = 16%nat -> length ctr = 2%nat -> length tw = 2%nat ->
  PemuteR120P1024U key ctr tw = Ok (tf_encrypt threefish1024 120 (subkey threefish1024 key tw 20 30) key tw (ctr ++ repeat (2 ^ 64 - 1) 14)).
Proof. exact c66_1024. Qed.
Print Assumptions C66_tsx1024_block.
(** so they are not Threefish with these numbers of rounds *)
Theorem C66_tsx512_threefish_refuted : exists key ctr tw, words64 8 key /\ words64 2 ctr /\ words64 2 tw /\
  PemuteR96P512U key ctr tw <> Ok (threefish threefish512 96 key tw (ctr ++ repeat (2 ^ 64 - 1) 6)).
Proof. exact c66_last512. Qed.
Print Assumptions C66_tsx512_threefish_refuted.
Theorem C66_tsx1024_threefish_refuted : exists key ctr tw, words64 16 key /\ words64 2 ctr /\ words64 2 tw /\
  PemuteR120P1024U key ctr tw <> Ok (threefish threefish1024 120 key tw (ctr ++ repeat (2 ^ 64 - 1) 14)).
Proof. exact c66_last1024. Qed.
Print Assumptions C66_tsx1024_threefish_refuted.
(** the permutations of the Skein digests: the state is the key, the block is encrypted under it *)
Theorem C66_skein256_block : forall block tw key, length block = 4%nat -> length tw = 2%nat -> length key = 4%nat ->
  Skein_PemuteR72P256U block tw key = Ok (threefish threefish256 72 key tw block).
Proof. exact Proofs_Threefish2.skein256_ok. Qed.
Print Assumptions C66_skein256_block.
Theorem C66_skein512_block : forall block tw key, length block = 8%nat -> length tw = 2%nat -> length key = 8%nat ->
  Skein_PemuteR72P512U block tw key = Ok (threefish threefish512 72 key tw block).
Proof. exact Proofs_Threefish2.skein512_ok. Qed.
Print Assumptions C66_skein512_block.
Theorem C66_skein1024_block : forall block tw key, length block = 16%nat -> length tw = 2%nat -> length key = 16%nat ->
  Skein_PemuteR80P1024U block tw key = Ok (threefish threefish1024 80 key tw block).
Proof. exact Proofs_Threefish2.skein1024_ok. Qed.
Print Assumptions C66_skein1024_block.
Example C66_block_case : length [1; 2; 3; 4] = 4%nat /\ length [7; 0] = 2%nat /\ length [5; 6] = 2%nat /\
  exists b, PemuteR72P256U [1; 2; 3; 4] [7; 0] [5; 6] = Ok b /\ b <> [7; 0; 2 ^ 64 - 1; 2 ^ 64 - 1].
Proof. split; [reflexivity|]. split; [reflexivity|]. split; [reflexivity|]. eexists. split; [vm_compute; reflexivity|discriminate]. Qed.
(** under one key and tweak, different counters give different key-stream blocks *)
Theorem C66_counters_differ : forall key ctr ctr' tw, length tw = 2%nat -> words64 2 ctr -> words64 2 ctr' -> ctr <> ctr' ->
  (length key = 4%nat -> PemuteR72P256U key ctr tw <> PemuteR72P256U key ctr' tw) /\
  (length key = 8%nat -> PemuteR96P512U key ctr tw <> PemuteR96P512U key ctr' tw) /\
  (length key = 16%nat -> PemuteR120P1024U key ctr tw <> PemuteR120P1024U key ctr' tw).
Proof. exact c66_counters. Qed.
Print Assumptions C66_counters_differ.
Example C66_counters_case : words64 2 [0; 0] /\ words64 2 [0; 1] /\ [0; 0] <> [0; 1].
Proof. repeat split; repeat constructor; try discriminate; intros; reflexivity. Qed.
(** and different message blocks give different cipher blocks *)
Theorem C66_blocks_differ : forall key tw m m', length tw = 2%nat -> m <> m' ->
  (length key = 4%nat -> words64 4 m -> words64 4 m' -> Skein_PemuteR72P256U m tw key <> Skein_PemuteR72P256U m' tw key) /\
  (length key = 8%nat -> words64 8 m -> words64 8 m' -> Skein_PemuteR72P512U m tw key <> Skein_PemuteR72P512U m' tw key) /\
  (length key = 16%nat -> words64 16 m -> words64 16 m' -> Skein_PemuteR80P1024U m tw key <> Skein_PemuteR80P1024U m' tw key).
Proof. exact c66_skein_inj. Qed.
Print Assumptions C66_blocks_differ.
