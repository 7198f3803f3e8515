(** C36: the Blake256 and Blake512 digests are BLAKE2s and BLAKE2b, keyed or not, for every history of calls; the tree mode
    loses data. *)
From Verif Require Import Base Spec_Common Spec_Feed Session_Digest Session_Blake Spec_SHA2 Spec_Blake Model_Blake Model_BlakeTree ProofsP_Blake ProofsP_BlakeTree.
Open Scope Z_scope.

(** ** the compression functions, unrolled and compact, against RFC 7693 *)
Theorem C36_blake256_compression : forall inp io h t (f0 f1 : bool), length h = 8%nat -> (io + 64 <= length inp)%nat ->
  let iv := xorl H256 [0; 0; 0; 0; t mod 2 ^ 32; t / 2 ^ 32 mod 2 ^ 32; if f0 then 2 ^ 32 - 1 else 0; if f1 then 2 ^ 32 - 1 else 0] in
  PermuteR10P512U inp io h iv = Ok (compress 32 4 10 (16, 12, 8, 7) H256 h (slice inp io 64) t f0 f1) /\
  PermuteR10P512C inp io h iv = Ok (compress 32 4 10 (16, 12, 8, 7) H256 h (slice inp io 64) t f0 f1).
Proof. exact c36_compress256. Qed.
Print Assumptions C36_blake256_compression.
Theorem C36_blake512_compression : forall inp io h t (f0 f1 : bool), length h = 8%nat -> (io + 128 <= length inp)%nat ->
  let iv := xorl H512 [0; 0; 0; 0; t mod 2 ^ 64; t / 2 ^ 64 mod 2 ^ 64; if f0 then 2 ^ 64 - 1 else 0; if f1 then 2 ^ 64 - 1 else 0] in
  PermuteR12P1024U inp io h iv = Ok (compress 64 8 12 (32, 24, 16, 63) H512 h (slice inp io 128) t f0 f1) /\
  PermuteR12P1024C inp io h iv = Ok (compress 64 8 12 (32, 24, 16, 63) H512 h (slice inp io 128) t f0 f1).
Proof. exact c36_compress512. Qed.
Print Assumptions C36_blake512_compression.
Example C36_compression_case : length H256 = 8%nat /\ (3 + 64 <= length (zeros 70))%nat /\
  PermuteR10P512U (zeros 70) 3 H256 H256 = PermuteR10P512C (zeros 70) 3 H256 H256.
Proof. vm_compute. repeat split; repeat constructor. Qed.

(** ** the plain digest: any sequence of Update, Finalize, Compute and Reset calls *)
Theorem C36_blake256_unkeyed : forall cs, Forall dcall_ok cs ->
  exists rs, (o <- Blake256_new ;; bhistory Blake256_Initialize Blake256_Update Blake256_Finalize Blake256_Compute Blake256_Reset o (map BDo cs)) = Ok rs /\
    expected (blake2s []) 32 [] cs rs.
Proof. exact c36_unkeyed256. Qed.
Print Assumptions C36_blake256_unkeyed.
Theorem C36_blake512_unkeyed : forall cs, Forall dcall_ok cs ->
  exists rs, (o <- Blake512_new ;; bhistory Blake512_Initialize Blake512_Update Blake512_Finalize Blake512_Compute Blake512_Reset o (map BDo cs)) = Ok rs /\
    expected (blake2b []) 64 [] cs rs.
Proof. exact c36_unkeyed512. Qed.
Print Assumptions C36_blake512_unkeyed.
(** "abc" in two pieces *)
Example C36_unkeyed_case :
  Forall dcall_ok [CUpdate (Piece [9; 97; 98] 1 2); CUpdate (Piece [99] 0 1); CFinal (zeros 33) 1] /\
  (o <- Blake256_new ;; bhistory Blake256_Initialize Blake256_Update Blake256_Finalize Blake256_Compute Blake256_Reset o
     (map BDo [CUpdate (Piece [9; 97; 98] 1 2); CUpdate (Piece [99] 0 1); CFinal (zeros 33) 1])) = Ok [Done; Done; Wrote (0 :: blake2s [] [97; 98; 99])].
Proof.
  split; [|vm_compute; reflexivity].
  repeat constructor; cbn; unfold is_byte; lia.
Qed.

(** ** histories with Initialize: the state is a key length and the data hashed so far *)
Theorem C36_blake256_history : forall cs, Forall bcall_ok cs ->
  exists rs, (o <- Blake256_new ;; bhistory Blake256_Initialize Blake256_Update Blake256_Finalize Blake256_Compute Blake256_Reset o cs) = Ok rs /\
    bexpected (fun kk data => blake2s_data (s_param kk (zeros 8) (zeros 8)) data) 32 64 16 32 8 0 [] cs rs.
Proof. exact c36_history256. Qed.
Print Assumptions C36_blake256_history.
Theorem C36_blake512_history : forall cs, Forall bcall_ok cs ->
  exists rs, (o <- Blake512_new ;; bhistory Blake512_Initialize Blake512_Update Blake512_Finalize Blake512_Compute Blake512_Reset o cs) = Ok rs /\
    bexpected (fun kk data => blake2b_data (b_param kk (zeros 16) (zeros 16)) data) 64 128 32 64 16 0 [] cs rs.
Proof. exact c36_history512. Qed.
Print Assumptions C36_blake512_history.
(** constructed from BlakeParams on a machine without parallel processing: the distribution code is the end of the salt and
    the personalization for Blake256 and has no effect for Blake512 *)
Theorem C36_blake256_params : forall p cs, 1 <= p_fan p <= 64 -> length (p_dst p) = 12%nat -> Forall bcall_ok cs ->
  exists rs, (o <- Blake256_with p ;; bhistory Blake256_Initialize Blake256_Update Blake256_Finalize Blake256_Compute Blake256_Reset o cs) = Ok rs /\
    bexpected (fun kk data => blake2s_data (s_param kk (zeros 4 ++ firstn 4 (p_dst p)) (skipn 4 (p_dst p))) data) 32 64 16 32 8 0 [] cs rs.
Proof. exact c36_params256. Qed.
Print Assumptions C36_blake256_params.
Theorem C36_blake512_params : forall p cs, 1 <= p_fan p <= 64 -> Forall bcall_ok cs ->
  exists rs, (o <- Blake512_with p ;; bhistory Blake512_Initialize Blake512_Update Blake512_Finalize Blake512_Compute Blake512_Reset o cs) = Ok rs /\
    bexpected (fun kk data => blake2b_data (b_param kk (zeros 16) (zeros 16)) data) 64 128 32 64 16 0 [] cs rs.
Proof. exact c36_params512. Qed.
Print Assumptions C36_blake512_params.
Theorem C36_blake512_distribution_refuted : exists p t, p_fan p = 1 /\ length (p_dst p) = 40%nat /\
  (o <- Blake512_with p ;; bhistory Blake512_Initialize Blake512_Update Blake512_Finalize Blake512_Compute Blake512_Reset o [BDo (CFinal (zeros 64) 0)]) = Ok [Wrote t] /\
  t <> blake2b_data ([64; 0; 1; 1] ++ zeros 20 ++ p_dst p) [].
Proof. exact c36_params512_refuted. Qed.
Print Assumptions C36_blake512_distribution_refuted.
Example C36_history_case :
  Forall bcall_ok [BKey (zeros 15) [] []; BKey (zeros 16) [] (zeros 7); BDo CReset; BDo (CCompute [97; 98; 99] (zeros 31))] /\
  (o <- Blake256_new ;; bhistory Blake256_Initialize Blake256_Update Blake256_Finalize Blake256_Compute Blake256_Reset o
     [BKey (zeros 15) [] []; BKey (zeros 16) [] (zeros 7); BDo CReset; BDo (CCompute [97; 98; 99] (zeros 31))]) =
  Ok [Failed InvalidKey; Failed InvalidInfo; Done; Failed InvalidSize].
Proof. split; [|vm_compute; reflexivity]. repeat constructor; cbn; unfold is_byte; lia. Qed.

(** ** the keyed hash: Initialize, the message, Finalize, then a second message without a new Initialize.  The first code is
    RFC 7693 keyed hashing, whatever salt (IV) and personalization (Info) the key holds; the second is computed without the
    key *)
Theorem C36_blake256_keyed : forall key iv info ps out oo ps2 out2 oo2, (16 <= length key <= 32)%nat ->
  (length iv = 0 \/ length iv = 8)%nat -> (length info = 0 \/ length info = 8)%nat ->
  bytes key -> Forall p_ok ps -> Forall p_ok ps2 -> (oo + 32 <= length out)%nat -> (oo2 + 32 <= length out2)%nat ->
  exists t t2, (o <- Blake256_new ;; bhistory Blake256_Initialize Blake256_Update Blake256_Finalize Blake256_Compute Blake256_Reset o
                  (mac_calls key iv info ps out oo ps2 out2 oo2)) =
      Ok (Done :: repeat Done (length ps) ++ Wrote t :: repeat Done (length ps2) ++ [Wrote t2]) /\
    written out t oo (blake2s key (joined ps)) /\
    written out2 t2 oo2 (blake2s_data (s_param (length key) (zeros 8) (zeros 8)) (joined ps2)).
Proof. exact c36_keyed256. Qed.
Print Assumptions C36_blake256_keyed.
Theorem C36_blake512_keyed : forall key iv info ps out oo ps2 out2 oo2, (32 <= length key <= 64)%nat ->
  (length iv = 0 \/ length iv = 16)%nat -> (length info = 0 \/ length info = 16)%nat ->
  bytes key -> Forall p_ok ps -> Forall p_ok ps2 -> (oo + 64 <= length out)%nat -> (oo2 + 64 <= length out2)%nat ->
  exists t t2, (o <- Blake512_new ;; bhistory Blake512_Initialize Blake512_Update Blake512_Finalize Blake512_Compute Blake512_Reset o
                  (mac_calls key iv info ps out oo ps2 out2 oo2)) =
      Ok (Done :: repeat Done (length ps) ++ Wrote t :: repeat Done (length ps2) ++ [Wrote t2]) /\
    written out t oo (blake2b key (joined ps)) /\
    written out2 t2 oo2 (blake2b_data (b_param (length key) (zeros 16) (zeros 16)) (joined ps2)).
Proof. exact c36_keyed512. Qed.
Print Assumptions C36_blake512_keyed.
Example C36_keyed_case : (16 <= length (zeros 20) <= 32)%nat /\ bytes (zeros 20) /\ Forall p_ok [Piece [1; 2; 3] 1 2] /\
  (o <- Blake256_new ;; bhistory Blake256_Initialize Blake256_Update Blake256_Finalize Blake256_Compute Blake256_Reset o
     [BKey (zeros 20) [] []; BDo (CUpdate (Piece [1; 2; 3] 1 2)); BDo (CFinal (zeros 32) 0)]) = Ok [Done; Done; Wrote (blake2s (zeros 20) [2; 3])].
Proof.
  split; [cbn; lia|]. split; [repeat constructor; cbn; unfold is_byte; lia|]. split; [repeat constructor; cbn; unfold is_byte; lia|]. vm_compute. reflexivity.
Qed.
(** the salt of the key has no effect *)
Theorem C36_salt_refuted : exists key salt t, (16 <= length key <= 32)%nat /\ length salt = 8%nat /\
  (o <- Blake256_new ;; bhistory Blake256_Initialize Blake256_Update Blake256_Finalize Blake256_Compute Blake256_Reset o
     [BKey key salt []; BDo (CFinal (zeros 32) 0)]) = Ok [Done; Wrote t] /\
  t <> blake2s_with salt (zeros 8) key [].
Proof. exact c36_salt_refuted. Qed.
Print Assumptions C36_salt_refuted.
(** a keyed object used for a second message gives neither the keyed nor the plain hash *)
Theorem C36_second_message_refuted : exists key t t2, (16 <= length key <= 32)%nat /\
  (o <- Blake256_new ;; bhistory Blake256_Initialize Blake256_Update Blake256_Finalize Blake256_Compute Blake256_Reset o
     [BKey key [] []; BDo (CFinal (zeros 32) 0); BDo (CFinal (zeros 32) 0)]) = Ok [Done; Wrote t; Wrote t2] /\
  t = blake2s key [] /\ t2 <> blake2s key [] /\ t2 <> blake2s [] [].
Proof. exact c36_second_refuted. Qed.
Print Assumptions C36_second_message_refuted.

(** * The tree mode *)
(** ** as long as the message fits into the buffer the digest does not depend on how it is cut into pieces *)
Theorem C36_tree256_split : forall cores fan ps out oo, (2 <= fan)%nat -> Forall p_ok ps -> (length (joined ps) <= 2 * fan * 64)%nat ->
  (o <- Tree256_new fan ;; o <- feed (Tree256_Update cores fan) ps o ;; Tree256_Finalize cores fan o out oo) =
  (o <- Tree256_new fan ;; o <- Tree256_Update cores fan o (joined ps) 0 (length (joined ps)) ;; Tree256_Finalize cores fan o out oo).
Proof. exact c36_tree_split256. Qed.
Print Assumptions C36_tree256_split.
Theorem C36_tree512_split : forall cores fan ps out oo, (2 <= fan)%nat -> Forall p_ok ps -> (length (joined ps) <= 2 * fan * 128)%nat ->
  (o <- Tree512_new fan ;; o <- feed (Tree512_Update cores fan) ps o ;; Tree512_Finalize cores fan o out oo) =
  (o <- Tree512_new fan ;; o <- Tree512_Update cores fan o (joined ps) 0 (length (joined ps)) ;; Tree512_Finalize cores fan o out oo).
Proof. exact c36_tree_split512. Qed.
Print Assumptions C36_tree512_split.
Example C36_tree_split_case : let ps := [Piece [1; 2; 3] 1 2; Piece [4] 0 1] in Forall p_ok ps /\ (length (joined ps) <= 2 * 2 * 64)%nat /\
  (o <- Tree256_new 2 ;; o <- feed (Tree256_Update 4 2) ps o ;; r <- Tree256_Finalize 4 2 o (zeros 32) 0 ;; Ok (firstn 4 (snd r))) = Ok [111; 12; 61; 142].
Proof.
  cbv zeta. split; [repeat constructor; cbn; unfold is_byte; lia|]. split; [cbn; lia|]. vm_compute. reflexivity.
Qed.
(** ** longer messages: on a machine with a processor for every leaf the blocks [fan, 2 fan) of a message of more than
    3 fan - 1 blocks are never hashed, so messages that differ only there collide *)
Theorem C36_tree256_collision_refuted : forall cores fan m m' out, (2 <= fan <= cores)%nat -> length m' = length m -> (64 * (3 * fan - 1) < length m)%nat ->
  firstn (64 * fan) m' = firstn (64 * fan) m -> skipn (64 * (2 * fan)) m' = skipn (64 * (2 * fan)) m ->
  (o <- Tree256_new fan ;; Tree256_Compute cores fan o m' out) = (o <- Tree256_new fan ;; Tree256_Compute cores fan o m out).
Proof. exact c36_tree_drop256. Qed.
Print Assumptions C36_tree256_collision_refuted.
Theorem C36_tree512_collision_refuted : forall cores fan m m' out, (2 <= fan <= cores)%nat -> length m' = length m -> (128 * (3 * fan - 1) < length m)%nat ->
  firstn (128 * fan) m' = firstn (128 * fan) m -> skipn (128 * (2 * fan)) m' = skipn (128 * (2 * fan)) m ->
  (o <- Tree512_new fan ;; Tree512_Compute cores fan o m' out) = (o <- Tree512_new fan ;; Tree512_Compute cores fan o m out).
Proof. exact c36_tree_drop512. Qed.
Print Assumptions C36_tree512_collision_refuted.
Example C36_tree_collision_case :
  let m := zeros 321 in let m' := zeros 128 ++ [1] ++ zeros 192 in
  length m' = length m /\ (64 * (3 * 2 - 1) < length m)%nat /\ firstn (64 * 2) m' = firstn (64 * 2) m /\ skipn (64 * (2 * 2)) m' = skipn (64 * (2 * 2)) m /\ m' <> m /\
  (o <- Tree256_new 2 ;; r <- Tree256_Compute 2 2 o m' (zeros 32) ;; Ok (firstn 4 (snd r))) = Ok [79; 233; 26; 153].
Proof.
  cbv zeta. split; [vm_compute; reflexivity|]. split; [vm_compute; repeat constructor|]. split; [vm_compute; reflexivity|]. split; [vm_compute; reflexivity|].
  split; [vm_compute; discriminate|]. vm_compute. reflexivity.
Qed.
(** ** on a machine with fewer than a third of the processors (eight leaves, two processors) every long message makes Update
    read beyond its end *)
Theorem C36_tree256_cores_refuted : forall cores fan m, (2 <= cores)%nat -> (3 * cores <= fan)%nat -> (64 * (4 * fan + cores - 1) < length m)%nat ->
  (o <- Tree256_new fan ;; Tree256_Update cores fan o m 0 (length m)) = UB.
Proof. exact c36_tree_cores256. Qed.
Print Assumptions C36_tree256_cores_refuted.
Theorem C36_tree512_cores_refuted : forall cores fan m, (2 <= cores)%nat -> (3 * cores <= fan)%nat -> (128 * (4 * fan + cores - 1) < length m)%nat ->
  (o <- Tree512_new fan ;; Tree512_Update cores fan o m 0 (length m)) = UB.
Proof. exact c36_tree_cores512. Qed.
Print Assumptions C36_tree512_cores_refuted.
(** after ParallelMaxDegree(d) some lengths make Update read beyond the end on any machine *)
Theorem C36_tree256_degree_refuted : forall d m, (2 <= d <= 64)%nat -> (d mod 2 = 0)%nat -> (64 * (3 * d - 1) < length m < 64 * (3 * d))%nat ->
  (o <- Tree256_degree d ;; Tree256_degree_Update d o m 0 (length m)) = UB.
Proof. exact c36_tree_degree256. Qed.
Print Assumptions C36_tree256_degree_refuted.
Example C36_tree_cores_case : (3 * 2 <= 8)%nat /\ (64 * (4 * 8 + 2 - 1) < length (zeros 2150))%nat /\ (64 * (3 * 2 - 1) < length (zeros 350) < 64 * (3 * 2))%nat.
Proof. unfold zeros. rewrite !repeat_length. lia. Qed.
(** ** the tree form of Blake512 writes at the start of the output array whatever offset it is given *)
Theorem C36_tree512_offset_refuted : forall cores fan o out oo, (oo + 64 <= length out)%nat ->
  Tree512_Finalize cores fan o out oo = Tree512_Finalize cores fan o out 0.
Proof. exact c36_tree_offset512. Qed.
Print Assumptions C36_tree512_offset_refuted.
Example C36_tree_offset_case : (1 + 64 <= length (zeros 65))%nat /\
  (o <- Tree512_new 2 ;; r <- Tree512_Finalize 2 2 o (zeros 65) 1 ;; Ok (firstn 2 (snd r), nth 64 (snd r) 0)) = Ok ([248; 186], 0).
Proof. split; [cbn; lia|]. vm_compute. reflexivity. Qed.
