(** C65: hashing streams and arrays (DigestStream, MacStream). *)
From Verif Require Import Base BaseLemmas Spec_Common Spec_Feed Spec_SHA2 Spec_MAC Spec_Keccak Model_Stream Model_HashStream Session_HashStream.
From Verif Require Import Model_SHA2 Model_SHA2Par Model_SHA3 Model_HMAC Session_SHA2 ProofsP_HashStream.
Open Scope Z_scope.

(** Whatever the digest object does, Compute resets it, feeds it exactly what is left of the stream (or
    the window of the array) in order, and takes the hash; the stream ends up at its end. *)
Theorem C65_any_stream : forall (T : Type) (upd : T -> list Z -> nat -> nat -> res T) fin new par pblk blk n s, sizes par pblk blk -> stream_ok s ->
  exists ps s', Forall p_ok ps /\ joined ps = rest s /\ read_through s s' /\
    (forall o, DigestStream_ComputeStream upd fin new par pblk blk n s o = (o' <- feed upd ps new ;; q <- fin o' (zeros n) 0%nat ;; Ok (s', fst q, snd q))).
Proof. exact (fun T => any_stream). Qed.
Print Assumptions C65_any_stream.
Theorem C65_any_digest : forall (T : Type) (upd : T -> list Z -> nat -> nat -> res T) fin new par pblk blk n x, sizes par pblk blk -> source_ok x ->
  exists ps, Forall p_ok ps /\ joined ps = contents x /\
    (forall o, digest_of upd fin new par pblk blk n o x = (o' <- feed upd ps new ;; fin o' (zeros n) 0%nat)).
Proof. exact (fun T => any_digest). Qed.
Print Assumptions C65_any_digest.
Theorem C65_any_mac : forall (T : Type) (upd : T -> list Z -> nat -> nat -> res T) fin (new : T) blk n x, sizes false 0 blk -> source_ok x ->
  exists ps, Forall p_ok ps /\ joined ps = contents x /\
    (forall o, mac_of upd fin blk n o x = (o' <- feed upd ps o ;; fin o' (zeros n) 0%nat)).
Proof. exact (fun T => any_mac). Qed.
Print Assumptions C65_any_mac.

(** One DigestStream hashes any number of inputs, whatever state the object was in before. *)
Theorem C65_sha256 : forall o xs, Forall source_ok xs ->
  all_of (digest_of SHA2256_Update SHA2256_Finalize SHA2256_new false 0 64 32) o xs = Ok (map (fun x => sha256 (contents x)) xs).
Proof. exact c65_256. Qed.
Print Assumptions C65_sha256.
Theorem C65_sha512 : forall o xs, Forall source_ok xs ->
  all_of (digest_of SHA2512_Update SHA2512_Finalize SHA2512_new false 0 128 64) o xs = Ok (map (fun x => sha512_code (contents x)) xs).
Proof. exact c65_512. Qed.
Print Assumptions C65_sha512.
Theorem C65_sha3 : forall rate n o xs, (0 < n <= rate)%nat -> (rate <= 200)%nat -> Forall source_ok xs ->
  all_of (digest_of (SHA3_Update rate) (SHA3_Finalize rate n) (SHA3_new rate) false 0 rate n) o xs = Ok (map (fun x => sponge (keccak 24) rate zero_state 6 (contents x) n) xs).
Proof. exact c65_3. Qed.
Print Assumptions C65_sha3.

(** With a parallel SHA-2 object the result is the digest of C50, whatever the parallel block size. *)
Theorem C65_parallel256 : forall hdr d c pblk n0 x h o, (0 < d)%nat -> (0 < c)%nat -> pblk = (c * (d * 64))%nat -> Z.of_nat pblk < 2 ^ 63 ->
  SHA2256P_new hdr d = Ok n0 -> source_ok x -> value256 hdr d (contents x) h ->
  digest_of (SHA2256P_Update d pblk) (SHA2256P_Finalize hdr d) n0 true pblk 64 32 o x = Ok (n0, h).
Proof. exact c65_par256. Qed.
Print Assumptions C65_parallel256.
Theorem C65_parallel512 : forall hdr d c pblk n0 x h o, (0 < d)%nat -> (0 < c)%nat -> pblk = (c * (d * 128))%nat -> Z.of_nat pblk < 2 ^ 63 ->
  SHA2512P_new hdr d = Ok n0 -> source_ok x -> value512 hdr d (contents x) h ->
  digest_of (SHA2512P_Update d pblk) (SHA2512P_Finalize hdr d) n0 true pblk 128 64 o x = Ok (n0, h).
Proof. exact c65_par512. Qed.
Print Assumptions C65_parallel512.

(** One MacStream over HMAC authenticates any number of inputs under its key. *)
Theorem C65_hmac256 : forall k xs, bytes k -> (8 <= length k)%nat -> Forall source_ok xs ->
  exists o, HMAC_Initialize 64 32 SHA2256_Update SHA2256_Finalize SHA2256_new (HMAC_new 64 SHA2256_new) k = Ok (o, None) /\
    all_of (mac_of (HMAC_Update SHA2256_Update) (HMAC_Finalize 32 SHA2256_Update SHA2256_Finalize) 64 32) o xs = Ok (map (fun x => hmac sha256 64 k (contents x)) xs).
Proof. exact c65_hmac256. Qed.
Print Assumptions C65_hmac256.
Theorem C65_hmac512 : forall k xs, bytes k -> (8 <= length k)%nat -> Forall source_ok xs ->
  exists o, HMAC_Initialize 128 64 SHA2512_Update SHA2512_Finalize SHA2512_new (HMAC_new 128 SHA2512_new) k = Ok (o, None) /\
    all_of (mac_of (HMAC_Update SHA2512_Update) (HMAC_Finalize 64 SHA2512_Update SHA2512_Finalize) 128 64) o xs = Ok (map (fun x => hmac sha512_code 128 k (contents x)) xs).
Proof. exact c65_hmac512. Qed.
Print Assumptions C65_hmac512.

(** a half-read stream of 200 bytes and a window; a parallel object of two leaves *)
Example C65_case :
  Forall source_ok [Stream (MStream (repeat 7 200) 90 false); Window [1; 2; 3; 4] 1 2; Stream (MStream (repeat 9 64) 0 false)] /\
  map (fun x => length (contents x)) [Stream (MStream (repeat 7 200) 90 false); Window [1; 2; 3; 4] 1 2; Stream (MStream (repeat 9 64) 0 false)] = [110; 2; 64]%nat /\
  sizes true 256 64.
Proof.
  assert (Rep : forall v k, 0 <= v < 256 -> bytes (repeat v k)). { intros v k Hv. apply Forall_forall. intros x Hx. apply repeat_spec in Hx. subst. exact Hv. }
  split; [|split; [reflexivity|]].
  - constructor; [|constructor; [|constructor; [|constructor]]]; cbn [source_ok].
    + split; [apply Rep; lia|]. cbn [ms_data ms_pos]. rewrite repeat_length. lia.
    + split; [repeat constructor; unfold is_byte; lia|]. cbn [length]. lia.
    + split; [apply Rep; lia|]. cbn [ms_data ms_pos]. rewrite repeat_length. lia.
  - split; [lia|]. split; [intros _; exists 4%nat; split; [lia|reflexivity]|]. lia.
Qed.

(** Hashing nothing is undefined: the progress of an empty input is 0/0, converted to an integer. *)
Theorem C65_empty_refuted : forall (T : Type) (upd : T -> list Z -> nat -> nat -> res T) fin new blk n inp io o r, (0 < blk)%nat -> fin new (zeros n) 0%nat = Ok r ->
  digest_of upd fin new false 0 blk n o (Window inp io 0) = UB.
Proof. exact (fun T => c65_empty). Qed.
Print Assumptions C65_empty_refuted.
