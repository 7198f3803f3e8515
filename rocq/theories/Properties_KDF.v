(** C37 HKDF; C38 KDF2 and PBKDF2 *)
From Verif Require Import Base Spec_Common Spec_SHA2 Spec_MAC Spec_KDF Model_SHA2 Model_KDF Session_Digest Session_SHA2 Session_Kdf Session_KdfObjs.
From Verif Require Import BaseLemmas Proofs_Common ProofsP_SHA2 Proofs_SHA2obj Proofs_SHA2cmp ProofsP_MAC Proofs_KDF Proofs_KDF2 ProofsP_KDF.
Open Scope Z_scope.

(** ** C37 HKDF *)
(** every sequence of Initialize, Generate and Reset calls on a new object: the responses are those of the specification *)
Theorem C37_every_history256 cs : Forall (kcall_ok true) cs ->
  exists rs, khistory hkdf256 (HKDF_new 64 32 SHA2256_new) cs = Ok rs /\ kexpected (hkdf_kdf_spec (hmac sha256 64) 32) (KIdle []) cs rs.
Proof. exact (c37_256 cs). Qed.
Print Assumptions C37_every_history256.
Theorem C37_every_history512 cs : Forall (kcall_ok true) cs ->
  exists rs, khistory hkdf512 (HKDF_new 128 64 SHA2512_new) cs = Ok rs /\ kexpected (hkdf_kdf_spec (hmac sha512_code 128) 64) (KIdle []) cs rs.
Proof. exact (c37_512 cs). Qed.
Print Assumptions C37_every_history512.
Example C37_history_case : Forall (kcall_ok true) [KInit (repeat 11 22) (repeat 7 13) [1; 2]; KGen (zeros 50) 4 42; KGenS (zeros 9) 0 10; KReset; KGenAll (zeros 5)].
Proof. repeat constructor; unfold is_byte; try lia; cbn; lia. Qed.
(** a new object, one Initialize, one Generate: the output of RFC 5869, with the extract step when a salt is given *)
Theorem C37_one_request256 key salt info out oo len : bytes key -> bytes salt -> bytes info -> (16 <= length key)%nat -> (salt = [] \/ (8 <= length salt)%nat) ->
  (oo + len <= length out)%nat -> (len <= 255 * 32)%nat ->
  exists out', khistory hkdf256 (HKDF_new 64 32 SHA2256_new) [KInit key salt info; KGen out oo len] = Ok [Done; Wrote out'] /\
    written out out' oo (hkdf_expand (hmac sha256 64) 32 (hkdf_prk (hmac sha256 64) key salt) info len).
Proof. intros. apply (hk_one hkdf256 _ (hmac sha256 64) 32 ltac:(lia) c37_256); auto. lia. Qed.
Print Assumptions C37_one_request256.
Theorem C37_one_request512 key salt info out oo len : bytes key -> bytes salt -> bytes info -> (16 <= length key)%nat -> (salt = [] \/ (8 <= length salt)%nat) ->
  (oo + len <= length out)%nat -> (len <= 255 * 64)%nat ->
  exists out', khistory hkdf512 (HKDF_new 128 64 SHA2512_new) [KInit key salt info; KGen out oo len] = Ok [Done; Wrote out'] /\
    written out out' oo (hkdf_expand (hmac sha512_code 128) 64 (hkdf_prk (hmac sha512_code 128) key salt) info len).
Proof. intros. apply (hk_one hkdf512 _ (hmac sha512_code 128) 64 ltac:(lia) c37_512); auto. lia. Qed.
Print Assumptions C37_one_request512.
Example C37_one_case : bytes (repeat 11 22) /\ (16 <= length (repeat 11 22))%nat /\ (8 <= length (repeat 7 13))%nat /\ (4 + 42 <= length (zeros 50))%nat.
Proof. split; [|cbn; lia]. apply Forall_forall. intros x Hx. apply repeat_spec in Hx. subst. red. lia. Qed.
(** RFC 5869 test case 1, first 8 bytes of the output *)
Example C37_spec_vector :
  firstn 8 (hkdf_T (hmac sha256 64) (hkdf_extract (hmac sha256 64) [0;1;2;3;4;5;6;7;8;9;10;11;12] (repeat 11 22)) [0xf0;0xf1;0xf2;0xf3;0xf4;0xf5;0xf6;0xf7;0xf8;0xf9] 1) = [0x3c;0xb2;0x5f;0x25;0xfa;0xac;0xd5;0x7a].
Proof. vm_compute. reflexivity. Qed.
(** 256 complete blocks are refused *)
Theorem C37_too_long256 key salt info out oo len : bytes key -> bytes salt -> bytes info -> (16 <= length key)%nat -> (salt = [] \/ (8 <= length salt)%nat) ->
  (oo + len <= length out)%nat -> (256 * 32 <= len)%nat ->
  khistory hkdf256 (HKDF_new 64 32 SHA2256_new) [KInit key salt info; KGen out oo len] = Ok [Done; Failed MaxExceeded].
Proof. exact (hk_toolong hkdf256 _ (hmac sha256 64) 32 ltac:(lia) c37_256 key salt info out oo len). Qed.
Print Assumptions C37_too_long256.
Example C37_too_long_case : (8 + 256 * 32 <= length (zeros (257 * 32)))%nat.
Proof. rewrite length_zeros. apply Nat.leb_le; vm_compute; reflexivity. Qed.
(** but between 255 and 256 blocks the request is served, although RFC 5869 allows 255 *)
Theorem C37_limit_refuted key info : bytes key -> bytes info -> (16 <= length key)%nat ->
  exists out', khistory hkdf256 (HKDF_new 64 32 SHA2256_new) [KInit key [] info; KGen (zeros (255 * 32 + 1)) 0 (255 * 32 + 1)] = Ok [Done; Wrote out'] /\ length out' = (255 * 32 + 1)%nat.
Proof.
  intros B1 B2 L. destruct (hk_one hkdf256 _ (hmac sha256 64) 32 ltac:(lia) c37_256 key [] info (zeros (255 * 32 + 1)) 0 (255 * 32 + 1) B1 (Forall_nil _) B2 L (or_introl eq_refl)) as (o & E & W).
  - rewrite length_zeros. apply Nat.leb_le. vm_compute. reflexivity.
  - apply Nat.ltb_lt. vm_compute. reflexivity.
  - exists o. split; [exact E|]. rewrite (proj1 W). apply length_zeros.
Qed.
Print Assumptions C37_limit_refuted.
(** requests shorter than a block are never refused, and the i-th and the (i+256)-th return the same bytes: the limit is no limit *)
Theorem C37_repeats_refuted key salt info len m : bytes key -> bytes salt -> bytes info -> (16 <= length key)%nat -> (salt = [] \/ (8 <= length salt)%nat) -> (0 < len < 32)%nat ->
  khistory hkdf256 (HKDF_new 64 32 SHA2256_new) (KInit key salt info :: repeat (KGenAll (zeros len)) m) =
    Ok (Done :: map (fun i => Wrote (firstn len (hkdf_T (hmac sha256 64) (hkdf_prk (hmac sha256 64) key salt) info (S (i mod 256))))) (seq 0 m)).
Proof. exact (hk_many hkdf256 _ (hmac sha256 64) 32 ltac:(lia) c37_256 (fun k m => sha256_len _) key salt info len m). Qed.
Print Assumptions C37_repeats_refuted.
Example C37_repeats_case : (0 < 31 < 32)%nat /\ (0 mod 256 = 256 mod 256)%nat. Proof. split; [lia|reflexivity]. Qed.
(** salts of 4 to 7 bytes are within the documented range and make Initialize fail *)
Theorem C37_short_salt_refuted key salt info : bytes key -> bytes salt -> bytes info -> (16 <= length key)%nat -> (4 <= length salt < 8)%nat ->
  khistory hkdf256 (HKDF_new 64 32 SHA2256_new) [KInit key salt info] = Ok [Failed InvalidKey].
Proof. exact (hk_shortsalt hkdf256 _ (hmac sha256 64) 32 ltac:(lia) c37_256 (fun k m => sha256_len _) key salt info). Qed.
Print Assumptions C37_short_salt_refuted.
Example C37_short_salt_case : (4 <= length (repeat 1 5) < 8)%nat. Proof. cbn. lia. Qed.
(** a second Initialize without info: zeros of the previous info's length take part in the output *)
Theorem C37_stale_info_refuted : exists key info out',
  khistory hkdf256 (HKDF_new 64 32 SHA2256_new) [KInit key [] info; KInit key [] []; KGen (zeros 4) 0 4] = Ok [Done; Done; Wrote out'] /\
  out' = hkdf_expand (hmac sha256 64) 32 key (zeros (length info)) 4 /\ out' <> hkdf_expand (hmac sha256 64) 32 key [] 4.
Proof.
  assert (B1 : bytes [1]) by (constructor; [red; lia|constructor]). exists (zeros 16), [1].
  destruct (hk_stale hkdf256 _ (hmac sha256 64) 32 ltac:(lia) c37_256 (fun k m => sha256_len _) (zeros 16) [] [1] (zeros 16) 4 (zeros 4) 0
    (bytes_zeros _) (Forall_nil _) B1 (bytes_zeros _) ltac:(cbn; lia) ltac:(cbn; lia) (or_introl eq_refl) ltac:(cbn; lia) ltac:(cbn; lia)) as (o & E & W).
  exists o. split; [exact E|]. assert (Q : o = hkdf_expand (hmac sha256 64) 32 (zeros 16) (zeros (length [1])) 4).
  { apply Proofs_GCM.written_eq in W; [|unfold hkdf_expand; rewrite firstn_length, length_zeros; lia]. rewrite W. vm_compute. reflexivity. }
  split; [exact Q|]. rewrite Q. vm_compute. discriminate.
Qed.
Print Assumptions C37_stale_info_refuted.
(** Generate(SecureVector, OutOffset, Length) writes outside its temporary for every non-zero offset *)
Theorem C37_secure_offset_refuted : khistory hkdf256 (HKDF_new 64 32 SHA2256_new) [KInit (zeros 16) [] []; KGenS (zeros 3) 1 2] = UB.
Proof. vm_compute. reflexivity. Qed.
Print Assumptions C37_secure_offset_refuted.
(** HKDF::Extract: an empty salt stands for TagSize zero bytes, as in RFC 5869 *)
Theorem C37_extract256 key salt out : bytes key -> bytes salt -> (salt = [] \/ (8 <= length salt)%nat) -> (32 <= length out)%nat ->
  exists o' out', HKDF_Extract 64 32 SHA2256_Update SHA2256_Finalize SHA2256_new (HKDF_new 64 32 SHA2256_new) key salt out = Ok (o', out') /\
    written out out' 0 (hkdf_extract (hmac sha256 64) (match salt with [] => zeros 32 | _ => salt end) key).
Proof.
  intros B1 B2 V L. destruct (hk_extract_new 64 32 SHA2256_Update SHA2256_Finalize SHA2256_new after256 sha256 ltac:(lia) ltac:(lia) after256_new upd256 final256 sha256_len sha256_bytes key salt out B1 B2 V L) as (o' & E).
  exists o'. eexists. split; [exact E|]. apply splice_written. unfold hkdf_extract, hmac. rewrite sha256_len. exact L.
Qed.
Print Assumptions C37_extract256.
Example C37_extract_case : (8 <= length (repeat 7 13))%nat /\ (32 <= length (zeros 32))%nat. Proof. cbn. lia. Qed.
(** Extract on an initialized object replaces its key: what it generates afterwards is keyed with the (public) salt *)
Theorem C37_extract_rekeys_refuted key info ikm salt out1 out oo len : bytes key -> bytes info -> bytes ikm -> bytes salt -> (16 <= length key)%nat -> (8 <= length salt)%nat ->
  (32 <= length out1)%nat -> (oo + len <= length out)%nat -> (len <= 255 * 32)%nat ->
  exists o1 o2 out1' o3 out', HKDF_Initialize 64 32 SHA2256_Update SHA2256_Finalize SHA2256_new (HKDF_new 64 32 SHA2256_new) key [] info = Ok (o1, None) /\
    HKDF_Extract 64 32 SHA2256_Update SHA2256_Finalize SHA2256_new o1 ikm salt out1 = Ok (o2, out1') /\
    HKDF_Gen 32 SHA2256_Update SHA2256_Finalize o2 out oo len = Ok (o3, out') /\
    written out out' oo (hkdf_expand (hmac sha256 64) 32 salt info len).
Proof.
  intros B1 B2 B3 B4 L1 L2 L3 L4 L5. destruct (hk_rekeyed 64 32 SHA2256_Update SHA2256_Finalize SHA2256_new after256 sha256 ltac:(lia) ltac:(lia) after256_new upd256 final256 sha256_len sha256_bytes key info ikm salt out1 out oo len) as (o1 & o2 & t & o3 & E1 & E2 & E3); auto; [lia|].
  exists o1, o2, t, o3. eexists. split; [exact E1|]. split; [exact E2|]. split; [exact E3|]. replace (firstn len (blocks_from _ 0 _)) with (hkdf_expand (hmac sha256 64) 32 salt info len).
  - apply splice_written. unfold hkdf_expand. rewrite firstn_length. lia.
  - unfold hkdf_expand. f_equal. symmetry. apply blocks_shift. intros i Hi. unfold hB. cbn [fst snd]. rewrite Nat.mod_small; [reflexivity|].
    assert (Q : ((len + 32 - 1) / 32 < 256)%nat) by (apply Nat.div_lt_upper_bound; lia). unfold blocks_for in Hi. clear - Hi Q. lia.
Qed.
Print Assumptions C37_extract_rekeys_refuted.

(** ** C38 KDF2 and PBKDF2 *)
Theorem C38_kdf2_every_history256 cs : Forall (kcall_ok false) cs ->
  exists rs, khistory kdf2_256 (KDF2_new SHA2256_new) cs = Ok rs /\ kexpected (kdf2_kdf_spec sha256 64 32) (KIdle []) cs rs.
Proof. exact (c38_256 cs). Qed.
Print Assumptions C38_kdf2_every_history256.
Theorem C38_kdf2_every_history512 cs : Forall (kcall_ok false) cs ->
  exists rs, khistory kdf2_512 (KDF2_new SHA2512_new) cs = Ok rs /\ kexpected (kdf2_kdf_spec sha512_code 128 64) (KIdle []) cs rs.
Proof. exact (c38_512 cs). Qed.
Print Assumptions C38_kdf2_every_history512.
Example C38_history_case : Forall (kcall_ok false) [KInit (repeat 11 22) (repeat 7 13) []; KGen (zeros 50) 4 42; KGenS (zeros 9) 0 10; KReset; KInit (repeat 1 80) [] [1; 2]; KGenAll (zeros 5)].
Proof. repeat constructor; unfold is_byte; try lia; cbn; auto; lia. Qed.
(** a salt of at least 4 bytes: the output of ISO 18033-2 with the salt as other info *)
Theorem C38_kdf2_salted256 key salt out oo len : bytes key -> bytes salt -> (16 <= length key)%nat -> (4 <= length salt)%nat -> (oo + len <= length out)%nat -> (len < 255 * 32)%nat ->
  exists out', khistory kdf2_256 (KDF2_new SHA2256_new) [KInit key salt []; KGen out oo len] = Ok [Done; Wrote out'] /\ written out out' oo (kdf2 sha256 32 key salt len).
Proof.
  intros B1 B2 L1 L2 LO LL. exact (k2_one kdf2_256 _ sha256 64 32 ltac:(lia) c38_256 key salt [] out oo len (key, salt) B1 B2 (Forall_nil _) (or_intror eq_refl) L1 ltac:(apply k2_salted; lia) LO LL).
Qed.
Print Assumptions C38_kdf2_salted256.
Theorem C38_kdf2_salted512 key salt out oo len : bytes key -> bytes salt -> (16 <= length key)%nat -> (4 <= length salt)%nat -> (oo + len <= length out)%nat -> (len < 255 * 64)%nat ->
  exists out', khistory kdf2_512 (KDF2_new SHA2512_new) [KInit key salt []; KGen out oo len] = Ok [Done; Wrote out'] /\ written out out' oo (kdf2 sha512_code 64 key salt len).
Proof.
  intros B1 B2 L1 L2 LO LL. exact (k2_one kdf2_512 _ sha512_code 128 64 ltac:(lia) c38_512 key salt [] out oo len (key, salt) B1 B2 (Forall_nil _) (or_intror eq_refl) L1 ltac:(apply k2_salted; lia) LO LL).
Qed.
Print Assumptions C38_kdf2_salted512.
(** without a salt: a key longer than a hash block is cut into a key and other info *)
Theorem C38_kdf2_long_key256 key info out oo len : bytes key -> bytes info -> (64 < length key)%nat -> (oo + len <= length out)%nat -> (len < 255 * 32)%nat ->
  exists out', khistory kdf2_256 (KDF2_new SHA2256_new) [KInit key [] info; KGen out oo len] = Ok [Done; Wrote out'] /\ written out out' oo (kdf2 sha256 32 (firstn 64 key) (skipn 64 key ++ info) len).
Proof.
  intros B1 B2 L1 LO LL. exact (k2_one kdf2_256 _ sha256 64 32 ltac:(lia) c38_256 key [] info out oo len (firstn 64 key, skipn 64 key ++ info) B1 (Forall_nil _) B2 (or_introl eq_refl) ltac:(lia) ltac:(apply k2_long; lia) LO LL).
Qed.
Print Assumptions C38_kdf2_long_key256.
(** 255 blocks are refused, although the counter has four bytes *)
Theorem C38_kdf2_limit256 key salt out oo len : bytes key -> bytes salt -> (16 <= length key)%nat -> (4 <= length salt)%nat -> (oo + len <= length out)%nat -> (255 * 32 <= len)%nat ->
  khistory kdf2_256 (KDF2_new SHA2256_new) [KInit key salt []; KGen out oo len] = Ok [Done; Failed MaxExceeded].
Proof.
  intros B1 B2 L1 L2 LO LL. exact (k2_full kdf2_256 _ sha256 64 32 ltac:(lia) c38_256 key salt [] out oo len (key, salt) B1 B2 (Forall_nil _) (or_intror eq_refl) L1 ltac:(apply k2_salted; lia) LO LL).
Qed.
Print Assumptions C38_kdf2_limit256.
Example C38_kdf2_case : (16 <= length (repeat 11 22))%nat /\ (4 <= length (repeat 7 13))%nat /\ (64 < length (repeat 1 80))%nat /\ (4 + 42 <= length (zeros 50))%nat.
Proof. cbn. lia. Qed.
(** without a salt a short key is padded with zeros and the info is ignored: a key, and the same key with a zero byte more and another
    info, give the same output *)
Theorem C38_kdf2_collision_refuted key info info' out oo len : bytes key -> bytes info -> bytes info' -> (16 <= length key < 64)%nat -> (oo + len <= length out)%nat -> (len < 255 * 32)%nat ->
  khistory kdf2_256 (KDF2_new SHA2256_new) [KInit key [] info; KGen out oo len] = khistory kdf2_256 (KDF2_new SHA2256_new) [KInit (key ++ [0]) [] info'; KGen out oo len].
Proof. exact (k2_collide kdf2_256 _ sha256 64 32 ltac:(lia) c38_256 key info info' out oo len). Qed.
Print Assumptions C38_kdf2_collision_refuted.
Example C38_collision_case : (16 <= length (repeat 11 22) < 64)%nat /\ (0 + 32 <= length (zeros 32))%nat. Proof. cbn. lia. Qed.
(** a salt together with an info is read past its end *)
Theorem C38_kdf2_salt_and_info_refuted key salt info : (16 <= length key)%nat -> salt <> [] -> info <> [] -> (4 <= length salt + length info)%nat ->
  KDF2_Initialize 64 SHA2256_new (KDF2_new SHA2256_new) key salt info = UB.
Proof. exact (k2_ivinfo 64 SHA2256_new key salt info). Qed.
Print Assumptions C38_kdf2_salt_and_info_refuted.
Theorem C38_pbkdf2_salt_and_info_refuted iter key salt info : (4 <= length key)%nat -> salt <> [] -> info <> [] -> (4 <= length salt + length info)%nat ->
  PBKDF2_Initialize SHA2256_new (PBKDF2_new 64 SHA2256_new iter) key salt info = UB.
Proof. exact (pb_ivinfo 64 SHA2256_new iter key salt info). Qed.
Print Assumptions C38_pbkdf2_salt_and_info_refuted.
Example C38_salt_and_info_case : [1; 2; 3] <> [] /\ [4] <> [] /\ (4 <= length [1; 2; 3]%Z + length [4]%Z)%nat. Proof. repeat split; try discriminate. cbn. lia. Qed.
(** PBKDF2: every history for every iteration count of the 32-bit parameter *)
Theorem C38_pbkdf2_every_history256 iter cs : 0 <= iter < 2 ^ 32 -> Forall (kcall_ok false) cs ->
  exists rs, khistory pbkdf2_256 (PBKDF2_new 64 SHA2256_new iter) cs = Ok rs /\ kexpected (pbkdf2_kdf_spec (hmac sha256 64) 32 iter) (KIdle []) cs rs.
Proof. exact (c38_pb256 iter cs). Qed.
Print Assumptions C38_pbkdf2_every_history256.
Theorem C38_pbkdf2_every_history512 iter cs : 0 <= iter < 2 ^ 32 -> Forall (kcall_ok false) cs ->
  exists rs, khistory pbkdf2_512 (PBKDF2_new 128 SHA2512_new iter) cs = Ok rs /\ kexpected (pbkdf2_kdf_spec (hmac sha512_code 128) 64 iter) (KIdle []) cs rs.
Proof. exact (c38_pb512 iter cs). Qed.
Print Assumptions C38_pbkdf2_every_history512.
(** one request: RFC 2898, the salt being the IV or the info of the key *)
Theorem C38_pbkdf2_one_request256 iter key iv info out oo len : 1 <= iter < 2 ^ 32 -> bytes key -> bytes iv -> bytes info -> (iv = [] \/ info = []) ->
  (length iv + length info = 0 \/ 4 <= length iv + length info)%nat -> (8 <= length key)%nat -> (oo + len <= length out)%nat -> Z.of_nat len < 1024000 * 32 ->
  exists out', khistory pbkdf2_256 (PBKDF2_new 64 SHA2256_new iter) [KInit key iv info; KGen out oo len] = Ok [Done; Wrote out'] /\
    written out out' oo (pbkdf2 (hmac sha256 64) 32 key (iv ++ info) (Z.to_nat iter) len).
Proof. intros HI. exact (pb_one pbkdf2_256 _ (hmac sha256 64) 32 iter ltac:(lia) (fun cs => c38_pb256 iter cs ltac:(lia)) key iv info out oo len HI). Qed.
Print Assumptions C38_pbkdf2_one_request256.
Theorem C38_pbkdf2_one_request512 iter key iv info out oo len : 1 <= iter < 2 ^ 32 -> bytes key -> bytes iv -> bytes info -> (iv = [] \/ info = []) ->
  (length iv + length info = 0 \/ 4 <= length iv + length info)%nat -> (8 <= length key)%nat -> (oo + len <= length out)%nat -> Z.of_nat len < 1024000 * 64 ->
  exists out', khistory pbkdf2_512 (PBKDF2_new 128 SHA2512_new iter) [KInit key iv info; KGen out oo len] = Ok [Done; Wrote out'] /\
    written out out' oo (pbkdf2 (hmac sha512_code 128) 64 key (iv ++ info) (Z.to_nat iter) len).
Proof. intros HI. exact (pb_one pbkdf2_512 _ (hmac sha512_code 128) 64 iter ltac:(lia) (fun cs => c38_pb512 iter cs ltac:(lia)) key iv info out oo len HI). Qed.
Print Assumptions C38_pbkdf2_one_request512.
(** two iterations of "password" with salt "salt": first bytes of the known answer *)
Example C38_spec_vector : firstn 6 (pbkdf2 (hmac sha256 64) 32 [112;97;115;115;119;111;114;100] [115;97;108;116] 2 32) = [0xae;0x4d;0x0c;0x95;0xaf;0x6b].
Proof. vm_compute. reflexivity. Qed.
Example C38_pbkdf2_case : 1 <= 10000 < 2 ^ 32 /\ (8 <= length (repeat 3 8))%nat /\ (4 <= length (repeat 7 4) + length (@nil Z))%nat /\ Z.of_nat 64 < 1024000 * 32. Proof. cbn. lia. Qed.
(** keys of 4 to 7 bytes are accepted by Initialize, and every Generate fails *)
Theorem C38_pbkdf2_short_key_refuted iter key iv info out oo len : 0 <= iter < 2 ^ 32 -> bytes key -> bytes iv -> bytes info -> (iv = [] \/ info = []) ->
  (length iv + length info = 0 \/ 4 <= length iv + length info)%nat -> (4 <= length key < 8)%nat -> (oo + len <= length out)%nat -> Z.of_nat len < 1024000 * 32 ->
  khistory pbkdf2_256 (PBKDF2_new 64 SHA2256_new iter) [KInit key iv info; KGen out oo len] = Ok [Done; Failed InvalidKey].
Proof. intros HI. exact (pb_weak pbkdf2_256 _ (hmac sha256 64) 32 iter ltac:(lia) (fun cs => c38_pb256 iter cs HI) key iv info out oo len). Qed.
Print Assumptions C38_pbkdf2_short_key_refuted.
Example C38_short_key_case : (4 <= length (repeat 3 6) < 8)%nat. Proof. cbn. lia. Qed.
(** the iteration count 0, which the constructor accepts, runs 2^64 - 1 passes after the first *)
Theorem C38_pbkdf2_zero_iterations_refuted : Z.of_nat (pbkdf2_count 0) = 2 ^ 64 - 1.
Proof. unfold pbkdf2_count. rewrite Z2Nat.id by (apply Z.mod_pos_bound; lia). reflexivity. Qed.
Print Assumptions C38_pbkdf2_zero_iterations_refuted.
