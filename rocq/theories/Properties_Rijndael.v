(** * Properties of the Rijndael ciphers: C40 *)
From Verif Require Import Base Spec_Common Spec_AES Session_Digest Session_Block ProofsP_RHX.
Open Scope Z_scope.

(** every history of calls (Initialize any number of times, EncryptBlock, DecryptBlock, Transform to Transform2048, all windows,
    also in place): every result is the one of the cipher under the last accepted key *)
Theorem C40_every_history v cs : In v rhx_variants -> bcalls_ok (v_cipher v) (v_info v) false cs ->
  exists rs, bhistory (v_ops v) (v_new v) cs = Ok rs /\ bexpected (v_cipher v) (true, [], []) cs rs.
Proof. exact (c40_hist v cs). Qed.
Print Assumptions C40_every_history.
Definition calls1 : list bcall :=
  [BInit true (fips_key 16) [1]; BTransform 0 (Some fips_text) 0 (zeros 16) 0; BInit true [1; 2] []; BTransform 2 (Some (zeros 70)) 5 (zeros 65) 1;
   BInit false (fips_key 32) []; BTransform 1 None 16 (zeros 48) 0; BEncrypt None 3 (zeros 40) 7; BDecrypt (Some fips_text) 0 (zeros 16) 0].
Example C40_every_history_case : bcalls_ok (v_cipher v_AES) (v_info v_AES) false calls1 /\ bcalls_ok (v_cipher v_RHXH512) (v_info v_RHXH512) false calls1 /\ bcalls_ok (v_cipher v_RHXS256) (v_info v_RHXS256) false calls1.
Proof.
  assert (B : forall n, bytes (zeros n)) by (intros n; apply Forall_forall; intros x Hx; apply repeat_spec in Hx; subst; red; lia).
  assert (K : forall n, (n < 200)%nat -> bytes (fips_key n)) by (intros n Hn; apply Forall_map, Forall_forall; intros x Hx; apply in_seq in Hx; red; lia).
  assert (T : bytes fips_text) by (apply Forall_map, Forall_forall; intros x Hx; apply in_seq in Hx; red; lia).
  assert (S1 : forall l, Forall (fun x => x = 1 \/ x = 2) l -> bytes l) by (intros l; apply Forall_impl; intros x [-> | ->]; red; lia).
  unfold calls1. cbn [bcalls_ok window v_cipher v_info v_AES v_RHXH512 v_RHXS256]. unfold any_info, shake_info.
  repeat match goal with |- _ /\ _ => split | |- True => exact I end; try apply B; try apply K; try exact T; try (cbn; lia); try reflexivity; try (apply S1; repeat constructor; lia); try (vm_compute; lia).
  all: unfold window; repeat split; try apply B; try exact T; cbn; lia.
Qed.
(** for keys of 16, 24 and 32 bytes AES is FIPS 197 *)
Theorem C40_fips key info : (length key = 16 \/ length key = 24 \/ length key = 32)%nat ->
  cp_enc (v_cipher v_AES) key info = aes key /\ cp_dec (v_cipher v_AES) key info = inv_aes key.
Proof. exact (c40_fips key info). Qed.
Print Assumptions C40_fips.
(** FIPS 197, C.1 and C.3, through the object *)
Example C40_fips_case :
  bhistory AES AES_new [BInit true (fips_key 16) []; BTransform 0 (Some fips_text) 0 (zeros 17) 1] =
    Ok [Done; Wrote [0; 0x69; 0xc4; 0xe0; 0xd8; 0x6a; 0x7b; 0x04; 0x30; 0xd8; 0xcd; 0xb7; 0x80; 0x70; 0xb4; 0xc5; 0x5a]] /\
  bhistory AES AES_new [BInit false (fips_key 32) []; BTransform 0 (Some [0x8e; 0xa2; 0xb7; 0xca; 0x51; 0x67; 0x45; 0xbf; 0xea; 0xfc; 0x49; 0x90; 0x4b; 0x49; 0x60; 0x89]) 0 (zeros 16) 0] =
    Ok [Done; Wrote fips_text].
Proof. split; vm_compute; reflexivity. Qed.
(** decryption gives back what was encrypted, and encryption what was decrypted, for every variant, key, info and width *)
Theorem C40_round_trip v enc key info k inp io out oo out2 oo2 : In v rhx_variants -> cp_legal (v_cipher v) (length key) = true -> bytes key -> bytes info -> v_info v info -> (k <= 4)%nat ->
  window (16 * 2 ^ k) inp io out oo -> bytes out -> (oo2 + 16 * 2 ^ k <= length out2)%nat ->
  exists c p, bhistory (v_ops v) (v_new v) [BInit enc key info; BTransform k inp io out oo] = Ok [Done; Wrote c] /\
    bhistory (v_ops v) (v_new v) [BInit (negb enc) key info; BTransform k (Some c) oo out2 oo2] = Ok [Done; Wrote p] /\
    slice p oo2 (16 * 2 ^ k) = taken (16 * 2 ^ k) inp io out.
Proof. exact (c40_trip v enc key info k inp io out oo out2 oo2). Qed.
Print Assumptions C40_round_trip.
Example C40_round_trip_case : cp_legal (v_cipher v_RHXS512) (length (fips_key 64)) = true /\ v_info v_RHXS512 [7; 7] /\ window (16 * 2 ^ 0) (Some fips_text) 0 (zeros 16) 0.
Proof.
  split; [reflexivity|]. split; [split; [cbn; lia|vm_compute; lia]|]. split; [cbn; lia|]. split; [|cbn; lia]. apply Forall_map, Forall_forall; intros x Hx; apply in_seq in Hx; red; lia.
Qed.
(** AES accepts keys of 64 bytes: only their first 16 are used *)
Theorem C40_long_key_refuted key key' cs : length key = 64%nat -> length key' = 64%nat -> firstn 16 key = firstn 16 key' -> bytes key -> bytes key' ->
  bcalls_ok (v_cipher v_AES) (v_info v_AES) false (map (rekey key) cs) -> bhistory AES AES_new (map (rekey key) cs) = bhistory AES AES_new (map (rekey key') cs).
Proof. exact (c40_long key key' cs). Qed.
Print Assumptions C40_long_key_refuted.
Example C40_long_key_case : let key := fips_key 64 in let key' := fips_key 16 ++ zeros 48 in firstn 16 key = firstn 16 key' /\ key <> key' /\ length key' = 64%nat /\ cp_legal (v_cipher v_AES) 64 = true.
Proof. repeat split. intros E. apply (f_equal (fun l => nth 20 l 0)) in E. discriminate E. Qed.
(** the blocks of an object without a key read outside its arrays *)
Theorem C40_uninitialised_refuted v inp io out oo : In v rhx_variants -> window 16 inp io out oo ->
  bo_enc (v_ops v) (v_new v) inp io out oo = UB /\ bo_dec (v_ops v) (v_new v) inp io out oo = UB.
Proof. exact (c40_uninit v inp io out oo). Qed.
Print Assumptions C40_uninitialised_refuted.
(** the documented 1024-bit keys are refused *)
Theorem C40_1024_refuted v enc key info : In v rhx_variants -> length key = 128%nat -> bhistory (v_ops v) (v_new v) [BInit enc key info] = Ok [Failed InvalidKey].
Proof. exact (c40_1024 v enc key info). Qed.
Print Assumptions C40_1024_refuted.
