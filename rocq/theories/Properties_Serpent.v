(** * Properties of the Serpent ciphers: C41 *)
From Verif Require Import Base Spec_Common Spec_Serpent Session_Digest Session_Block Session_SHX ProofsP_SHX.
Open Scope Z_scope.

(** every history of calls (Initialize any number of times, EncryptBlock, DecryptBlock, Transform to Transform2048, all windows,
    also in place): every result is the one of the cipher under the last accepted key *)
Theorem C41_every_history v cs : In v shx_variants -> bcalls_ok (v_cipher v) (v_info v) false cs ->
  exists rs, bhistory (v_ops v) (v_new v) cs = Ok rs /\ bexpected (v_cipher v) (true, [], []) cs rs.
Proof. exact (c41_hist v cs). Qed.
Print Assumptions C41_every_history.
Definition nessie_key (n : nat) : list Z := zeros (n - 1) ++ [0x80].
Definition calls1 : list bcall :=
  [BInit true (nessie_key 16) [1]; BTransform 0 (Some (zeros 16)) 0 (zeros 16) 0; BInit true [1; 2] []; BTransform 2 (Some (zeros 70)) 5 (zeros 65) 1;
   BInit false (nessie_key 64) []; BTransform 1 None 16 (zeros 48) 0; BEncrypt None 3 (zeros 40) 7; BDecrypt (Some (zeros 20)) 4 (zeros 16) 0].
Example C41_every_history_case : bcalls_ok (v_cipher v_Serpent) (v_info v_Serpent) false calls1 /\ bcalls_ok (v_cipher v_SHXH256) (v_info v_SHXH256) false calls1 /\ bcalls_ok (v_cipher v_SHXS512) (v_info v_SHXS512) false calls1.
Proof.
  assert (B : forall n, bytes (zeros n)) by (intros n; apply Forall_forall; intros x Hx; apply repeat_spec in Hx; subst; red; lia).
  assert (K : forall n, bytes (nessie_key n)) by (intros n; apply Forall_app; split; [apply B|constructor; [red; lia|constructor]]).
  assert (S1 : forall l, Forall (fun x => x = 1 \/ x = 2) l -> bytes l) by (intros l; apply Forall_impl; intros x [-> | ->]; red; lia).
  unfold calls1. cbn [bcalls_ok window v_cipher v_info v_Serpent v_SHXH256 v_SHXS512]. unfold any_info, shake_info.
  repeat match goal with |- _ /\ _ => split | |- True => exact I end; try apply B; try apply K; try (cbn; lia); try reflexivity; try (apply S1; repeat constructor; lia); try (vm_compute; lia).
  all: unfold window; repeat split; try apply B; cbn; lia.
Qed.
(** for keys of 16, 24 and 32 bytes it is the published Serpent under the key read backwards *)
Theorem C41_published key info : (length key = 16 \/ length key = 24 \/ length key = 32)%nat ->
  cp_enc (v_cipher v_Serpent) key info = serpent (serpent_schedule (rev key)) /\ cp_dec (v_cipher v_Serpent) key info = inv_serpent (serpent_schedule (rev key)).
Proof. exact (c41_published key info). Qed.
Print Assumptions C41_published.
(** NESSIE, set 1, vector 0, through the object *)
Example C41_published_case :
  bhistory (v_ops v_Serpent) (v_new v_Serpent) [BInit true (nessie_key 16) []; BTransform 0 (Some (zeros 16)) 0 (zeros 17) 1] =
    Ok [Done; Wrote [0; 0x26; 0x4e; 0x54; 0x81; 0xef; 0xf4; 0x2a; 0x46; 0x06; 0xab; 0xda; 0x06; 0xc0; 0xbf; 0xda; 0x3d]] /\
  bhistory (v_ops v_Serpent) (v_new v_Serpent) [BInit false (nessie_key 32) []; BTransform 0 (Some [0xa2; 0x23; 0xaa; 0x12; 0x88; 0x46; 0x3c; 0x0e; 0x2b; 0xe3; 0x8e; 0xbd; 0x82; 0x56; 0x16; 0xc0]) 0 (zeros 16) 0] =
    Ok [Done; Wrote (zeros 16)].
Proof. split; vm_compute; reflexivity. Qed.
(** with the key in the published order the result is another one *)
Theorem C41_key_order_refuted :
  exists key b, length key = 16%nat /\ bytes key /\ length b = 16%nat /\ bytes b /\ cp_enc (v_cipher v_Serpent) key [] b <> serpent (serpent_schedule key) b.
Proof. exact c41_order. Qed.
Print Assumptions C41_key_order_refuted.
(** decryption gives back what was encrypted, and encryption what was decrypted, for every variant, key, info and width *)
Theorem C41_round_trip v enc key info k inp io out oo out2 oo2 : In v shx_variants -> cp_legal (v_cipher v) (length key) = true -> bytes key -> bytes info -> v_info v info -> (k <= 4)%nat ->
  window (16 * 2 ^ k) inp io out oo -> bytes out -> (oo2 + 16 * 2 ^ k <= length out2)%nat ->
  exists c p, bhistory (v_ops v) (v_new v) [BInit enc key info; BTransform k inp io out oo] = Ok [Done; Wrote c] /\
    bhistory (v_ops v) (v_new v) [BInit (negb enc) key info; BTransform k (Some c) oo out2 oo2] = Ok [Done; Wrote p] /\
    slice p oo2 (16 * 2 ^ k) = taken (16 * 2 ^ k) inp io out.
Proof. exact (c41_trip v enc key info k inp io out oo out2 oo2). Qed.
Print Assumptions C41_round_trip.
Example C41_round_trip_case : cp_legal (v_cipher v_SHXS512) (length (nessie_key 64)) = true /\ v_info v_SHXS512 [7; 7] /\ window (16 * 2 ^ 0) None 0 (zeros 20) 3.
Proof.
  split; [reflexivity|]. split; [split; [cbn; lia|vm_compute; lia]|]. split; [cbn; lia|]. split; [|cbn; lia]. apply Forall_forall; intros x Hx; apply repeat_spec in Hx; subst; red; lia.
Qed.
(** only the four key lengths are accepted *)
Theorem C41_other_lengths v enc key info : In v shx_variants -> length key <> 16%nat -> length key <> 24%nat -> length key <> 32%nat -> length key <> 64%nat -> Z.of_nat (length key) < 2 ^ 32 ->
  bhistory (v_ops v) (v_new v) [BInit enc key info] = Ok [Failed InvalidKey].
Proof. exact (c41_other v enc key info). Qed.
Print Assumptions C41_other_lengths.
(** the blocks of an object without a key read outside its arrays *)
Theorem C41_uninitialised_refuted v inp io out oo : In v shx_variants -> window 16 inp io out oo ->
  bo_enc (v_ops v) (v_new v) inp io out oo = UB /\ bo_dec (v_ops v) (v_new v) inp io out oo = UB.
Proof. exact (c41_uninit v inp io out oo). Qed.
Print Assumptions C41_uninitialised_refuted.
