(** C76: the HMAC based random generator.  Statements only; see Spec_HCG.v for what the calls should compute and
    Session_HCG.v for the call histories. *)
From Verif Require Import Base BaseLemmas Spec_Common Spec_SHA2 Spec_MAC Spec_HCG Model_SHA2 Session_SHA2 Model_CSG Session_CSG Model_HCG Session_HCG ProofsP_HCG.
Open Scope Z_scope.

(** C76: whatever calls are made, with or without a random provider and for every reseed threshold, each call of an
    HCG with SHA2-256 returns what the specification says: output blocks chained by HMAC with code and counter,
    and a new HMAC key from each seed, 10000 seeds at most. *)
Theorem C76_every_history_sha256 : forall prov (thr : Z) (cs : list gcall), provider_ok prov -> Forall hcall_ok cs ->
  exists rs, hhistory 64 32 SHA2256_Update SHA2256_Finalize SHA2256_new HCG_name256 prov thr (HCG_new 64 SHA2256_new) cs = Ok rs /\
    hexpected sha256 64 32 HCG_name256 prov thr (hgen_new 32) cs rs.
Proof. exact c76_256. Qed.
Print Assumptions C76_every_history_sha256.
(** the same with SHA2-512 ([sha512_code]: see C31) *)
Theorem C76_every_history_sha512 : forall prov (thr : Z) (cs : list gcall), provider_ok prov -> Forall hcall_ok cs ->
  exists rs, hhistory 128 64 SHA2512_Update SHA2512_Finalize SHA2512_new HCG_name512 prov thr (HCG_new 128 SHA2512_new) cs = Ok rs /\
    hexpected sha512_code 128 64 HCG_name512 prov thr (hgen_new 64) cs rs.
Proof. exact c76_512. Qed.
Print Assumptions C76_every_history_sha512.
Example C76_case :
  let p := fun k n => repeat (Z.of_nat k mod 256) n in
  let cs := [GGen (zeros 3) 0 3; GUpdate (zeros 16); GInit (zeros 15) [] []; GInit (zeros 16) [255; 255; 255] [1; 2; 3]; GGen (zeros 20) 0 10; GUpdate (zeros 32); GGen (zeros 20) 15 10; GGen (zeros 300) 0 300] in
  provider_ok (Some p) /\ Forall hcall_ok cs.
Proof.
  cbv zeta. split.
  - intros k n. split; [apply repeat_length|]. apply Forall_forall. intros x Hx. apply repeat_spec in Hx. subst x. red. apply Z.mod_pos_bound. lia.
  - repeat (apply Forall_cons; [cbn [hcall_ok]; repeat split; try (rewrite ?length_zeros; cbn [length]; lia); try apply bytes_zeros; try (repeat (apply Forall_cons; [red; lia|]); apply Forall_nil)|]). apply Forall_nil.
Qed.

(** requests for whole blocks: however they are cut, the answers are the consecutive blocks of one chain *)
Theorem C76_whole_blocks_sha256 : forall (thr : Z) (key iv info : list Z) (ks : list nat),
  hcall_ok (GInit key iv info) -> (16 <= length key)%nat -> Forall (fun k => Z.of_nat (k * 32) <= 102400000) ks ->
  exists outs, hhistory 64 32 SHA2256_Update SHA2256_Finalize SHA2256_new HCG_name256 None thr (HCG_new 64 SHA2256_new)
      (GInit key iv info :: map (fun k => GGen (zeros (k * 32)) 0 (k * 32)) ks) = Ok (GDone :: map GWrote outs) /\
    let g := hkeyed sha256 64 HCG_name256 (hgen_new 32) key iv info in
    concat outs = next_blocks sha256 64 key (hg_code g) (list_sum ks) (hg_x g).
Proof. exact c76_whole_blocks. Qed.
Print Assumptions C76_whole_blocks_sha256.
Theorem C76_whole_blocks_sha512 : forall (thr : Z) (key iv info : list Z) (ks : list nat),
  hcall_ok (GInit key iv info) -> (16 <= length key)%nat -> Forall (fun k => Z.of_nat (k * 64) <= 102400000) ks ->
  exists outs, hhistory 128 64 SHA2512_Update SHA2512_Finalize SHA2512_new HCG_name512 None thr (HCG_new 128 SHA2512_new)
      (GInit key iv info :: map (fun k => GGen (zeros (k * 64)) 0 (k * 64)) ks) = Ok (GDone :: map GWrote outs) /\
    let g := hkeyed sha512_code 128 HCG_name512 (hgen_new 64) key iv info in
    concat outs = next_blocks sha512_code 128 key (hg_code g) (list_sum ks) (hg_x g).
Proof. exact c76_whole_blocks512. Qed.
Print Assumptions C76_whole_blocks_sha512.
Example C76_whole_blocks_case : hcall_ok (GInit (zeros 16) [1; 2; 3; 4; 5; 6; 7; 8; 9] [7]) /\ (16 <= length (zeros 16))%nat /\ Forall (fun k => Z.of_nat (k * 32) <= 102400000) [1; 0; 3]%nat /\ list_sum [1; 0; 3]%nat = 4%nat.
Proof.
  split; [cbn [hcall_ok]; repeat split; try (cbn [length]; lia); try apply bytes_zeros; try (repeat (apply Forall_cons; [red; lia|]); apply Forall_nil)|]. split; [cbn [length zeros repeat]; lia|]. split; [repeat constructor; lia|reflexivity].
Qed.

(** Refuted: "two generators with the same key give the same stream".  The stream depends on how the requests are
    cut: the bytes of a block already given out are erased from the chaining value. *)
Theorem C76_split_refuted : forall thr : Z, exists ns1 ns2 outs1 outs2, list_sum ns1 = list_sum ns2 /\
  hhistory 64 32 SHA2256_Update SHA2256_Finalize SHA2256_new HCG_name256 None thr (HCG_new 64 SHA2256_new) (GInit (zeros 16) [] [] :: map (fun k => GGen (zeros k) 0 k) ns1) = Ok (GDone :: map GWrote outs1) /\
  hhistory 64 32 SHA2256_Update SHA2256_Finalize SHA2256_new HCG_name256 None thr (HCG_new 64 SHA2256_new) (GInit (zeros 16) [] [] :: map (fun k => GGen (zeros k) 0 k) ns2) = Ok (GDone :: map GWrote outs2) /\
  concat outs1 <> concat outs2.
Proof. exact c76_split. Qed.
Print Assumptions C76_split_refuted.

(** Refuted: "Update refuses a seed shorter than twice the security strength".  The factor two is applied to the
    truth value of the comparison, so half of that (16 bytes for SHA2-256) is enough. *)
Theorem C76_update_seed_size_refuted : forall (thr : Z) (key key2 : list Z), bytes key -> bytes key2 -> (16 <= length key)%nat -> (16 <= length key2)%nat ->
  hhistory 64 32 SHA2256_Update SHA2256_Finalize SHA2256_new HCG_name256 None thr (HCG_new 64 SHA2256_new) [GInit key [] []; GUpdate key2] = Ok [GDone; GDone].
Proof. exact c76_update. Qed.
Print Assumptions C76_update_seed_size_refuted.
Example C76_update_seed_size_case : bytes (zeros 16) /\ (16 <= length (zeros 16) < 2 * (HCG_strength 64 / 8))%nat.
Proof. split; [apply bytes_zeros|]. rewrite length_zeros. change (HCG_strength 64 / 8)%nat with 16%nat. lia. Qed.

(** Refuted: "the constructor that takes a digest accepts the two SHA2 digests and no other": it refuses SHA2-512 and
    accepts every other digest. *)
Theorem C76_pointer_constructor_refuted : forall d, HCG_pointer_accepts d = true <-> d <> D_SHA2512.
Proof. exact c76_pointer. Qed.
Print Assumptions C76_pointer_constructor_refuted.
