(** The SHX properties, assembled. *)
From Verif Require Import Base BaseLemmas Spec_Common Spec_SHA2 Spec_Serpent Session_Digest Session_Kdf Model_Modes Model_Keys Model_SHA2 Session_SHA2 Proofs_SHA2obj Proofs_SHA2cmp ProofsP_SHA2 ProofsP_MAC Proofs_KDF ProofsP_KDF Model_RHX Session_Block Proofs_Block Proofs_RHX ProofsP_RHX
  Model_Serpent Session_SHX Proofs_Serpent3 Proofs_SHX.
Open Scope Z_scope.

Lemma shx_name_ok kind d : is_byte kind -> d = s256 \/ d = s512 -> bytes (shx_name kind d) /\ length (shx_name kind d) = 7%nat.
Proof. intros K [-> | ->]; (split; [|reflexivity]); repeat (apply Forall_cons; [first [exact K|red; lia]|]); apply Forall_nil. Qed.
Lemma ws_h256 : works v_SHXH256.
Proof.
  exact (shx_both (gen_H256 (shx_name 0x48 s256)) _ _ any_info _ _ (shx_name_ok 0x48 s256 ltac:(red; lia) (or_introl eq_refl))
    (hk_generates 64 32 SHA2256_Update SHA2256_Finalize SHA2256_new after256 sha256 ltac:(lia) ltac:(lia) after256_new upd256 final256 sha256_len sha256_bytes (shx_name 0x48 s256))
    (fun info key Hi => conj Hi (fun _ => I)) (ex_intro _ (KIdle []) (hk_new 64 32 SHA2256_new after256 sha256 after256_new))).
Qed.
Lemma ws_h512 : works v_SHXH512.
Proof.
  exact (shx_both (gen_H512 (shx_name 0x48 s512)) _ _ any_info _ _ (shx_name_ok 0x48 s512 ltac:(red; lia) (or_intror eq_refl))
    (hk_generates 128 64 SHA2512_Update SHA2512_Finalize SHA2512_new after512 sha512_code ltac:(lia) ltac:(lia) after512_new upd512 c31_final sha512_code_len sha512_code_bytes (shx_name 0x48 s512))
    (fun info key Hi => conj Hi (fun _ => I)) (ex_intro _ (KIdle []) (hk_new 128 64 SHA2512_new after512 sha512_code after512_new))).
Qed.
Lemma ws_s256 : works v_SHXS256.
Proof.
  exact (shx_both (shake_gen (shx_name 0x53 s256) 136) _ _ (shake_info 136) _ _ (shx_name_ok 0x53 s256 ltac:(red; lia) (or_introl eq_refl)) (shake_generates (shx_name 0x53 s256) 136 ltac:(lia))
    (fun info key => shake_custom (shx_name 0x53 s256) 136 info key eq_refl) (ex_intro _ None eq_refl)).
Qed.
Lemma ws_s512 : works v_SHXS512.
Proof.
  exact (shx_both (shake_gen (shx_name 0x53 s512) 72) _ _ (shake_info 72) _ _ (shx_name_ok 0x53 s512 ltac:(red; lia) (or_intror eq_refl)) (shake_generates (shx_name 0x53 s512) 72 ltac:(lia))
    (fun info key => shake_custom (shx_name 0x53 s512) 72 info key eq_refl) (ex_intro _ None eq_refl)).
Qed.
Lemma shx_works v : In v shx_variants -> works v.
Proof. intros [<- | [<- | [<- | [<- | [<- | []]]]]]; [exact std_works|exact ws_h256|exact ws_h512|exact ws_s256|exact ws_s512]. Qed.
Lemma shx_small v n : In v shx_variants -> cp_legal (v_cipher v) n = rhx_legal n.
Proof. intros [<- | [<- | [<- | [<- | [<- | []]]]]]; reflexivity. Qed.

(** ** C41 *)
Lemma c41_hist v cs : In v shx_variants -> bcalls_ok (v_cipher v) (v_info v) false cs ->
  exists rs, bhistory (v_ops v) (v_new v) cs = Ok rs /\ bexpected (v_cipher v) (true, [], []) cs rs.
Proof. intros I. exact (proj1 (shx_works v I) cs (true, [], [])). Qed.
Lemma c41_trip v enc key info k inp io out oo out2 oo2 : In v shx_variants -> cp_legal (v_cipher v) (length key) = true -> bytes key -> bytes info -> v_info v info -> (k <= 4)%nat ->
  window (16 * 2 ^ k) inp io out oo -> bytes out -> (oo2 + 16 * 2 ^ k <= length out2)%nat ->
  exists c p, bhistory (v_ops v) (v_new v) [BInit enc key info; BTransform k inp io out oo] = Ok [Done; Wrote c] /\
    bhistory (v_ops v) (v_new v) [BInit (negb enc) key info; BTransform k (Some c) oo out2 oo2] = Ok [Done; Wrote p] /\
    slice p oo2 (16 * 2 ^ k) = taken (16 * 2 ^ k) inp io out.
Proof.
  intros I. destruct (shx_works v I) as [H1 H2]. apply (round_trip (v_ops v) (v_new v) (v_cipher v) (v_info v) H1 H2). intros n. rewrite (shx_small v n I). apply legal_small.
Qed.
Lemma c41_published key info : (length key = 16 \/ length key = 24 \/ length key = 32)%nat ->
  cp_enc (v_cipher v_Serpent) key info = serpent (serpent_schedule (rev key)) /\ cp_dec (v_cipher v_Serpent) key info = inv_serpent (serpent_schedule (rev key)).
Proof. intros L. cbn [v_cipher v_Serpent serpent_with cp_enc cp_dec]. unfold shx_schedule. destruct (Nat.eqb_spec (length key) 64) as [E|_]; [lia|]. split; reflexivity. Qed.
Lemma c41_uninit v inp io out oo : In v shx_variants -> window 16 inp io out oo -> bo_enc (v_ops v) (v_new v) inp io out oo = UB /\ bo_dec (v_ops v) (v_new v) inp io out oo = UB.
Proof.
  intros I W. assert (G : SHX_Encrypt128 [0] inp io out oo = UB /\ SHX_Decrypt128 [0] inp io out oo = UB).
  { destruct (src_window _ _ _ _ _ W) as (W1 & _). unfold SHX_Encrypt128, SHX_Decrypt128. rewrite load4_ok by exact W1. cbn [bind]. split; reflexivity. }
  destruct I as [<- | [<- | [<- | [<- | [<- | []]]]]]; exact G.
Qed.
Lemma c41_other v enc key info : In v shx_variants -> length key <> 16%nat -> length key <> 24%nat -> length key <> 32%nat -> length key <> 64%nat -> Z.of_nat (length key) < 2 ^ 32 ->
  bhistory (v_ops v) (v_new v) [BInit enc key info] = Ok [Failed InvalidKey].
Proof.
  intros I N1 N2 N3 N4 S1. assert (E : KeySize_Contains SHX_LegalKeySizes (Z.of_nat (length key) mod 2 ^ 32) 0 0 = false).
  { change SHX_LegalKeySizes with RHX_LegalKeySizes. rewrite legal_ok by exact S1. unfold rhx_legal. destruct (Nat.eqb_spec (length key) 16), (Nat.eqb_spec (length key) 24), (Nat.eqb_spec (length key) 32), (Nat.eqb_spec (length key) 64); try contradiction. reflexivity. }
  destruct I as [<- | [<- | [<- | [<- | [<- | []]]]]]; cbn [v_ops v_new v_obj v_Serpent v_SHXH256 v_SHXH512 v_SHXS256 v_SHXS512 bhistory bstep shx_ops bo_init]; unfold SHX_Initialize; rewrite E; reflexivity.
Qed.
Lemma c41_order : exists key b, length key = 16%nat /\ bytes key /\ length b = 16%nat /\ bytes b /\ cp_enc (v_cipher v_Serpent) key [] b <> serpent (serpent_schedule key) b.
Proof.
  exists (0x80 :: zeros 15), (zeros 16). split; [reflexivity|]. split; [constructor; [red; lia|apply bytes_zeros]|]. split; [reflexivity|]. split; [apply bytes_zeros|].
  assert (G : forall a b : list Z, (nth 0 a 0 =? nth 0 b 0) = false -> a <> b) by (intros a b H ->; rewrite Z.eqb_refl in H; discriminate H). apply G. vm_compute. reflexivity.
Qed.
