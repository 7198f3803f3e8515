(** The CMAC and HMAC properties, assembled. *)
From Verif Require Import BaseLemmas Spec_Common Proofs_Common Spec_Feed Spec_SHA2 Spec_MAC Model_IntegerTools Proofs_IntegerTools Proofs_Modes5 Model_Modes Proofs_Windows Model_Absorb Proofs_Absorb
  Model_SHA2 Proofs_SHA2obj Proofs_SHA2cmp Proofs_SHA2Par Proofs_SHA2Par2 Session_Digest Session_SHA2 ProofsP_SHA2 Model_CMAC Model_HMAC Session_Mac Session_MacObjs Proofs_Mac Proofs_CMAC Proofs_HMAC Proofs_HMAC2.
Open Scope Z_scope.

Lemma sha256_bytes m : bytes (sha256 m).
Proof. apply words_out_bytes. Qed.
Lemma sha512_code_bytes m : bytes (sha512_code m).
Proof. apply words_out_bytes. Qed.
Lemma sha512_code_len m : length (sha512_code m) = 64%nat.
Proof. exact (sha512_with_length_len _ m). Qed.
Lemma c27_256 cs : Forall (mcall_ok 32) cs ->
  exists rs, mhistory (hmac_ops 64 32 SHA2256_Update SHA2256_Finalize SHA2256_new) (HMAC_new 64 SHA2256_new) cs = Ok rs /\ mexpected (hmac_mac_spec 64 32 sha256) MNone cs rs.
Proof.
  refine (hmac_hist 64 32 SHA2256_Update SHA2256_Finalize SHA2256_new after256 sha256 _ after256_new _ _ sha256_len sha256_bytes cs); [lia| |].
  - intros o m p A P. destruct (after256_feed o m [p] A) as (o' & E & A'); [constructor; auto|]. cbn [feed] in E. apply bind_ok in E. destruct E as (s & -> & [= <-]).
    exists s. split; auto. unfold joined in A'. cbn [map concat] in A'. now rewrite app_nil_r in A'.
  - intros o m out oo A L. exact (final256 o m out oo A L).
Qed.
Lemma c27_512 cs : Forall (mcall_ok 64) cs ->
  exists rs, mhistory (hmac_ops 128 64 SHA2512_Update SHA2512_Finalize SHA2512_new) (HMAC_new 128 SHA2512_new) cs = Ok rs /\ mexpected (hmac_mac_spec 128 64 sha512_code) MNone cs rs.
Proof.
  refine (hmac_hist 128 64 SHA2512_Update SHA2512_Finalize SHA2512_new after512 sha512_code _ after512_new _ _ sha512_code_len sha512_code_bytes cs); [lia| |].
  - intros o m p A P. destruct (after512_feed o m [p] A) as (o' & E & A'); [constructor; auto|]. cbn [feed] in E. apply bind_ok in E. destruct E as (s & -> & [= <-]).
    exists s. split; auto. unfold joined in A'. cbn [map concat] in A'. now rewrite app_nil_r in A'.
  - intros o m out oo A L. exact (c31_final o m out oo A L).
Qed.
Lemma small512 m : Z.of_nat (length m) < 2 ^ 61 - 128 -> sha512_code m = sha512 m.
Proof. intros H. apply c31_exact. right. rewrite Z.mod_small; lia. Qed.
Lemma c27_exact512 k m : Z.of_nat (length k) < 2 ^ 60 -> Z.of_nat (length m) < 2 ^ 60 -> hmac sha512_code 128 k m = hmac sha512 128 k m.
Proof.
  intros Hk Hm. unfold hmac, hmac_key. rewrite (small512 k) by lia. set (kk := (if (128 <? length k)%nat then sha512 k else k) ++ zeros _).
  assert (Lk : length kk = 128%nat).
  { unfold kk. rewrite app_length, length_zeros. destruct (Nat.ltb_spec 128 (length k)); [|lia]. rewrite <- small512 by lia. rewrite sha512_code_len. reflexivity. }
  rewrite (small512 (pad_with 54 kk ++ m)) by (rewrite app_length, pad_with_len; lia).
  rewrite small512; [reflexivity|]. rewrite app_length, pad_with_len. rewrite <- small512 by (rewrite app_length, pad_with_len; lia). rewrite sha512_code_len. lia.
Qed.
Lemma c27_mac256 key inp io len out oo : bytes key -> (length key <= 64)%nat -> bytes inp -> (io + len <= length inp)%nat -> (oo + 32 <= length out)%nat -> Z.of_nat len < 2 ^ 60 ->
  exists out', MACR64P512 key inp io len out oo = Ok out' /\ written out out' oo (hmac sha256 64 key (slice inp io len)).
Proof.
  intros. unfold MACR64P512.
  rewrite (stateless_ok 64 8 32 PermuteR64P512U SHA2256State _ (BeWordsToBlock 4) F256 (words_out 4)); auto; try lia.
  - eexists. split; [reflexivity|].
    assert (EH : forall m, hash 64 8 SHA2256State F256 (words_out 4) m = sha256 m).
    { intros m. unfold hash, sha256. rewrite H256_eq. reflexivity. }
    unfold hmac, hmac_key. rewrite !EH. apply splice_written. rewrite sha256_len. lia.
  - intros. now apply permute256_ok.
  - intros h b Hh. now apply compress256_len.
  - intros x buf Hx Hbuf. rewrite Be32ToBytes_correct by lia. cbn [bind]. rewrite Be32ToBytes_correct by (rewrite length_splice; rewrite ?length_be_bytes; lia).
    f_equal. replace 60%nat with (56 + length (be_bytes 4 (wshr (wshl 64 x 3) 32)))%nat by (rewrite length_be_bytes; lia).
    rewrite splice_splice_next by (rewrite !length_be_bytes; lia). change (64 - 8)%nat with 56%nat. f_equal.
    rewrite <- (bitlen_bytes x). replace (u64 x) with x; [reflexivity|]. unfold u64. rewrite Z.mod_small; lia.
  - intros h o2 oo2 Hh Ho2. apply BeWords_ok; auto.
  - intros h Hh. rewrite words_out_len, Hh. reflexivity.
  - intros h. apply words_out_bytes.
Qed.
Lemma c27_mac512 key inp io len out oo : bytes key -> (length key <= 128)%nat -> bytes inp -> (io + len <= length inp)%nat -> (oo + 64 <= length out)%nat -> Z.of_nat len < 2 ^ 60 ->
  exists out', MACR80P1024 key inp io len out oo = Ok out' /\ written out out' oo (hmac sha512 128 key (slice inp io len)).
Proof.
  intros. unfold MACR80P1024.
  rewrite (stateless_ok 128 16 64 PermuteR80P1024U SHA2512State _ (BeWordsToBlock 8) F512 (words_out 8)); auto; try lia.
  - eexists. split; [reflexivity|].
    assert (EH : forall m, hash 128 16 SHA2512State F512 (words_out 8) m = sha512 m).
    { intros m. unfold hash, sha512. rewrite H512_eq. reflexivity. }
    unfold hmac, hmac_key. rewrite !EH. apply splice_written. unfold sha512. rewrite words_out_len. unfold merkle. change (fun h b => compress512 h (be_words 8 b)) with F512. rewrite Proofs_SHA2Par2.fold_F512_len; [lia|apply H512_len].
  - intros. now apply permute512_ok.
  - intros h b Hh. now apply compress512_len.
  - intros x buf Hx Hbuf. rewrite Be64ToBytes_correct by lia. cbn [bind]. rewrite Be64ToBytes_correct by (rewrite length_splice; rewrite ?length_be_bytes; lia).
    f_equal. replace 120%nat with (112 + length (be_bytes 8 0))%nat by (rewrite length_be_bytes; lia).
    rewrite splice_splice_next by (rewrite !length_be_bytes; lia). change (128 - 16)%nat with 112%nat. f_equal.
    replace (8 * x) with (8 * x + 2 ^ 64 * (0 - x / 2 ^ 61)) by (rewrite Z.div_small by lia; lia). rewrite <- field_bytes. rewrite (Z.mod_small x) by lia. reflexivity.
  - intros h o2 oo2 Hh Ho2. apply BeWords_ok; auto.
  - intros h Hh. rewrite words_out_len, Hh. reflexivity.
  - intros h. apply words_out_bytes.
Qed.
Lemma c27_longkey key inp io len out oo : (64 < length key)%nat -> MACR64P512 key inp io len out oo = UB.
Proof.
  intros H. unfold MACR64P512, stateless_mac, wcopy. rewrite rd_ok by lia. cbn [bind]. unfold wr.
  rewrite (proj2 (Nat.leb_gt _ _)); [reflexivity|]. rewrite length_slice, length_zeros by lia. lia.
Qed.
