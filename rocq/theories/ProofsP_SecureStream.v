From Verif Require Import Base BaseLemmas Spec_Common Proofs_Common Model_IntegerTools Model_Modes Proofs_IntegerTools Proofs_Windows Spec_Modes Model_Stream Spec_File Session_Stream Proofs_Stream.
From Verif Require Import Model_SecureStream Spec_SecureStream Session_SecureStream Proofs_SecureStream.
Open Scope Z_scope.

Lemma key_salt_ok salt : 0 <= salt < 2 ^ 63 -> key_salt salt = Ok (salt_bytes salt).
Proof. intros. unfold key_salt. rewrite (proj2 (Z.leb_gt _ _)) by lia. reflexivity. Qed.
Lemma of_ok Y d salt : sys_ok Y -> 0 <= salt < 2 ^ 63 -> SecureStream_of Y d salt = Ok (SStream (salt_bytes salt) (pad_with (pad_of Y (salt_bytes salt)) d) 0 false).
Proof. intros HY HS. unfold SecureStream_of. rewrite key_salt_ok by auto. cbn [bind]. rewrite transform_ok by auto. reflexivity. Qed.
Lemma of_rel Y d salt : Z.of_nat (length d) < 2 ^ 63 -> xrel Y (SStream (salt_bytes salt) (pad_with (pad_of Y (salt_bytes salt)) d) 0 false) (File d 0).
Proof. intros. repeat split; auto. Qed.
Lemma last_cons_default {A} (l : list A) : forall x d, last (x :: l) d = last l x.
Proof.
  induction l as [|y l IH]; intros x d; [reflexivity|]. change (last (x :: y :: l) d) with (last (y :: l) d). rewrite !IH. reflexivity.
Qed.
Lemma end_last gap cs : forall f t, fill_history gap f cs = Some t -> f_bytes (fill_end gap f cs) = shown_last (f_bytes f) t.
Proof.
  unfold shown_last. induction cs as [|c cs IH]; intros f t E; cbn [fill_history fill_end] in *; [inversion E; reflexivity|].
  destruct (fill_step gap f c) as [[f' a]|]; [|discriminate]. destruct (fill_history gap f' cs) as [t'|] eqn:EH; [|discriminate]. inversion E; subst. rewrite (IH _ _ EH). cbn [map snd]. symmetry. apply last_cons_default.
Qed.
Lemma c79_history Y d salt calls t : sys_ok Y -> 0 <= salt < 2 ^ 63 -> Z.of_nat (length d) < 2 ^ 63 ->
  let pad := seed_pad (sy_aes Y) (sy_hash Y (salt_bytes salt)) in
  fill_history pad (File d 0) calls = Some t ->
  exists s0 s', SecureStream_of Y d salt = Ok s0 /\ secure_history Y s0 calls = Ok (s', t) /\ ss_data s' = pad_with pad (shown_last d t).
Proof.
  intros HY HS L pad E. rewrite of_ok by auto. eexists.
  destruct (xhistory Y HY calls _ _ t (of_rel Y d salt L) E) as (s' & W & S' & R). exists s'. split; [reflexivity|]. split; [exact W|].
  destruct R as (ED & _). rewrite ED, S'. cbn [ss_salt]. fold pad. change (pad_of Y (salt_bytes salt)) with pad. rewrite (end_last _ _ _ _ E). reflexivity.
Qed.
Lemma no_gap_same gap cs : forall f, no_gap f cs = true -> fill_history gap f cs = file_history f cs.
Proof.
  induction cs as [|c cs IH]; intros f E; cbn [fill_history file_history no_gap] in *; [reflexivity|]. apply Bool.andb_true_iff in E. destruct E as (E1 & E2).
  assert (ST : fill_step gap f c = fcall_step f c). { destruct c; try reflexivity. unfold fill_step. rewrite E1. destruct (fcall_step f (FWrite inp off len)) as [[? ?]|]; reflexivity. }
  rewrite ST. destruct (fcall_step f c) as [[f' a]|]; [|reflexivity]. rewrite IH by auto. reflexivity.
Qed.
Lemma c79_file Y d salt calls t : sys_ok Y -> 0 <= salt < 2 ^ 63 -> Z.of_nat (length d) < 2 ^ 63 -> no_gap (File d 0) calls = true -> file_history (File d 0) calls = Some t ->
  exists s0 s', SecureStream_of Y d salt = Ok s0 /\ secure_history Y s0 calls = Ok (s', t).
Proof.
  intros HY HS L N E. rewrite <- (no_gap_same (seed_pad (sy_aes Y) (sy_hash Y (salt_bytes salt)))) in E by auto.
  destruct (c79_history Y d salt calls t HY HS L E) as (s0 & s' & A & B & _). eauto.
Qed.
Lemma c79_gap Y d salt p w : sys_ok Y -> 0 <= salt < 2 ^ 63 -> (length d < p)%nat -> Z.of_nat (p + length w) < 2 ^ 63 ->
  exists s0 s1 s2, SecureStream_of Y d salt = Ok s0 /\ secure_history Y s0 [FSeek p SBegin; FWrite w 0 (length w)] = Ok (s1, [(FDone, length d, p, d); s2]) /\
    snd s2 = d ++ map (seed_pad (sy_aes Y) (sy_hash Y (salt_bytes salt))) (seq (length d) (p - length d)) ++ w.
Proof.
  intros HY HS L1 L2. set (pad := seed_pad (sy_aes Y) (sy_hash Y (salt_bytes salt))).
  assert (E : exists n q, fill_history pad (File d 0) [FSeek p SBegin; FWrite w 0 (length w)] = Some [(FDone, length d, p, d); (FDone, n, q, d ++ map pad (seq (length d) (p - length d)) ++ w)]).
  { cbn [fill_history fill_step fcall_step f_bytes f_pos]. unfold too_big. rewrite (proj2 (Z.leb_gt _ _)) by lia. cbn [f_bytes f_pos].
    rewrite (proj2 (Nat.leb_le _ _)) by lia. rewrite (proj2 (Z.leb_gt _ _)) by lia. cbn [negb andb f_pos f_bytes]. rewrite (proj2 (Nat.leb_gt _ _)) by lia. cbn [f_bytes f_pos skipn]. rewrite firstn_all. eauto. }
  destruct E as (n & q & E). destruct (c79_history Y d salt _ _ HY HS ltac:(lia) E) as (s0 & s1 & A & B & _). exists s0, s1. eexists. split; [exact A|]. split; [exact B|]. reflexivity.
Qed.
Lemma pad_xor pad a : forall b, length a = length b -> xorl (pad_with pad a) (pad_with pad b) = xorl a b.
Proof.
  intros b L. apply nth_ext with 0 0; [rewrite !length_xorl, !pad_len; reflexivity|]. intros i Li. rewrite length_xorl, !pad_len in Li.
  rewrite !nth_xorl by (rewrite ?pad_len; auto). rewrite !pad_nth by lia. rewrite (Z.lxor_comm (nth i b 0)), Z.lxor_assoc, <- (Z.lxor_assoc (pad i)), Z.lxor_nilpotent, Z.lxor_0_l. reflexivity.
Qed.
Lemma c79_same_pad Y a b salt : sys_ok Y -> 0 <= salt < 2 ^ 63 -> length a = length b ->
  exists sa sb, SecureStream_of Y a salt = Ok sa /\ SecureStream_of Y b salt = Ok sb /\ xorl (ss_data sa) (ss_data sb) = xorl a b.
Proof. intros. rewrite !of_ok by auto. eexists _, _. split; [reflexivity|]. split; [reflexivity|]. cbn [ss_data]. apply pad_xor; auto. Qed.
Lemma c79_salt Y salt : 2 ^ 63 <= salt < 2 ^ 64 ->
  (forall d, SecureStream_of Y d salt = Throw OtherError) /\ (forall n, SecureStream_new n salt = Throw OtherError) /\ (forall d off len, SecureStream_part Y d off len salt = Throw OtherError).
Proof. intros. unfold SecureStream_of, SecureStream_new, SecureStream_part, key_salt. rewrite (proj2 (Z.leb_le _ _)) by lia. auto. Qed.
Lemma c79_ctors Y d off len n salt : sys_ok Y -> 0 <= salt < 2 ^ 63 -> (off + len <= length d)%nat -> 0 <= n < 2 ^ 63 ->
  SecureStream_part Y d off len salt = SecureStream_of Y (firstn len (skipn off d)) salt /\ SecureStream_new n salt = SecureStream_of Y [] salt /\
  SecureStream_of Y [] 0 = Ok SecureStream_default.
Proof.
  intros HY HS L HN. unfold SecureStream_part, SecureStream_new, SecureStream_of. rewrite key_salt_ok by auto. cbn [bind]. rewrite wcopy_ok by (rewrite ?length_zeros; lia). cbn [bind].
  rewrite splice_all by (rewrite length_slice, length_zeros by lia; reflexivity). rewrite (proj2 (Z.leb_gt _ _)) by lia. auto.
Qed.
Lemma c79_copy Y d salt g : sys_ok Y -> 0 <= salt < 2 ^ 63 -> Z.of_nat (f_pos g + length d) < 2 ^ 63 -> Z.of_nat (length (f_bytes g)) < 2 ^ 63 ->
  exists s0, SecureStream_of Y d salt = Ok s0 /\
    SecureStream_CopyTo Y s0 (MStream (f_bytes g) (Z.of_nat (f_pos g)) false) = Ok (s0, MStream (put_at (f_bytes g) (f_pos g) d) (Z.of_nat (f_pos g + length d)) false).
Proof.
  intros HY HS L1 L2. rewrite of_ok by auto. eexists. split; [reflexivity|]. unfold SecureStream_CopyTo. cbn [ss_salt ss_data]. rewrite transform_ok by auto. cbn [bind]. rewrite pad_twice.
  set (m := MStream _ _ _). assert (R : srel m g) by (repeat split; cbn [f_pos]; auto; lia).
  destruct (write_rel m g d 0 (length d) R) as (m' & W & R'); [lia|lia|]. change (Z.of_nat 0) with 0 in W.
  pose proof W as W0. rewrite W. cbn [bind]. rewrite transform_ok by auto. cbn [bind].
  assert (DD : ms_dead m' = false). { clear - W0. unfold MemoryStream_Write in W0. destruct (if msize m <? _ then _ else _) as [x| |]; [|discriminate|discriminate]. cbn [bind] in W0. destruct (copy_at _ _ _ _ _) as [y| |]; [|discriminate|discriminate]. cbn [bind] in W0. inversion W0. reflexivity. }
  destruct R' as (E1 & E2 & _). destruct m' as [md mp mdd]. cbn [ms_data ms_pos ms_dead f_bytes f_pos] in *. subst. rewrite slice_all by reflexivity. reflexivity.
Qed.
Lemma c79_destroy Y s : ss_dead s = false -> let s' := SecureStream_Destroy s in ss_data s' = [] /\ ss_pos s' = 0 /\ SecureStream_ToArray Y s' = Ok (s', []) /\ SecureStream_Destroy s' = s'.
Proof. intros D. unfold SecureStream_Destroy. rewrite D. auto. Qed.
