From Verif Require Import Base BaseLemmas Model_Stream Spec_File Session_Stream Proofs_Stream.
Open Scope Z_scope.
Lemma c53_history d calls t : Z.of_nat (length d) < 2 ^ 63 -> file_history (File d 0) calls = Some t -> stream_history (MemoryStream_of d) calls = Ok t.
Proof. intros L. apply history_rel. split; [reflexivity|]. split; [reflexivity|]. cbn [f_pos f_bytes]. lia. Qed.
Lemma c53_read_offset d out off len : Z.of_nat (length d) < 2 ^ 63 -> Z.of_nat (off + len) < 2 ^ 64 -> (0 < len < length d)%nat -> (length d < off + len)%nat -> length out = (off + len)%nat ->
  MemoryStream_Read (MemoryStream_of d) out (Z.of_nat off) (Z.of_nat len) = UB /\
  forall more, (length d - len <= length more)%nat -> exists s' out',
    MemoryStream_Read (MemoryStream_of d) (out ++ more) (Z.of_nat off) (Z.of_nat len) = Ok (s', out', Z.of_nat (length d)).
Proof.
  intros L1 L2 L3 L4 L5. split.
  - apply (proj2 (read_more d out off len L1 L2 L4 ltac:(lia))). lia.
  - intros more M. destruct (proj1 (read_more d (out ++ more) off len L1 L2 L4 ltac:(lia))) as (s' & E); [rewrite app_length; lia|]. eauto.
Qed.
Lemma c53_past_end d p v : Z.of_nat (length d) < p < 2 ^ 63 ->
  let s := MemoryStream_Seek (MemoryStream_of d) p FromBegin in
  MemoryStream_ReadByte s = UB /\ MemoryStream_WriteByte s v = UB /\ forall out n, 0 < n -> n + p < 2 ^ 63 -> MemoryStream_Read s out 0 n = UB.
Proof. exact (past_end_ub d p v). Qed.
Lemma c53_copy_to d pos dead : Z.of_nat (length d) < 2 ^ 63 ->
  exists s, MemoryStream_CopyTo (MStream d pos dead) MemoryStream_new = Ok s /\ ms_data s = d /\ ms_pos s = Z.of_nat (length d).
Proof.
  intros L. unfold MemoryStream_CopyTo, msize. cbn [ms_data]. destruct (write_rel MemoryStream_new (File [] 0) d 0 (length d)) as (s & W & E1 & E2 & _).
  { split; [reflexivity|]. split; [reflexivity|]. cbn. lia. } { lia. } { cbn [f_pos]. lia. }
  change 0 with (Z.of_nat 0). rewrite W. exists s. split; [reflexivity|]. rewrite E1, E2. cbn [f_bytes f_pos]. unfold put_at. cbn [length Nat.leb firstn app]. rewrite skipn_nil, app_nil_r, slice_all by auto. auto.
Qed.
Lemma c54_case : Forall item_ok [IInt 305419896; IArray [1; 2; 3]; IByte 200; ILong 1; IShort 65535; IArray []].
Proof. repeat (apply Forall_cons; [cbn [item_ok]; try lia; repeat (apply Forall_cons; [red; lia|]); apply Forall_nil|]). apply Forall_nil. Qed.
