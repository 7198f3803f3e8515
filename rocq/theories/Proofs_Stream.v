From Verif Require Import Base BaseLemmas Spec_Common Proofs_Common Model_IntegerTools Model_Modes Proofs_IntegerTools Proofs_Windows Model_Stream Spec_File Session_Stream.
From Verif Require Import Proofs_Keys.
Open Scope Z_scope.

Definition srel (s : mstream) (f : file) : Prop := ms_data s = f_bytes f /\ ms_pos s = Z.of_nat (f_pos f) /\ Z.of_nat (f_pos f) < 2 ^ 63 /\ Z.of_nat (length (f_bytes f)) < 2 ^ 63.

Lemma copy_at_ok inp io out oo len : (io + len <= length inp)%nat -> (oo + len <= length out)%nat ->
  copy_at inp (Z.of_nat io) out (Z.of_nat oo) (Z.of_nat len) = Ok (splice out oo (slice inp io len)).
Proof.
  intros. unfold copy_at. rewrite (proj2 (Z.leb_le _ _)) by lia. rewrite (proj2 (Z.leb_le _ _)) by lia. cbn [andb]. rewrite !Nat2Z.id. apply wcopy_ok; auto.
Qed.
Lemma too_big_false n : negb (too_big n) = true -> Z.of_nat n < 2 ^ 63.
Proof. unfold too_big. destruct (Z.leb_spec (2 ^ 63) (Z.of_nat n)); [discriminate|auto]. Qed.
Lemma put_len d p w : length (put_at d p w) = Nat.max (length d) (p + length w).
Proof.
  unfold put_at. destruct (Nat.leb_spec p (length d)); rewrite !app_length, ?firstn_length, ?skipn_length, ?repeat_length; lia.
Qed.
Lemma splice_put d p w : (p + length w <= length d)%nat -> splice d p w = put_at d p w.
Proof. intros. unfold put_at. rewrite (proj2 (Nat.leb_le _ _)) by lia. reflexivity. Qed.
Lemma splice_grow d p w : (length d <= p + length w)%nat -> splice (d ++ zeros (p + length w - length d)) p w = put_at d p w.
Proof.
  intros L. unfold put_at, splice. destruct (Nat.leb_spec p (length d)).
  - rewrite firstn_app. replace (p - length d)%nat with 0%nat by lia. cbn [firstn]. rewrite app_nil_r. f_equal. f_equal.
    rewrite skipn_all2 by (rewrite app_length, length_zeros; lia). rewrite skipn_all2 by lia. reflexivity.
  - rewrite firstn_app, firstn_all2 by lia. rewrite <- app_assoc. f_equal. f_equal.
    + unfold zeros. replace (p + length w - length d)%nat with ((p - length d) + length w)%nat by lia. rewrite repeat_app, firstn_app, repeat_length, Nat.sub_diag, firstn_all2 by (rewrite repeat_length; lia). cbn [firstn]. apply app_nil_r.
    + rewrite skipn_all2 by (rewrite app_length, length_zeros; lia). apply app_nil_r.
Qed.
Lemma grow_ok d n : Z.of_nat n < 2 ^ 63 -> grow d (Z.of_nat n) = Ok (d ++ zeros (n - length d)).
Proof. intros. unfold grow. rewrite (proj2 (Z.leb_gt _ _)) by lia. rewrite Nat2Z.id. reflexivity. Qed.
Lemma write_rel s f inp off len : srel s f -> (off + len <= length inp)%nat -> Z.of_nat (f_pos f + len) < 2 ^ 63 ->
  exists s', MemoryStream_Write s inp (Z.of_nat off) (Z.of_nat len) = Ok s' /\ srel s' (File (put_at (f_bytes f) (f_pos f) (slice inp off len)) (f_pos f + len)).
Proof.
  intros (ED & EP & LP & LD) L1 L2. unfold MemoryStream_Write, msize. cbv zeta. rewrite EP, ED. rewrite Z.mod_small by lia.
  replace (Z.of_nat (f_pos f) + Z.of_nat len) with (Z.of_nat (f_pos f + len)) by lia.
  assert (LS : length (slice inp off len) = len) by (apply length_slice; lia).
  assert (G : forall s', s' = MStream (put_at (f_bytes f) (f_pos f) (slice inp off len)) (Z.of_nat (f_pos f + len)) (ms_dead s) ->
    srel s' (File (put_at (f_bytes f) (f_pos f) (slice inp off len)) (f_pos f + len))).
  { intros s' ->. split; [reflexivity|]. split; [reflexivity|]. cbn [f_bytes f_pos]. rewrite put_len, LS. lia. }
  destruct (Z.ltb_spec (Z.of_nat (length (f_bytes f))) (Z.of_nat (f_pos f + len))).
  - rewrite grow_ok by auto. cbn [bind]. rewrite copy_at_ok by (rewrite ?app_length, ?length_zeros; lia). cbn [bind]. eexists. split; [reflexivity|]. apply G. f_equal.
    rewrite <- splice_grow by (rewrite LS; lia). rewrite LS. reflexivity.
  - cbn [bind]. rewrite copy_at_ok by lia. cbn [bind]. eexists. split; [reflexivity|]. apply G. f_equal. apply splice_put. lia.
Qed.
Lemma writebyte_rel s f v : srel s f -> (f_pos f <= length (f_bytes f))%nat -> Z.of_nat (f_pos f + 1) < 2 ^ 63 ->
  exists s', MemoryStream_WriteByte s v = Ok s' /\ srel s' (File (put_at (f_bytes f) (f_pos f) [v]) (f_pos f + 1)).
Proof.
  intros (ED & EP & LP & LD) L1 L2. unfold MemoryStream_WriteByte, msize. rewrite EP, ED. rewrite (Z.mod_small (_ - _)) by lia.
  assert (G : forall s', s' = MStream (put_at (f_bytes f) (f_pos f) [v]) (Z.of_nat (f_pos f + 1)) (ms_dead s) -> srel s' (File (put_at (f_bytes f) (f_pos f) [v]) (f_pos f + 1))).
  { intros s' ->. split; [reflexivity|]. split; [reflexivity|]. cbn [f_bytes f_pos]. rewrite put_len. cbn [length]. lia. }
  rewrite (Z.mod_small (_ + 1)) by lia. replace (Z.of_nat (f_pos f) + 1) with (Z.of_nat (f_pos f + 1)) by lia.
  destruct (Z.ltb_spec (Z.of_nat (length (f_bytes f)) - Z.of_nat (f_pos f)) 1).
  - replace (Z.of_nat (length (f_bytes f)) + 1) with (Z.of_nat (length (f_bytes f) + 1)) by lia. rewrite grow_ok by lia. cbn [bind].
    rewrite (copy_at_ok [v] 0 _ _ 1) by (rewrite ?app_length, ?length_zeros; cbn [length]; lia). cbn [bind]. eexists. split; [reflexivity|]. apply G. f_equal.
    rewrite slice_all by reflexivity. rewrite <- splice_grow by (cbn [length]; lia). cbn [length]. replace (f_pos f) with (length (f_bytes f)) by lia. reflexivity.
  - cbn [bind]. rewrite (copy_at_ok [v] 0 _ _ 1) by (cbn [length]; lia). cbn [bind]. eexists. split; [reflexivity|]. apply G. f_equal. rewrite slice_all by reflexivity. apply splice_put. cbn [length]. lia.
Qed.
(** Read in general: when the offset and length together exceed what is left, everything left is copied *)
Lemma read_rel s f out off len : srel s f -> (f_pos f <= length (f_bytes f))%nat -> Z.of_nat (off + len) < 2 ^ 64 ->
  let avail := (length (f_bytes f) - f_pos f)%nat in
  let k := if (avail <? off + len)%nat then avail else len in
  (off + k <= length out)%nat \/ k = 0%nat ->
  exists s', MemoryStream_Read s out (Z.of_nat off) (Z.of_nat len) = Ok (s', if (k =? 0)%nat then out else splice out off (slice (f_bytes f) (f_pos f) k), Z.of_nat k) /\ srel s' (File (f_bytes f) (f_pos f + k)).
Proof.
  intros (ED & EP & LP & LD) L1 L2. cbv zeta. intros L3. unfold MemoryStream_Read, msize. cbv zeta. rewrite EP, ED.
  rewrite (Z.mod_small (_ - _)) by lia. rewrite (Z.mod_small (Z.of_nat off + _)) by lia.
  replace (Z.of_nat (length (f_bytes f)) - Z.of_nat (f_pos f)) with (Z.of_nat (length (f_bytes f) - f_pos f)) by lia.
  set (avail := (length (f_bytes f) - f_pos f)%nat) in *. set (k := if (avail <? off + len)%nat then avail else len) in *.
  replace (if Z.of_nat avail <? Z.of_nat off + Z.of_nat len then Z.of_nat avail else Z.of_nat len) with (Z.of_nat k).
  2:{ unfold k. destruct (Nat.ltb_spec avail (off + len)), (Z.ltb_spec (Z.of_nat avail) (Z.of_nat off + Z.of_nat len)); auto; lia. }
  assert (K : (k <= avail)%nat). { unfold k. destruct (Nat.ltb_spec avail (off + len)); lia. }
  clearbody k. destruct (Nat.eqb_spec k 0) as [->|N].
  - cbn [Z.of_nat Z.ltb Z.compare]. eexists. split; [reflexivity|]. split; [auto|]. cbn [f_bytes f_pos]. rewrite Nat.add_0_r. auto.
  - rewrite (proj2 (Z.ltb_lt 0 (Z.of_nat k))) by lia. rewrite copy_at_ok by (unfold avail in *; lia). cbn [bind]. eexists. split; [reflexivity|]. split; [auto|]. cbn [ms_pos f_pos f_bytes]. rewrite Z.mod_small by (unfold avail in *; lia). unfold avail in *. lia.
Qed.
Lemma readbyte_rel s f : srel s f -> (f_pos f < length (f_bytes f))%nat ->
  exists s', MemoryStream_ReadByte s = Ok (s', nth (f_pos f) (f_bytes f) 0) /\ srel s' (File (f_bytes f) (f_pos f + 1)).
Proof.
  intros (ED & EP & LP & LD) L. unfold MemoryStream_ReadByte. rewrite ED, EP. rewrite (copy_at_ok _ _ (zeros 1) 0 1) by (rewrite ?length_zeros; lia). cbn [bind].
  rewrite splice_all by (rewrite length_slice, length_zeros by lia; reflexivity). rewrite (get_ok _ 0%nat 0) by (rewrite length_slice by lia; lia). cbn [bind]. rewrite nth_slice by lia. rewrite Nat.add_0_r.
  eexists. split; [reflexivity|]. split; [reflexivity|]. cbn [ms_pos f_pos f_bytes]. rewrite Z.mod_small by lia. lia.
Qed.
Lemma step_rel s f c f' a : srel s f -> fcall_step f c = Some (f', a) -> exists s', stream_step s c = Ok (s', a) /\ srel s' f'.
Proof.
  intros R E. destruct c as [inp off len|v|out off len| |off o| |]; cbn [fcall_step stream_step] in *.
  - destruct (Nat.leb_spec (off + len) (length inp)); [|discriminate]. destruct (negb (too_big _)) eqn:T; [|discriminate]. cbn [andb] in E. inversion E; subst.
    destruct (write_rel s f inp off len R) as (s' & W & R'); [auto|apply too_big_false; auto|]. rewrite W. cbn [bind]. eauto.
  - destruct (Nat.leb_spec (f_pos f) (length (f_bytes f))); [|discriminate]. destruct (negb (too_big _)) eqn:T; [|discriminate]. cbn [andb] in E. inversion E; subst.
    destruct (writebyte_rel s f v R) as (s' & W & R'); [auto|apply too_big_false; auto|]. rewrite W. cbn [bind]. eauto.
  - destruct (Nat.leb_spec (f_pos f) (length (f_bytes f))) as [L1|]; [|discriminate]. destruct (Nat.leb_spec (off + len) (length out)) as [L2|]; [|discriminate]. cbn [andb] in E.
    destruct (_ || _) eqn:EO in E; [|discriminate]. destruct (negb (too_big _)) eqn:T in E; [|discriminate]. cbn [andb] in E. inversion E; subst. clear E. apply too_big_false in T.
    assert (K : (if (length (f_bytes f) - f_pos f <? off + len)%nat then (length (f_bytes f) - f_pos f)%nat else len) = Nat.min len (length (f_bytes f) - f_pos f)).
    { destruct (Nat.ltb_spec (length (f_bytes f) - f_pos f) (off + len)) as [C|C]; [|lia]. apply Bool.orb_true_iff in EO. destruct EO as [EO|EO]; [apply Nat.eqb_eq in EO|apply Nat.leb_le in EO]; lia. }
    pose proof (read_rel s f out off len R L1 ltac:(lia)) as W. cbv zeta in W. rewrite K in W. destruct W as (s' & W & R'); [lia|]. rewrite W. cbn [bind]. rewrite Nat2Z.id. eexists. split; [|exact R']. f_equal. f_equal. f_equal.
    set (k := Nat.min len (length (f_bytes f) - f_pos f)). assert (LS : length (slice (f_bytes f) (f_pos f) k) = k) by (apply length_slice; unfold k; lia).
    destruct (Nat.eqb_spec k 0) as [->|N]; [cbn [firstn app]; rewrite Nat.add_0_r, firstn_skipn; reflexivity|]. unfold splice. rewrite LS. reflexivity.
  - destruct (Nat.ltb_spec (f_pos f) (length (f_bytes f))); [|discriminate]. inversion E; subst. destruct (readbyte_rel s f R) as (s' & W & R'); [auto|]. rewrite W. cbn [bind]. eauto.
  - assert (A : a = FDone). { destruct o; [destruct (too_big off)|destruct (off <=? length (f_bytes f))%nat|destruct (too_big (f_pos f + off))]; inversion E; reflexivity. } subst a.
    eexists. split; [reflexivity|]. destruct R as (ED & EP & LP & LD). unfold MemoryStream_Seek, msize. rewrite ED, EP. destruct o; cbn [from_of] in *.
    + destruct (negb (too_big off)) eqn:T; [apply too_big_false in T|]. 2:{ destruct (too_big off); discriminate. }
      destruct (too_big off); [discriminate|]. inversion E; subst. split; [reflexivity|]. cbn [ms_pos f_pos f_bytes]. lia.
    + destruct (Nat.leb_spec off (length (f_bytes f))); [|discriminate]. inversion E; subst. split; [reflexivity|]. cbn [ms_pos f_pos f_bytes]. rewrite Z.mod_small by lia. lia.
    + destruct (negb (too_big (f_pos f + off))) eqn:T; [apply too_big_false in T|]. 2:{ destruct (too_big (f_pos f + off)); discriminate. }
      destruct (too_big (f_pos f + off)); [discriminate|]. inversion E; subst. split; [reflexivity|]. cbn [ms_pos f_pos f_bytes]. rewrite Z.mod_small by lia. lia.
  - inversion E; subst. eexists. split; [reflexivity|]. split; [reflexivity|]. cbn. lia.
  - inversion E; subst. eexists. split; [reflexivity|]. split; [reflexivity|]. cbn. lia.
Qed.
Lemma history_rel cs : forall s f t, srel s f -> file_history f cs = Some t -> stream_history s cs = Ok t.
Proof.
  induction cs as [|c cs IH]; intros s f t R E; cbn [file_history stream_history] in *; [inversion E; reflexivity|].
  destruct (fcall_step f c) as [[f' a]|] eqn:ES; [|discriminate]. destruct (step_rel _ _ _ _ _ R ES) as (s' & W & R'). rewrite W. cbn [bind].
  destruct (file_history f' cs) as [t'|] eqn:EH; [|discriminate]. rewrite (IH _ _ _ R' EH). cbn [bind]. inversion E; subst. destruct R' as (-> & -> & _). rewrite Nat2Z.id. reflexivity.
Qed.


(** ** writer and reader *)
Definition encode (i : item) : list Z :=
  match i with IByte v => le_bytes 1 v | IShort v => le_bytes 2 v | IInt v => le_bytes 4 v | ILong v => le_bytes 8 v | IArray l => l end.
Lemma encode_len i : length (encode i) = item_size i.
Proof. destruct i; cbn [encode item_size]; rewrite ?length_le_bytes; reflexivity. Qed.
Definition WR (w : swriter) (e : list Z) (n : nat) : Prop := sw_data w = e ++ zeros (n - length e) /\ sw_pos w = length e.
Lemma splice_after (e c : list Z) m : (length c <= m)%nat -> splice (e ++ zeros m) (length e) c = (e ++ c) ++ zeros (m - length c).
Proof.
  intros L. unfold splice. rewrite firstn_app, firstn_all, Nat.sub_diag. cbn [firstn]. rewrite app_nil_r, <- app_assoc. f_equal. f_equal.
  rewrite skipn_app, skipn_all2 by lia. cbn [app]. replace (length e + length c - length e)%nat with (length c) by lia. unfold zeros. replace m with (length c + (m - length c))%nat at 1 by lia.
  rewrite repeat_app, skipn_app, repeat_length, Nat.sub_diag, skipn_all2 by (rewrite repeat_length; lia). reflexivity.
Qed.
Lemma room_ok w e n c : WR w e n -> room w c = e ++ zeros (Nat.max (n - length e) c).
Proof.
  intros (E & P). unfold room. rewrite E, P, app_length, length_zeros. destruct (Nat.ltb_spec (length e + (n - length e)) (length e + c)).
  - rewrite <- app_assoc. f_equal. unfold zeros. rewrite <- repeat_app. f_equal. lia.
  - f_equal. f_equal. lia.
Qed.
Lemma WR_put w e n c : WR w e n -> WR (SWriter (splice (room w (length c)) (sw_pos w) c) (sw_pos w + length c)) (e ++ c) n.
Proof.
  intros H. rewrite (room_ok w e n) by auto. destruct H as (E & P). split; cbn [sw_data sw_pos].
  - rewrite P, splice_after by lia. f_equal. f_equal. rewrite app_length. lia.
  - rewrite P, app_length. reflexivity.
Qed.
Lemma write_item_ok w e n i : WR w e n -> exists w', write_item w i = Ok w' /\ WR w' (e ++ encode i) n.
Proof.
  intros H. assert (H' := H). assert (R := room_ok w e n). destruct H' as (_ & P).
  destruct i; cbn [write_item encode]; unfold StreamWriter_Write, StreamWriter_WriteBytes, LeToBytes;
  (rewrite wr_ok by (rewrite ?length_le_bytes, R, P, app_length, length_zeros by auto; lia)) || (rewrite wcopy_ok by (rewrite ?R, ?P, ?app_length, ?length_zeros by auto; lia); rewrite slice_all by auto);
  cbn [bind]; eexists; split; try reflexivity; match goal with |- WR _ (e ++ ?c) n => pose proof (WR_put w e n c H) as X end; rewrite ?length_le_bytes in X; exact X.
Qed.
Lemma write_items_ok l : forall w e n, WR w e n -> exists w', write_items w l = Ok w' /\ WR w' (e ++ concat (map encode l)) n.
Proof.
  induction l as [|i l IH]; intros w e n H; cbn [write_items map concat]; [rewrite app_nil_r; eauto|].
  destruct (write_item_ok w e n i H) as (w' & E & H'). rewrite E. cbn [bind]. rewrite app_assoc. apply IH. exact H'.
Qed.
Lemma concat_encode_len l : length (concat (map encode l)) = items_size l.
Proof. unfold items_size. induction l as [|i l IH]; [reflexivity|]. cbn [map concat list_sum fold_right]. rewrite app_length, IH, encode_len. reflexivity. Qed.
Lemma get_stream_ok w e n : WR w e n -> StreamWriter_GetStream w = MStream e 0 false.
Proof.
  intros (E & P). unfold StreamWriter_GetStream, MemoryStream_of. rewrite E, P, firstn_app, firstn_all, Nat.sub_diag. cbn [firstn]. rewrite app_nil_r. rewrite app_length, length_zeros.
  replace (length e - (length e + (n - length e)))%nat with 0%nat by lia. cbn [zeros repeat]. rewrite app_nil_r. reflexivity.
Qed.
(** reader at position |a| of a ++ c ++ b *)
Lemma read_bytes_at s a c b : srel s (File (a ++ c ++ b) (length a)) ->
  exists s', MemoryStream_Read s (zeros (length c)) 0 (Z.of_nat (length c)) = Ok (s', c, Z.of_nat (length c)) /\ srel s' (File (a ++ c ++ b) (length (a ++ c))).
Proof.
  intros H. assert (H' := H). destruct H' as (_ & _ & _ & L). cbn [f_bytes] in L. pose proof (read_rel s (File (a ++ c ++ b) (length a)) (zeros (length c)) 0 (length c) H) as R.
  cbn [f_pos f_bytes] in R. cbv zeta in R. replace (length (a ++ c ++ b) - length a)%nat with (length c + length b)%nat in R by (rewrite !app_length; lia). rewrite !app_length in L.
  rewrite (proj2 (Nat.ltb_ge (length c + length b) (0 + length c))) in R by lia.
  destruct R as (s' & W & R'). { rewrite !app_length. lia. } { lia. } { rewrite length_zeros. lia. }
  exists s'. rewrite app_length. split; [|exact R']. change 0 with (Z.of_nat 0). rewrite W. f_equal. f_equal. f_equal.
  destruct (Nat.eqb_spec (length c) 0) as [E|E]; [destruct c; [reflexivity|discriminate]|]. rewrite slice_mid by auto. apply splice_all. rewrite length_zeros. reflexivity.
Qed.
Lemma read_int_at s a n v b : 0 <= v < 256 ^ Z.of_nat n -> srel s (File (a ++ le_bytes n v ++ b) (length a)) ->
  exists s', StreamReader_ReadInt s n = Ok (s', v) /\ srel s' (File (a ++ le_bytes n v ++ b) (length (a ++ le_bytes n v))).
Proof.
  intros V (ED & EP & LP & LD). cbn [f_pos f_bytes] in *. unfold StreamReader_ReadInt. rewrite ED, EP. rewrite (proj2 (Z.ltb_lt _ _)) by auto. rewrite Nat2Z.id.
  unfold LeBytesTo. rewrite rd_ok by (rewrite !app_length, length_le_bytes; lia). cbn [bind]. rewrite (slice_mid a (le_bytes n v) b (length a) n eq_refl (eq_sym (length_le_bytes n v))). rewrite le_val_le_bytes, (Z.mod_small v) by auto.
  eexists. split; [reflexivity|]. rewrite !app_length, length_le_bytes in *. split; [exact ED|]. cbn [f_pos f_bytes MemoryStream_Seek ms_pos]. rewrite Z.mod_small by lia. rewrite !app_length, length_le_bytes. lia.
Qed.
Lemma read_item_at s a i b : item_ok i -> srel s (File (a ++ encode i ++ b) (length a)) ->
  exists s', read_item s (kind_of i) = Ok (s', i) /\ srel s' (File (a ++ encode i ++ b) (length (a ++ encode i))).
Proof.
  intros O R. destruct i as [v|v|v|v|l]; cbn [kind_of read_item item_ok encode] in *.
  - pose proof (read_bytes_at s a (le_bytes 1 v) b R) as (s' & W & R'). rewrite length_le_bytes in W. unfold StreamReader_ReadByte. change 1 with (Z.of_nat 1). rewrite W. cbn [bind].
    assert (G : get (le_bytes 1 v) 0 = Ok v) by (unfold get; cbn [le_bytes nth_error]; rewrite Z.mod_small by lia; reflexivity). rewrite G. cbn [bind]. eexists. split; [reflexivity|exact R'].
  - destruct (read_int_at s a 2 v b) as (s' & W & R'); [exact O|exact R|]. rewrite W. cbn [bind]. eauto.
  - destruct (read_int_at s a 4 v b) as (s' & W & R'); [exact O|exact R|]. rewrite W. cbn [bind]. eauto.
  - destruct (read_int_at s a 8 v b) as (s' & W & R'); [exact O|exact R|]. rewrite W. cbn [bind]. eauto.
  - destruct (read_bytes_at s a l b R) as (s' & W & R'). unfold StreamReader_ReadBytes. rewrite W. cbn [bind]. eauto.
Qed.
Lemma read_items_at l : forall s a, Forall item_ok l -> srel s (File (a ++ concat (map encode l)) (length a)) -> read_items s (map kind_of l) = Ok l.
Proof.
  induction l as [|i l IH]; intros s a F R; cbn [map read_items concat] in *; [reflexivity|]. inversion F as [|? ? F1 F2]; subst.
  destruct (read_item_at s a i _ F1 R) as (s' & W & R'). rewrite W. cbn [bind]. rewrite app_assoc in R'. rewrite (IH s' (a ++ encode i) F2 R'). reflexivity.
Qed.
Lemma items_round n l : Forall item_ok l -> Z.of_nat (items_size l) < 2 ^ 63 ->
  exists w, write_items (StreamWriter_new n) l = Ok w /\ read_items (StreamReader_new (StreamWriter_GetStream w)) (map kind_of l) = Ok l.
Proof.
  intros F L. destruct (write_items_ok l (StreamWriter_new n) [] n) as (w & E & H). { split; [cbn; rewrite Nat.sub_0_r; reflexivity|reflexivity]. }
  exists w. split; [exact E|]. rewrite (get_stream_ok _ _ _ H). apply (read_items_at l _ [] F). split; [reflexivity|]. split; [reflexivity|]. cbn [f_pos f_bytes length app]. rewrite concat_encode_len. lia.
Qed.
Lemma items_generate n l : Forall item_ok l ->
  exists w e, write_items (StreamWriter_new n) l = Ok w /\ StreamWriter_Generate w = e ++ zeros (n - items_size l) /\ ms_data (StreamWriter_GetStream w) = e /\ length e = items_size l.
Proof.
  intros F. destruct (write_items_ok l (StreamWriter_new n) [] n) as (w & E & H). { split; [cbn; rewrite Nat.sub_0_r; reflexivity|reflexivity]. }
  exists w, (concat (map encode l)). split; [exact E|]. assert (H' := H). destruct H' as (H' & _). cbn [app] in *. rewrite concat_encode_len in H'. split; [exact H'|]. rewrite (get_stream_ok _ _ _ H). split; [reflexivity|apply concat_encode_len].
Qed.
(** reading past the end: ReadBytes gives zeros for what is missing *)
Lemma setlength_nothing s n s' : MemoryStream_SetLength s n = Ok s' -> s' = s.
Proof. unfold MemoryStream_SetLength. destruct (_ <=? n); [discriminate|]. intros E; inversion E; auto. Qed.
Lemma past_end_ub d p v : Z.of_nat (length d) < p < 2 ^ 63 ->
  MemoryStream_ReadByte (MStream d p false) = UB /\ MemoryStream_WriteByte (MStream d p false) v = UB /\
  forall out n, 0 < n -> n + p < 2 ^ 63 -> MemoryStream_Read (MStream d p false) out 0 n = UB.
Proof.
  intros H. split; [|split].
  - unfold MemoryStream_ReadByte, copy_at. cbn [ms_data ms_pos]. rewrite (proj2 (Z.leb_gt _ _)) by lia. reflexivity.
  - unfold MemoryStream_WriteByte, msize. cbn [ms_data ms_pos]. rewrite (proj2 (Z.ltb_ge _ 1)). 2:{ replace (Z.of_nat (length d) - p) with (Z.of_nat (length d) - p + 2 ^ 64 + (-1) * 2 ^ 64) by lia. rewrite Z.mod_add by lia. rewrite Z.mod_small by lia. lia. }
    cbn [bind]. unfold copy_at. rewrite (proj2 (Z.leb_gt (p + 1) _)) by lia. rewrite Bool.andb_false_r. reflexivity.
  - intros out n N1 N2. unfold MemoryStream_Read, msize. cbv zeta. cbn [ms_data ms_pos]. replace (Z.of_nat (length d) - p) with (Z.of_nat (length d) - p + 2 ^ 64 + (-1) * 2 ^ 64) by lia. rewrite Z.mod_add by lia.
    rewrite (Z.mod_small (_ + 2 ^ 64)) by lia. rewrite (Z.mod_small (0 + n)) by lia. rewrite (proj2 (Z.ltb_ge _ (0 + n))) by lia. rewrite (proj2 (Z.ltb_lt _ _)) by lia. unfold copy_at. rewrite (proj2 (Z.leb_gt _ _)) by lia. reflexivity.
Qed.
Lemma read_more d out off len : Z.of_nat (length d) < 2 ^ 63 -> Z.of_nat (off + len) < 2 ^ 64 -> (length d < off + len)%nat -> (0 < length d)%nat ->
  ((off + length d <= length out)%nat -> exists s', MemoryStream_Read (MStream d 0 false) out (Z.of_nat off) (Z.of_nat len) = Ok (s', splice out off d, Z.of_nat (length d)))
  /\ ((length out < off + length d)%nat -> MemoryStream_Read (MStream d 0 false) out (Z.of_nat off) (Z.of_nat len) = UB).
Proof.
  intros L1 L2 L3 L4. split; intros L5.
  - destruct (read_rel (MStream d 0 false) (File d 0) out off len) as (s' & W & _). { split; [reflexivity|]. split; [reflexivity|]. cbn [f_pos f_bytes]. lia. } { cbn [f_pos f_bytes]. lia. } { auto. }
    { cbn [f_pos f_bytes]. rewrite Nat.sub_0_r. rewrite (proj2 (Nat.ltb_lt _ _)) by lia. lia. }
    cbn [f_pos f_bytes] in W. rewrite Nat.sub_0_r in W. rewrite (proj2 (Nat.ltb_lt _ _)) in W by lia. rewrite (proj2 (Nat.eqb_neq _ 0)) in W by lia. rewrite slice_all in W by auto. eauto.
  - unfold MemoryStream_Read, msize. cbv zeta. cbn [ms_data ms_pos]. rewrite Z.sub_0_r. rewrite (Z.mod_small (Z.of_nat (length d))) by lia. rewrite (Z.mod_small (Z.of_nat off + _)) by lia.
    rewrite (proj2 (Z.ltb_lt _ (Z.of_nat off + _))) by lia. rewrite (proj2 (Z.ltb_lt 0 _)) by lia. unfold copy_at. rewrite (proj2 (Z.leb_gt (Z.of_nat off + _) _)) by lia. rewrite Bool.andb_false_r. reflexivity.
Qed.
