From Verif Require Import Base BaseLemmas Spec_Common Proofs_Common Model_IntegerTools Model_Modes Proofs_IntegerTools Proofs_Windows Spec_Modes ProofsP_Modes2 Model_Stream Spec_File Session_Stream Proofs_Stream.
From Verif Require Import Model_SecureStream Spec_SecureStream Session_SecureStream Proofs_CSX3.
Open Scope Z_scope.

(** ** the pad *)
Lemma pad_len pad d : length (pad_with pad d) = length d.
Proof. unfold pad_with. rewrite map_length, seq_length. reflexivity. Qed.
Lemma pad_nth pad d i : (i < length d)%nat -> nth i (pad_with pad d) 0 = Z.lxor (nth i d 0) (pad i).
Proof.
  intros. unfold pad_with. set (g := fun i => Z.lxor (nth i d 0) (pad i)). rewrite (nth_indep _ 0 (g 0%nat)) by (rewrite map_length, seq_length; auto).
  rewrite map_nth, seq_nth by auto. reflexivity.
Qed.
Lemma pad_twice pad d : pad_with pad (pad_with pad d) = d.
Proof.
  apply nth_ext with 0 0; [rewrite !pad_len; reflexivity|]. intros i L. rewrite !pad_len in L. rewrite !pad_nth by (rewrite ?pad_len; auto).
  rewrite Z.lxor_assoc, Z.lxor_nilpotent, Z.lxor_0_r. reflexivity.
Qed.
Lemma pad_zeros pad d k : pad_with pad (d ++ zeros k) = pad_with pad d ++ map pad (seq (length d) k).
Proof.
  unfold pad_with. rewrite app_length, length_zeros, seq_app, map_app. f_equal.
  - apply map_ext_in. intros i I. apply in_seq in I. rewrite app_nth1 by lia. reflexivity.
  - apply map_ext_in. intros i I. apply in_seq in I. rewrite app_nth2 by lia. unfold zeros. rewrite nth_repeat. rewrite Z.lxor_0_l. reflexivity.
Qed.

Definition pad_of (Y : system) (salt : list Z) : nat -> Z := seed_pad (sy_aes Y) (sy_hash Y salt).
Lemma transform_ok Y salt d : sys_ok Y -> SecureStream_Transform Y salt d = Ok (pad_with (pad_of Y salt) d).
Proof.
  intros (HS & HE & HP). unfold SecureStream_Transform. destruct d as [|x d']; [reflexivity|]. set (d := x :: d'). clearbody d. cbv zeta.
  destruct (HS salt) as (L & B). rewrite !wcopy_ok by (rewrite ?length_zeros; lia). cbn [bind].
  rewrite !splice_all by (rewrite length_slice, length_zeros by lia; reflexivity). cbn [bind].
  set (iv := slice (sy_hash Y salt) 32 16). assert (LI : length iv = 16%nat) by (apply length_slice; lia). assert (BI : bytes iv) by (apply bytes_slice; auto).
  pose proof (as_be iv BI LI) as Q.
  destruct (g16_def _ _ (BaseLemmas.length_be_bytes 16) (ctr_counter_mode (sy_stale Y) (sy_prof Y) (sy_ord Y) HP) (sy_aes Y (slice (sy_hash Y salt) 0 32)) d 0 (zeros (length d)) 0 (length d) (value_be iv) (HE _)) as (o & EO & W); [rewrite length_zeros; lia|lia|].
  rewrite <- Q in EO. rewrite EO. cbn [bind fst]. f_equal. rewrite (slice_all d) in W by reflexivity.
  apply written_zeros in W; [|unfold ctr_crypt; rewrite map_length, seq_length; reflexivity]. exact W.
Qed.

(** ** the relation *)
Section Rel.
Variable Y : system.
Hypothesis HY : sys_ok Y.
Definition xrel (s : sstream) (f : file) : Prop :=
  ss_data s = pad_with (pad_of Y (ss_salt s)) (f_bytes f) /\ ss_pos s = Z.of_nat (f_pos f) /\ Z.of_nat (f_pos f) < 2 ^ 63 /\ Z.of_nat (length (f_bytes f)) < 2 ^ 63.
Lemma xrel_intro s d p : Z.of_nat p < 2 ^ 63 -> Z.of_nat (length d) < 2 ^ 63 -> xrel (with_data s (pad_with (pad_of Y (ss_salt s)) d) (Z.of_nat p)) (File d p).
Proof. intros. repeat split; auto. Qed.
Definition filled (gap : nat -> Z) (d : list Z) (p : nat) (w : list Z) : list Z :=
  if (p <=? length d)%nat then put_at d p w else d ++ map gap (seq (length d) (p - length d)) ++ w.
Lemma splice_filled gap d p w k : (length d <= p + length w)%nat -> k = (p + length w - length d)%nat ->
  splice (d ++ map gap (seq (length d) k)) p w = filled gap d p w.
Proof.
  intros L ->. unfold filled, put_at, splice. destruct (Nat.leb_spec p (length d)).
  - rewrite firstn_app. replace (p - length d)%nat with 0%nat by lia. cbn [firstn]. rewrite app_nil_r. f_equal. f_equal.
    rewrite skipn_all2 by (rewrite app_length, map_length, seq_length; lia). rewrite skipn_all2 by lia. reflexivity.
  - rewrite firstn_app, firstn_all2 by lia. rewrite <- app_assoc. f_equal. f_equal.
    + replace (p + length w - length d)%nat with ((p - length d) + length w)%nat by lia. rewrite seq_app, map_app, firstn_app, map_length, seq_length, Nat.sub_diag, firstn_all2 by (rewrite map_length, seq_length; lia). cbn [firstn]. apply app_nil_r.
    + rewrite skipn_all2 by (rewrite app_length, map_length, seq_length; lia). apply app_nil_r.
Qed.
Lemma filled_len gap d p w : length (filled gap d p w) = Nat.max (length d) (p + length w).
Proof. unfold filled. destruct (Nat.leb_spec p (length d)); [apply put_len|]. rewrite !app_length, map_length, seq_length. lia. Qed.

Lemma xwrite s f inp off len : xrel s f -> (off + len <= length inp)%nat -> Z.of_nat (f_pos f + len) < 2 ^ 63 ->
  exists s', SecureStream_Write Y s inp (Z.of_nat off) (Z.of_nat len) = Ok s' /\ ss_salt s' = ss_salt s /\
    xrel s' (File (filled (pad_of Y (ss_salt s)) (f_bytes f) (f_pos f) (slice inp off len)) (f_pos f + len)).
Proof.
  intros (ED & EP & LP & LD) L1 L2. unfold SecureStream_Write, ssize. cbv zeta. rewrite EP, ED, pad_len. rewrite Z.mod_small by lia.
  replace (Z.of_nat (f_pos f) + Z.of_nat len) with (Z.of_nat (f_pos f + len)) by lia.
  assert (LS : length (slice inp off len) = len) by (apply length_slice; lia). set (pad := pad_of Y (ss_salt s)) in *.
  assert (LF : length (filled pad (f_bytes f) (f_pos f) (slice inp off len)) = Nat.max (length (f_bytes f)) (f_pos f + len)) by (rewrite filled_len, LS; reflexivity).
  destruct (Z.ltb_spec (Z.of_nat (length (f_bytes f))) (Z.of_nat (f_pos f + len))).
  - rewrite grow_ok by auto. cbn [bind]. rewrite transform_ok by auto. cbn [bind]. rewrite pad_zeros, pad_twice, !pad_len.
    rewrite copy_at_ok by (rewrite ?app_length, ?map_length, ?seq_length; lia). cbn [bind].
    rewrite splice_filled by (rewrite LS; lia). rewrite transform_ok by auto. cbn [bind].
    eexists. split; [reflexivity|]. split; [reflexivity|]. apply xrel_intro; [auto|]. rewrite LF. lia.
  - cbn [bind]. rewrite transform_ok by auto. cbn [bind]. fold pad. rewrite pad_twice. rewrite copy_at_ok by lia. cbn [bind]. rewrite splice_put by lia. rewrite transform_ok by auto. cbn [bind].
    assert (E : filled pad (f_bytes f) (f_pos f) (slice inp off len) = put_at (f_bytes f) (f_pos f) (slice inp off len)).
    { unfold filled. destruct (Nat.leb_spec (f_pos f) (length (f_bytes f))); [reflexivity|lia]. }
    rewrite E in *. eexists. split; [reflexivity|]. split; [reflexivity|]. apply xrel_intro; [auto|]. rewrite LF. lia.
Qed.
Lemma xwritebyte s f v : xrel s f -> (f_pos f <= length (f_bytes f))%nat -> Z.of_nat (f_pos f + 1) < 2 ^ 63 ->
  exists s', SecureStream_WriteByte Y s v = Ok s' /\ ss_salt s' = ss_salt s /\ xrel s' (File (put_at (f_bytes f) (f_pos f) [v]) (f_pos f + 1)).
Proof.
  intros (ED & EP & LP & LD) L1 L2. unfold SecureStream_WriteByte, ssize. rewrite EP, ED, pad_len. rewrite (Z.mod_small (_ - _)) by lia.
  rewrite (Z.mod_small (_ + 1)) by lia. replace (Z.of_nat (f_pos f) + 1) with (Z.of_nat (f_pos f + 1)) by lia. set (pad := pad_of Y (ss_salt s)) in *.
  destruct (Z.ltb_spec (Z.of_nat (length (f_bytes f)) - Z.of_nat (f_pos f)) 1).
  - replace (Z.of_nat (length (f_bytes f)) + 1) with (Z.of_nat (length (f_bytes f) + 1)) by lia. rewrite grow_ok by lia. cbn [bind]. rewrite transform_ok by auto. cbn [bind]. fold pad. rewrite pad_zeros, pad_twice, !pad_len.
    rewrite (copy_at_ok [v] 0 _ _ 1) by (rewrite ?app_length, ?map_length, ?seq_length; cbn [length]; lia). cbn [bind].
    rewrite slice_all by reflexivity. rewrite splice_filled by (cbn [length]; lia). rewrite transform_ok by auto. cbn [bind].
    eexists. split; [reflexivity|]. split; [reflexivity|]. unfold filled. rewrite (proj2 (Nat.leb_le _ _)) by lia. apply xrel_intro; [auto|]. rewrite put_len. cbn [length]. lia.
  - cbn [bind]. rewrite transform_ok by auto. cbn [bind]. fold pad. rewrite pad_twice. rewrite (copy_at_ok [v] 0 _ _ 1) by (cbn [length]; lia). cbn [bind]. rewrite slice_all by reflexivity. rewrite splice_put by (cbn [length]; lia). rewrite transform_ok by auto. cbn [bind].
    eexists. split; [reflexivity|]. split; [reflexivity|]. apply xrel_intro; [auto|]. rewrite put_len. cbn [length]. lia.
Qed.
Lemma xread s f out off len : xrel s f -> (f_pos f <= length (f_bytes f))%nat -> Z.of_nat (off + len) < 2 ^ 64 ->
  let avail := (length (f_bytes f) - f_pos f)%nat in
  let k := if (avail <? off + len)%nat then avail else len in
  (off + k <= length out)%nat \/ k = 0%nat ->
  exists s', SecureStream_Read Y s out (Z.of_nat off) (Z.of_nat len) = Ok (s', if (k =? 0)%nat then out else splice out off (slice (f_bytes f) (f_pos f) k), Z.of_nat k) /\
    ss_salt s' = ss_salt s /\ xrel s' (File (f_bytes f) (f_pos f + k)).
Proof.
  intros R L1 L2. pose proof R as (ED & EP & LP & LD). cbv zeta. intros L3. unfold SecureStream_Read, ssize. cbv zeta. rewrite EP, ED, pad_len.
  rewrite (Z.mod_small (_ - _)) by lia. rewrite (Z.mod_small (Z.of_nat off + _)) by lia.
  replace (Z.of_nat (length (f_bytes f)) - Z.of_nat (f_pos f)) with (Z.of_nat (length (f_bytes f) - f_pos f)) by lia.
  set (avail := (length (f_bytes f) - f_pos f)%nat) in *. set (k := if (avail <? off + len)%nat then avail else len) in *.
  replace (if Z.of_nat avail <? Z.of_nat off + Z.of_nat len then Z.of_nat avail else Z.of_nat len) with (Z.of_nat k).
  2:{ unfold k. destruct (Nat.ltb_spec avail (off + len)), (Z.ltb_spec (Z.of_nat avail) (Z.of_nat off + Z.of_nat len)); auto; lia. }
  assert (K : (k <= avail)%nat). { unfold k. destruct (Nat.ltb_spec avail (off + len)); lia. }
  clearbody k. destruct (Nat.eqb_spec k 0) as [->|N].
  - cbn [Z.of_nat Z.ltb Z.compare]. eexists. split; [reflexivity|]. split; [reflexivity|]. rewrite Nat.add_0_r. destruct f; exact R.
  - rewrite (proj2 (Z.ltb_lt 0 (Z.of_nat k))) by lia. rewrite transform_ok by auto. cbn [bind]. rewrite pad_twice. rewrite copy_at_ok by (unfold avail in *; lia). cbn [bind]. rewrite transform_ok by auto. cbn [bind].
    eexists. split; [reflexivity|]. split; [reflexivity|]. rewrite Z.mod_small by (unfold avail in *; lia). rewrite <- Nat2Z.inj_add. apply xrel_intro; [unfold avail in *; lia|auto].
Qed.
Lemma xreadbyte s f : xrel s f -> (f_pos f < length (f_bytes f))%nat ->
  exists s', SecureStream_ReadByte Y s = Ok (s', nth (f_pos f) (f_bytes f) 0) /\ ss_salt s' = ss_salt s /\ xrel s' (File (f_bytes f) (f_pos f + 1)).
Proof.
  intros (ED & EP & LP & LD) L. unfold SecureStream_ReadByte. rewrite ED, EP. rewrite transform_ok by auto. cbn [bind]. rewrite pad_twice. rewrite (copy_at_ok _ _ (zeros 1) 0 1) by (rewrite ?length_zeros; lia). cbn [bind].
  rewrite splice_all by (rewrite length_slice, length_zeros by lia; reflexivity). rewrite (get_ok _ 0%nat 0) by (rewrite length_slice by lia; lia). cbn [bind]. rewrite nth_slice by lia. rewrite Nat.add_0_r. rewrite transform_ok by auto. cbn [bind].
  eexists. split; [reflexivity|]. split; [reflexivity|]. rewrite Z.mod_small by lia. replace (Z.of_nat (f_pos f) + 1) with (Z.of_nat (f_pos f + 1)) by lia. apply xrel_intro; lia.
Qed.
Lemma xarray s f : xrel s f -> SecureStream_ToArray Y s = Ok (s, f_bytes f).
Proof.
  intros (ED & EP & LP & LD). unfold SecureStream_ToArray. destruct (ss_data s) eqn:E.
  - f_equal. f_equal. symmetry. apply length_zero_iff_nil. rewrite <- (pad_len (pad_of Y (ss_salt s))), <- ED. reflexivity.
  - rewrite <- E, (transform_ok Y) by auto. cbn [bind]. rewrite transform_ok by auto. cbn [bind]. rewrite pad_twice. rewrite E, ED, pad_twice. rewrite <- ED, <- E. destruct s; reflexivity.
Qed.
Lemma xstep s f c f' a : xrel s f -> fill_step (pad_of Y (ss_salt s)) f c = Some (f', a) -> exists s', secure_step Y s c = Ok (s', a) /\ ss_salt s' = ss_salt s /\ xrel s' f'.
Proof.
  intros R E. destruct c as [inp off len|v|out off len| |off o| |]; cbn [fill_step fcall_step secure_step] in *.
  - destruct (Nat.leb_spec (off + len) (length inp)); [|discriminate]. destruct (negb (too_big _)) eqn:T; [|discriminate]. cbn [andb] in E. apply too_big_false in T.
    destruct (xwrite s f inp off len R) as (s' & W & S' & R'); [auto|auto|]. rewrite W. cbn [bind].
    exists s'. unfold filled, slice in R'. destruct (f_pos f <=? length (f_bytes f))%nat; inversion E; subst; auto.
  - destruct (Nat.leb_spec (f_pos f) (length (f_bytes f))); [|discriminate]. destruct (negb (too_big _)) eqn:T; [|discriminate]. cbn [andb] in E. inversion E; subst.
    destruct (xwritebyte s f v R) as (s' & W & R'); [auto|apply too_big_false; auto|]. rewrite W. cbn [bind]. eauto.
  - destruct (Nat.leb_spec (f_pos f) (length (f_bytes f))) as [L1|]; [|discriminate]. destruct (Nat.leb_spec (off + len) (length out)) as [L2|]; [|discriminate]. cbn [andb] in E.
    destruct (_ || _) eqn:EO in E; [|discriminate]. destruct (negb (too_big _)) eqn:T in E; [|discriminate]. cbn [andb] in E. inversion E; subst. clear E. apply too_big_false in T.
    assert (K : (if (length (f_bytes f) - f_pos f <? off + len)%nat then (length (f_bytes f) - f_pos f)%nat else len) = Nat.min len (length (f_bytes f) - f_pos f)).
    { destruct (Nat.ltb_spec (length (f_bytes f) - f_pos f) (off + len)) as [C|C]; [|lia]. apply Bool.orb_true_iff in EO. destruct EO as [EO|EO]; [apply Nat.eqb_eq in EO|apply Nat.leb_le in EO]; lia. }
    pose proof (xread s f out off len R L1 ltac:(lia)) as W. cbv zeta in W. rewrite K in W. destruct W as (s' & W & S' & R'); [lia|]. rewrite W. cbn [bind]. rewrite Nat2Z.id. eexists. split; [|split; [exact S'|exact R']]. f_equal. f_equal. f_equal.
    set (k := Nat.min len (length (f_bytes f) - f_pos f)). assert (LS : length (slice (f_bytes f) (f_pos f) k) = k) by (apply length_slice; unfold k; lia).
    destruct (Nat.eqb_spec k 0) as [->|N]; [cbn [firstn app]; rewrite Nat.add_0_r, firstn_skipn; reflexivity|]. unfold splice. rewrite LS. reflexivity.
  - destruct (Nat.ltb_spec (f_pos f) (length (f_bytes f))); [|discriminate]. inversion E; subst. destruct (xreadbyte s f R) as (s' & W & R'); [auto|]. rewrite W. cbn [bind]. eauto.
  - assert (A : a = FDone). { destruct o; [destruct (too_big off)|destruct (off <=? length (f_bytes f))%nat|destruct (too_big (f_pos f + off))]; inversion E; reflexivity. } subst a.
    eexists. split; [reflexivity|]. split; [reflexivity|]. destruct R as (ED & EP & LP & LD). unfold SecureStream_Seek, ssize. rewrite ED, EP, pad_len. destruct o; cbn [from_of] in *.
    + destruct (negb (too_big off)) eqn:T; [apply too_big_false in T|]. 2:{ destruct (too_big off); discriminate. }
      destruct (too_big off); [discriminate|]. inversion E; subst. apply xrel_intro; lia.
    + destruct (Nat.leb_spec off (length (f_bytes f))); [|discriminate]. inversion E; subst. rewrite Z.mod_small by lia. rewrite <- Nat2Z.inj_sub by lia. apply xrel_intro; lia.
    + destruct (negb (too_big (f_pos f + off))) eqn:T; [apply too_big_false in T|]. 2:{ destruct (too_big (f_pos f + off)); discriminate. }
      destruct (too_big (f_pos f + off)); [discriminate|]. inversion E; subst. rewrite Z.mod_small by lia. rewrite <- Nat2Z.inj_add. apply xrel_intro; lia.
  - inversion E; subst. eexists. split; [reflexivity|]. split; [reflexivity|]. apply (xrel_intro s [] 0); cbn [length]; lia.
  - inversion E; subst. eexists. split; [reflexivity|]. split; [reflexivity|]. apply (xrel_intro s [] 0); cbn [length]; lia.
Qed.
(** the file left by a sequence of calls *)
Fixpoint fill_end (gap : nat -> Z) (f : file) (cs : list fcall) : file :=
  match cs with [] => f | c :: r => match fill_step gap f c with Some (f', _) => fill_end gap f' r | None => f end end.
Lemma xhistory cs : forall s f t, xrel s f -> fill_history (pad_of Y (ss_salt s)) f cs = Some t ->
  exists s', secure_history Y s cs = Ok (s', t) /\ ss_salt s' = ss_salt s /\ xrel s' (fill_end (pad_of Y (ss_salt s)) f cs).
Proof.
  induction cs as [|c cs IH]; intros s f t R E; cbn [fill_history secure_history fill_end] in *; [inversion E; eauto|].
  destruct (fill_step _ f c) as [[f' a]|] eqn:ES; [|discriminate]. destruct (xstep _ _ _ _ _ R ES) as (s' & W & S' & R'). rewrite W. cbn [bind].
  destruct (fill_history _ f' cs) as [t'|] eqn:EH; [|discriminate]. rewrite (xarray _ _ R'). cbn [bind]. rewrite <- S' in EH. destruct (IH _ _ _ R' EH) as (s2 & W2 & S2 & R2). rewrite W2. cbn [bind]. inversion E; subst.
  exists s2. split; [|rewrite <- S'; auto]. destruct R' as (ED & -> & _). rewrite ED, pad_len, Nat2Z.id. reflexivity.
Qed.
End Rel.
