From Verif Require Import Base BaseLemmas Spec_Common Proofs_Common Spec_Feed Spec_File Model_Stream Proofs_Stream Model_HashStream.
From Verif Require Import Proofs_Keys.
Open Scope Z_scope.

Lemma feed_app {S} (upd : S -> list Z -> nat -> nat -> res S) ps qs : forall o, feed upd (ps ++ qs) o = (o' <- feed upd ps o ;; feed upd qs o').
Proof. induction ps as [|p ps IH]; intro o; [reflexivity|]. cbn [feed app]. destruct (upd o _ _ _); cbn [bind]; auto. Qed.
Lemma joined_app ps qs : joined (ps ++ qs) = joined ps ++ joined qs.
Proof. unfold joined. now rewrite map_app, concat_app. Qed.
Lemma slice_join {A} (d : list A) p a b : slice d p (a + b) = slice d p a ++ slice d (p + a) b.
Proof. unfold slice. rewrite <- (skipn_skipn a p d) || rewrite (Nat.add_comm p a), <- skipn_skipn. generalize (skipn p d). intro l. revert l. induction a as [|a IH]; intro l; [reflexivity|]. destruct l; cbn [firstn skipn Nat.add app]; [now rewrite !firstn_nil|]. now rewrite IH. Qed.
Lemma vresize_len l n : length (vresize l n) = n.
Proof. unfold vresize. rewrite app_length, firstn_length, length_zeros. lia. Qed.
Lemma progress_ok len k : 0 < len -> CalculateProgress len k = Ok tt.
Proof. intro H. unfold CalculateProgress. replace (len =? 0) with false by (symmetry; apply Z.eqb_neq; lia). now rewrite Bool.andb_false_r. Qed.
Lemma bind_assoc {A B C} (x : res A) (f : A -> res B) (g : B -> res C) : bind (bind x f) g = bind x (fun a => bind (f a) g).
Proof. destruct x; reflexivity. Qed.
Lemma bind_ext {A B} (x : res A) (f g : A -> res B) : (forall a, f a = g a) -> bind x f = bind x g.
Proof. intro H. destruct x; cbn [bind]; auto. Qed.

(** one full read *)
Lemma read_full s d pos buf k : srel s (File d pos) -> (pos + k <= length d)%nat -> length buf = k -> (0 < k)%nat -> Z.of_nat k < 2 ^ 63 ->
  exists s', MemoryStream_Read s buf 0 (Z.of_nat k) = Ok (s', slice d pos k, Z.of_nat k) /\ srel s' (File d (pos + k)).
Proof.
  intros R L Lb K K'. destruct (read_rel s (File d pos) buf 0 k R) as (s' & E & R'); cbn [f_bytes f_pos] in *; [lia | lia | |].
  - cbv zeta. destruct (Nat.ltb_spec (length d - pos) (0 + k)); lia.
  - cbv zeta in *. replace (length d - pos <? 0 + k)%nat with false in * by (symmetry; apply Nat.ltb_ge; lia).
    replace (k =? 0)%nat with false in E by (symmetry; apply Nat.eqb_neq; lia).
    exists s'. split; [|exact R']. change (Z.of_nat 0) with 0 in E. rewrite E. rewrite splice_all; [reflexivity|]. rewrite length_slice by lia. lia.
Qed.

Section loops.
Context {T : Type} (upd : T -> list Z -> nat -> nat -> res T).
Lemma read_loop_ok chunk len : (0 < chunk)%nat -> Z.of_nat chunk < 2 ^ 63 -> (0 < len)%nat -> forall d, bytes d -> forall q fuel s pos buf plen target,
  srel s (File d pos) -> (pos + q * chunk <= length d)%nat -> target = (plen + q * chunk)%nat -> (q <= fuel)%nat -> length buf = chunk ->
  exists ps s' buf', Forall p_ok ps /\ joined ps = slice d pos (q * chunk) /\ srel s' (File d (pos + q * chunk)) /\ length buf' = chunk /\
    forall o, read_loop upd fuel chunk len target s buf o plen = (o' <- feed upd ps o ;; Ok (s', buf', o', target)).
Proof.
  intros Hc Hc' Hl d Bd. induction q as [|q IH]; intros fuel s pos buf plen target R L Ht Hf Lb.
  - exists [], s, buf. cbn [Nat.mul] in *. rewrite Nat.add_0_r in *. split; [constructor|]. split; [reflexivity|]. split; [exact R|]. split; [exact Lb|].
    intro o. cbn [feed bind]. destruct fuel; cbn [read_loop]; rewrite Ht, Nat.eqb_refl; reflexivity.
  - destruct fuel as [|fuel]; [lia|]. destruct (read_full s d pos buf chunk R) as (s1 & E1 & R1); auto; [lia|].
    destruct (IH fuel s1 (pos + chunk)%nat (slice d pos chunk) (plen + chunk)%nat target R1) as (ps & s' & buf' & Hp & Hj & R' & Lb' & E'); [lia | lia | lia | apply length_slice; lia |].
    exists (Piece (slice d pos chunk) 0 chunk :: ps), s', buf'.
    split; [constructor; [|exact Hp]|]. { split; cbn [p_off p_len p_in]; [rewrite length_slice by lia; lia | apply bytes_slice, Bd]. }
    split. { unfold joined in *. cbn [map concat]. rewrite Hj. change (S q * chunk)%nat with (chunk + q * chunk)%nat. rewrite slice_join. f_equal. unfold p_data. cbn [p_in p_off p_len]. apply slice_all. rewrite length_slice by lia. reflexivity. }
    split. { replace (pos + S q * chunk)%nat with (pos + chunk + q * chunk)%nat by lia. exact R'. }
    split; [exact Lb'|]. intro o. cbn [read_loop]. replace (plen =? target)%nat with false by (symmetry; apply Nat.eqb_neq; lia).
    rewrite E1. cbn [bind]. rewrite Nat2Z.id. cbn [feed p_in p_off p_len]. destruct (upd o _ _ _); cbn [bind]; auto. rewrite progress_ok by lia. cbn [bind]. apply E'.
Qed.
Lemma array_loop_ok seen chunk len inp : (0 < chunk)%nat -> (0 < len)%nat -> bytes inp -> forall q fuel io plen target,
  (io + q * chunk <= length inp)%nat -> target = (plen + q * chunk)%nat -> (q <= fuel)%nat ->
  exists ps, Forall p_ok ps /\ joined ps = slice inp io (q * chunk) /\
    forall o, array_loop upd seen fuel chunk len target inp io o plen = (o' <- feed upd ps o ;; Ok ((io + q * chunk)%nat, o', target)).
Proof.
  intros Hc Hl Bd. induction q as [|q IH]; intros fuel io plen target L Ht Hf.
  - exists []. split; [constructor|]. split; [reflexivity|]. cbn [Nat.mul] in *. rewrite Nat.add_0_r in *.
    intro o. cbn [feed bind]. destruct fuel; cbn [array_loop]; rewrite Ht, Nat.eqb_refl; reflexivity.
  - destruct fuel as [|fuel]; [lia|].
    destruct (IH fuel (io + chunk)%nat (plen + chunk)%nat target) as (ps & Hp & Hj & E'); [lia | lia | lia |].
    exists (Piece inp io chunk :: ps).
    split; [constructor; [|exact Hp]|]. { split; cbn [p_off p_len p_in]; [lia | exact Bd]. }
    split. { unfold joined in *. cbn [map concat]. rewrite Hj. change (S q * chunk)%nat with (chunk + q * chunk)%nat. rewrite slice_join. reflexivity. }
    intro o. cbn [array_loop]. replace (plen =? target)%nat with false by (symmetry; apply Nat.eqb_neq; lia).
    cbn [feed p_in p_off p_len]. destruct (upd o _ _ _); cbn [bind]; auto. rewrite progress_ok by lia. cbn [bind]. rewrite E'.
    replace (io + chunk + q * chunk)%nat with (io + S q * chunk)%nat by lia. reflexivity.
Qed.
End loops.

Definition shape (par : bool) (pblk blk : nat) : Prop := (0 < blk)%nat /\ (par = true -> exists q, (0 < q)%nat /\ pblk = (q * blk)%nat).
(** block counts of the two loops *)
Lemma counts par pblk blk len : shape par pblk blk -> exists a b r, len = (a * pblk + b * blk + r)%nat /\ (r < blk)%nat /\
  (if par && (pblk <? len)%nat then len / pblk else 0)%nat = a /\ (len / blk * blk = a * pblk + b * blk)%nat /\ (a <= len)%nat /\ (b <= len)%nat.
Proof.
  intros (Hb & Hp). assert (Seq : (len = 0 * pblk + len / blk * blk + len mod blk)%nat /\ (len mod blk < blk)%nat /\ (len / blk <= len)%nat).
  { pose proof (Nat.div_mod len blk ltac:(lia)). pose proof (Nat.mod_upper_bound len blk ltac:(lia)). repeat split; try lia. apply Nat.div_le_upper_bound; nia. }
  destruct (par && (pblk <? len)%nat) eqn:E.
  - apply andb_prop in E. destruct E as [E _]. destruct (Hp E) as (q & Hq & ->).
    assert (P : (0 < q * blk)%nat) by nia.
    exists (len / (q * blk))%nat, (len mod (q * blk) / blk)%nat, (len mod blk)%nat.
    pose proof (Nat.div_mod len (q * blk) ltac:(lia)) as D1. set (a := (len / (q * blk))%nat) in *. set (m := (len mod (q * blk))%nat) in *.
    pose proof (Nat.div_mod m blk ltac:(lia)) as D2. pose proof (Nat.mod_upper_bound m blk ltac:(lia)) as D3.
    assert (M : (len mod blk = m mod blk)%nat). { rewrite D1. replace (q * blk * a + m)%nat with (m + (q * a) * blk)%nat by ring. apply Nat.mod_add. lia. }
    rewrite M. set (b := (m / blk)%nat) in *. set (r := (m mod blk)%nat) in *. clearbody a m b r.
    assert (Q : (len / blk = a * q + b)%nat). { rewrite D1. replace (q * blk * a + m)%nat with ((a * q + b) * blk + r)%nat by (rewrite D2; ring). rewrite Nat.add_comm, Nat.div_add by lia. rewrite Nat.div_small by lia. lia. }
    split; [lia|]. split; [lia|]. split; [reflexivity|]. split; [rewrite Q; ring|]. split; nia.
  - exists 0%nat, (len / blk)%nat, (len mod blk)%nat. destruct Seq as (S1 & S2 & S3). repeat split; lia.
Qed.

Section all.
Context {T : Type} (upd : T -> list Z -> nat -> nat -> res T) (fin : T -> list Z -> nat -> res (T * list Z)).

Lemma stream_pieces par pblk blk n s d pos : shape par pblk blk -> Z.of_nat pblk < 2 ^ 63 -> Z.of_nat blk < 2 ^ 63 -> srel s (File d pos) -> (pos < length d)%nat -> bytes d ->
  exists ps s', Forall p_ok ps /\ joined ps = skipn pos d /\ srel s' (File d (length d)) /\
    forall o, DigestStream_ProcessStream upd fin par pblk blk n s (length d - pos) o = (o' <- feed upd ps o ;; q <- fin o' (zeros n) 0 ;; Ok (s', fst q, snd q)).
Proof.
  intros Sh Kp Kb R L Bd. set (len := (length d - pos)%nat). assert (Hlen : (0 < len)%nat) by (unfold len; lia).
  destruct (counts par pblk blk len Sh) as (a & b & r & El & Er & Ea & Eb & La & Lb).
  destruct Sh as (Hb & Hp).
  assert (S1 : exists ps s' buf', Forall p_ok ps /\ joined ps = slice d pos (a * pblk) /\ srel s' (File d (pos + a * pblk)) /\ 
    forall o, (if par && (pblk <? len)%nat then
          _ <- safe (negb (pblk =? 0)%nat) ;;
          read_loop upd (S len) pblk len (len / pblk * pblk) s (vresize [] pblk) o 0
        else Ok (s, [], o, 0%nat)) = (o' <- feed upd ps o ;; Ok (s', buf', o', (a * pblk)%nat))).
  { destruct (par && (pblk <? len)%nat) eqn:E.
    - apply andb_prop in E. destruct E as [E E']. apply Nat.ltb_lt in E'. destruct (Hp E) as (q & Hq & Eq). assert (P : (0 < pblk)%nat) by nia.
      destruct (read_loop_ok upd pblk len P Kp Hlen d Bd a (S len) s pos (vresize [] pblk) 0%nat (len / pblk * pblk)%nat R) as (ps & s' & buf' & H1 & H2 & H3 & H4 & H5);
        [unfold len in *; lia | rewrite Ea; lia | lia | apply vresize_len |].
      exists ps, s', buf'. repeat split; auto; try apply H3. intro o. replace (pblk =? 0)%nat with false by (symmetry; apply Nat.eqb_neq; lia). cbn [negb safe bind]. rewrite H5, Ea. reflexivity.
    - exists [], s, []. subst a. cbn [Nat.mul]. rewrite Nat.add_0_r. repeat split; auto; try apply R. }
  destruct S1 as (ps1 & s1 & buf1 & P1 & J1 & R1 & E1).
  destruct (read_loop_ok upd blk len Hb Kb Hlen d Bd b (S len) s1 (pos + a * pblk)%nat (vresize buf1 blk) (a * pblk)%nat (len / blk * blk)%nat R1) as (ps2 & s2 & buf2 & P2 & J2 & R2 & _ & E2);
    [unfold len in *; lia | rewrite Eb; lia | lia | apply vresize_len |].
  assert (S3 : exists ps s', Forall p_ok ps /\ joined ps = slice d (pos + a * pblk + b * blk) r /\ srel s' (File d (length d)) /\ 
    forall o, (if (len / blk * blk <? len)%nat then
          r <- MemoryStream_Read s2 (vresize buf2 (len - len / blk * blk)) 0 (Z.of_nat (len - len / blk * blk)) ;;
          let '(s, buf, k) := r in
          o <- upd o buf 0 (Z.to_nat k) ;;
          Ok (s, o, (len / blk * blk + Z.to_nat k)%nat)
        else Ok (s2, o, (len / blk * blk)%nat)) = (o' <- feed upd ps o ;; Ok (s', o', len))).
  { rewrite Eb. destruct (Nat.ltb_spec (a * pblk + b * blk) len) as [G|G].
    - replace (len - (a * pblk + b * blk))%nat with r by lia. assert (0 < r)%nat by lia.
      destruct (read_full s2 d (pos + a * pblk + b * blk) (vresize buf2 r) r R2) as (s3 & E3 & R3); [unfold len in *; lia | apply vresize_len | lia | lia |].
      exists [Piece (slice d (pos + a * pblk + b * blk) r) 0 r], s3.
      assert (Lr : length (slice d (pos + a * pblk + b * blk) r) = r) by (apply length_slice; unfold len in *; lia).
      split; [repeat constructor; cbn [p_in p_off p_len]; [rewrite Lr; lia | apply bytes_slice, Bd]|].
      split; [unfold joined, p_data; cbn [map concat p_in p_off p_len]; rewrite app_nil_r; apply slice_all; auto|].
      split; [replace (length d) with (pos + a * pblk + b * blk + r)%nat by (unfold len in *; lia); exact R3|].
      intro o. rewrite E3. cbn [bind feed p_in p_off p_len]. rewrite Nat2Z.id. destruct (upd o _ _ _); cbn [bind]; auto. do 2 f_equal. lia.
    - assert (r = 0)%nat by lia. subst r. exists [], s2. split; [constructor|]. split; [reflexivity|]. split; [replace (length d) with (pos + a * pblk + b * blk)%nat by (unfold len in *; lia); exact R2|].
      intro o. cbn [feed bind]. do 2 f_equal. lia. }
  destruct S3 as (ps3 & s3 & P3 & J3 & R3 & E3).
  exists (ps1 ++ ps2 ++ ps3), s3.
  split; [apply Forall_app; split; [exact P1|]; apply Forall_app; split; assumption|].
  split. { rewrite !joined_app, J1, J2, J3, <- slice_join. rewrite <- slice_join.
    replace (a * pblk + (b * blk + r))%nat with len by lia. unfold slice, len. apply firstn_all2. rewrite skipn_length. lia. }
  split; [exact R3|].
  intro o. unfold DigestStream_ProcessStream. replace (blk =? 0)%nat with false by (symmetry; apply Nat.eqb_neq; lia). cbn [negb safe bind]. cbv zeta.
  rewrite E1, bind_assoc. rewrite !feed_app, !bind_assoc. apply bind_ext. intro o1. cbn [bind].
  rewrite E2, bind_assoc. rewrite feed_app, !bind_assoc. apply bind_ext. intro o2. cbn [bind].
  rewrite E3, bind_assoc. apply bind_ext. intro o3. cbn [bind]. apply bind_ext. intro q. rewrite progress_ok by lia. reflexivity.
Qed.

Lemma array_pieces new par pblk blk n inp io len : shape par pblk blk -> (io + len <= length inp)%nat -> (0 < len)%nat -> bytes inp ->
  exists ps, Forall p_ok ps /\ joined ps = slice inp io len /\
    forall o, DigestStream_ComputeArray upd fin new par pblk blk n inp io len o = (o' <- feed upd ps new ;; fin o' (zeros n) 0).
Proof.
  intros Sh L Hlen Bd. destruct (counts par pblk blk len Sh) as (a & b & r & El & Er & Ea & Eb & La & Lb). destruct Sh as (Hb & Hp).
  set (seen := fun (i _ : nat) => i).
  assert (S1 : exists ps, Forall p_ok ps /\ joined ps = slice inp io (a * pblk) /\
    forall o, (if par && (pblk <? len)%nat then
          _ <- safe (negb (pblk =? 0)%nat) ;;
          array_loop upd seen (S len) pblk len (len / pblk * pblk) inp io o 0
        else Ok (io, o, 0%nat)) = (o' <- feed upd ps o ;; Ok ((io + a * pblk)%nat, o', (a * pblk)%nat))).
  { destruct (par && (pblk <? len)%nat) eqn:E.
    - apply andb_prop in E. destruct E as [E E']. apply Nat.ltb_lt in E'. destruct (Hp E) as (q & Hq & Eq). assert (P : (0 < pblk)%nat) by nia.
      destruct (array_loop_ok upd seen pblk len inp P Hlen Bd a (S len) io 0%nat (len / pblk * pblk)%nat) as (ps & H1 & H2 & H5); [lia | rewrite Ea; lia | lia |].
      exists ps. repeat split; auto. intro o. replace (pblk =? 0)%nat with false by (symmetry; apply Nat.eqb_neq; lia). cbn [negb safe bind]. rewrite H5, Ea. reflexivity.
    - exists []. subst a. cbn [Nat.mul]. rewrite Nat.add_0_r. repeat split; auto. }
  destruct S1 as (ps1 & P1 & J1 & E1).
  destruct (array_loop_ok upd seen blk len inp Hb Hlen Bd b (S len) (io + a * pblk)%nat (a * pblk)%nat (len / blk * blk)%nat) as (ps2 & P2 & J2 & E2); [lia | rewrite Eb; lia | lia |].
  set (i3 := (io + a * pblk + b * blk)%nat) in *.
  assert (S3 : exists ps, Forall p_ok ps /\ joined ps = slice inp i3 r /\
    forall o, (if negb (len / blk * blk =? len)%nat then o <- upd o inp i3 (len - len / blk * blk) ;; Ok (o, len) else Ok (o, (len / blk * blk)%nat)) = (o' <- feed upd ps o ;; Ok (o', len))).
  { rewrite Eb. destruct (Nat.eqb_spec (a * pblk + b * blk) len) as [G|G]; cbn [negb].
    - assert (r = 0)%nat by lia. subst r. exists []. split; [constructor|]. split; [reflexivity|]. intro o. cbn [feed bind]. now rewrite G.
    - exists [Piece inp i3 r]. split; [repeat constructor; cbn [p_in p_off p_len]; [unfold i3; lia | exact Bd]|].
      split; [unfold joined, p_data; cbn [map concat p_in p_off p_len]; apply app_nil_r|].
      intro o. replace (len - (a * pblk + b * blk))%nat with r by lia. cbn [feed p_in p_off p_len]. destruct (upd o _ _ _); reflexivity. }
  destruct S3 as (ps3 & P3 & J3 & E3).
  exists (ps1 ++ ps2 ++ ps3).
  split; [apply Forall_app; split; [exact P1|]; apply Forall_app; split; assumption|].
  split. { rewrite !joined_app, J1, J2, J3. unfold i3. rewrite <- slice_join. rewrite <- slice_join. f_equal. lia. }
  intro o. unfold DigestStream_ComputeArray. replace (blk =? 0)%nat with false by (symmetry; apply Nat.eqb_neq; lia). cbn [negb safe bind]. cbv zeta. fold seen.
  rewrite E1, bind_assoc. rewrite !feed_app, !bind_assoc. apply bind_ext. intro o1. cbn [bind].
  rewrite E2, bind_assoc. rewrite feed_app, !bind_assoc. apply bind_ext. intro o2. cbn [bind].
  rewrite E3, bind_assoc. apply bind_ext. intro o3. cbn [bind]. destruct (fin o3 (zeros n) 0); cbn [bind]; auto. now rewrite progress_ok by lia.
Qed.

Lemma mac_array_pieces blk n inp io len : (0 < blk)%nat -> (io + len <= length inp)%nat -> (0 < len)%nat -> bytes inp ->
  exists ps, Forall p_ok ps /\ joined ps = slice inp io len /\
    forall o, MacStream_ComputeArray upd fin blk n inp io len o = (o' <- feed upd ps o ;; fin o' (zeros n) 0).
Proof.
  intros Hb L Hlen Bd. set (seen := fun (_ p : nat) => p).
  pose proof (Nat.div_mod len blk ltac:(lia)) as D. pose proof (Nat.mod_upper_bound len blk ltac:(lia)) as D'.
  set (b := (len / blk)%nat) in *. set (r := (len mod blk)%nat) in *. assert (Lb : (b <= len)%nat) by (clearbody b; nia).
  destruct (array_loop_ok upd seen blk len inp Hb Hlen Bd b (S len) io 0%nat (b * blk)%nat) as (ps2 & P2 & J2 & E2); [lia | lia | lia |].
  assert (S3 : exists ps, Forall p_ok ps /\ joined ps = slice inp (io + b * blk) r /\
    forall o, (if (b * blk <? len)%nat then o <- upd o inp (io + b * blk)%nat (len - b * blk) ;; Ok (o, len) else Ok (o, (b * blk)%nat)) = (o' <- feed upd ps o ;; Ok (o', len))).
  { destruct (Nat.ltb_spec (b * blk) len) as [G|G].
    - exists [Piece inp (io + b * blk) r]. split; [repeat constructor; cbn [p_in p_off p_len]; [lia | exact Bd]|].
      split; [unfold joined, p_data; cbn [map concat p_in p_off p_len]; apply app_nil_r|].
      intro o. replace (len - b * blk)%nat with r by lia. cbn [feed p_in p_off p_len]. destruct (upd o _ _ _); reflexivity.
    - assert (r = 0)%nat by lia. exists []. split; [constructor|]. split; [rewrite H; reflexivity|]. intro o. cbn [feed bind]. do 2 f_equal. lia. }
  destruct S3 as (ps3 & P3 & J3 & E3).
  exists (ps2 ++ ps3). split; [apply Forall_app; split; assumption|].
  split. { rewrite joined_app, J2, J3, <- slice_join. f_equal. lia. }
  intro o. unfold MacStream_ComputeArray. replace (blk =? 0)%nat with false by (symmetry; apply Nat.eqb_neq; lia). cbn [negb safe bind]. cbv zeta. fold seen. fold b.
  rewrite E2, bind_assoc. rewrite feed_app, !bind_assoc. apply bind_ext. intro o2. cbn [bind].
  rewrite E3, bind_assoc. apply bind_ext. intro o3. cbn [bind]. destruct (fin o3 (zeros n) 0); cbn [bind]; auto. now rewrite progress_ok by lia.
Qed.
End all.
