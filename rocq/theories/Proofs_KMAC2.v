(** The KMAC object. *)
From Verif Require Import BaseLemmas Spec_Common Proofs_Common Spec_Feed Spec_Keccak Model_IntegerTools Proofs_IntegerTools Model_Modes Model_Absorb Model_Keccak Model_SHAKE Proofs_Windows Proofs_Absorb Proofs_SHA2obj
  Proofs_Keccak Proofs_Sponge Proofs_SHA3 Proofs_XOF Session_Digest Session_KMAC Proofs_KMAC.
Open Scope Z_scope.

(** * squeezing word by word *)
Lemma lane_bytes_cut st k r : (k < length st)%nat -> (r <= 8)%nat -> firstn (8 * k) (lane_bytes st) ++ firstn r (le_bytes 8 (nth k st 0)) = firstn (8 * k + r) (lane_bytes st).
Proof.
  revert k. induction st as [|x st IH]; intros k Hk Hr; [cbn in Hk; lia|]. unfold lane_bytes. cbn [map concat]. destruct k as [|k].
  - rewrite Nat.mul_0_r. rewrite firstn_O. cbn [nth app Nat.add]. rewrite firstn_app, length_le_bytes. replace (r - 8)%nat with 0%nat by lia. rewrite firstn_O, app_nil_r. reflexivity.
  - cbn [nth length] in *. rewrite !firstn_app, length_le_bytes. rewrite !(firstn_all2 (le_bytes 8 x)) by (rewrite length_le_bytes; lia). rewrite <- app_assoc. f_equal.
    replace (8 * S k - 8)%nat with (8 * k)%nat by lia. replace (8 * S k + r - 8)%nat with (8 * k + r)%nat by lia. apply IH; lia.
Qed.
Lemma iter_S_r {A} (f : A -> A) k x : Nat.iter k f (f x) = Nat.iter (S k) f x.
Proof. rewrite iter_r. reflexivity. Qed.
Lemma iter_1 {A} (f : A -> A) k x : f (Nat.iter k f x) = Nat.iter (k + 1) f x.
Proof. rewrite Nat.add_comm. reflexivity. Qed.
Lemma quad_eq {A B C D} (a a' : A) (b b' : B) (c c' : C) (d d' : D) : a = a' -> b = b' -> c = c' -> d = d' -> Ok (a, b, c, d) = Ok (a', b', c', d').
Proof. now intros -> -> -> ->. Qed.
Lemma r24 : rounds_ok 24.
Proof. split; [lia|reflexivity]. Qed.
Section sq.
Context (rate : nat).
Hypothesis Hr : (0 < rate <= 200)%nat.
Hypothesis H8 : (rate mod 8 = 0)%nat.
Lemma kmac_blocks_ok fuel : forall st out oo len, st_ok st -> (oo + len <= length out)%nat -> (len <= fuel)%nat ->
  kmac_blocks fuel rate st out oo len = Ok (Nat.iter (len / rate) (keccak 24) st, splice out oo (squeeze (keccak 24) rate (len / rate) (keccak 24 st)), (oo + len / rate * rate)%nat, (len - len / rate * rate)%nat).
Proof.
  induction fuel as [|k IH]; intros st out oo len Hs HO HF.
  - assert (len = 0)%nat by lia. subst. rewrite Nat.div_0_l by lia. cbn [kmac_blocks Nat.iter squeeze nat_rect]. rewrite splice_nil, Nat.add_0_r. reflexivity.
  - cbn [kmac_blocks]. destruct (Nat.leb_spec rate len) as [L|L].
    + rewrite (perm_ok 24) by auto using r24. pose proof (keccak_ok 24 st Hs) as Hs'.
      assert (E8 : (8 * (rate / 8) = rate)%nat) by (pose proof (Nat.div_mod rate 8 ltac:(lia)); lia).
      unfold put_words. rewrite put_words_ok by (auto; lia). cbn [bind]. rewrite E8. pose proof (firstn_bytes_len (keccak 24 st) rate Hs' ltac:(lia)) as LF.
      rewrite IH by (auto; try lia; rewrite length_splice by lia; lia).
      assert (ED : (len / rate = S ((len - rate) / rate))%nat).
      { replace len with (len - rate + 1 * rate)%nat at 1 by lia. rewrite Nat.div_add by lia. lia. }
      rewrite ED. set (q := ((len - rate) / rate)%nat). apply quad_eq.
      * exact (iter_S_r (keccak 24) q st).
      * cbn [squeeze]. replace (oo + rate)%nat with (oo + length (firstn rate (lane_bytes (keccak 24 st))))%nat by now rewrite LF. apply splice_splice_next. rewrite LF, squeeze_len by (try lia; now apply keccak_ok).
        assert (q * rate <= len - rate)%nat by (unfold q; rewrite Nat.mul_comm; apply Nat.mul_div_le; lia). lia.
      * lia.
      * lia.
    + rewrite Nat.div_small by lia. cbn [Nat.iter squeeze nat_rect]. rewrite splice_nil, Nat.mul_0_l, Nat.add_0_r, Nat.sub_0_r. reflexivity.
Qed.
Lemma ceil_div n : ((n + rate - 1) / rate = if (n mod rate =? 0)%nat then n / rate else n / rate + 1)%nat.
Proof.
  pose proof (Nat.div_mod n rate ltac:(lia)) as D. pose proof (Nat.mod_upper_bound n rate ltac:(lia)). destruct (Nat.eqb_spec (n mod rate) 0) as [E|E].
  - replace (n + rate - 1)%nat with (rate - 1 + n / rate * rate)%nat by lia. rewrite Nat.div_add by lia. rewrite Nat.div_small by lia. lia.
  - replace (n + rate - 1)%nat with (n mod rate - 1 + (n / rate + 1) * rate)%nat by lia. rewrite Nat.div_add by lia. rewrite Nat.div_small by lia. lia.
Qed.
Lemma KMAC_Squeeze_ok st out oo n : st_ok st -> (oo + n <= length out)%nat ->
  KMAC_Squeeze rate st out oo n = Ok (Nat.iter ((n + rate - 1) / rate) (keccak 24) st, splice out oo (stream 24 rate st n)).
Proof.
  intros Hs HO. unfold KMAC_Squeeze. rewrite kmac_blocks_ok by (auto; lia). cbn [bind]. rewrite ceil_div. unfold stream. pose proof (keccak_ok 24 st Hs) as Hs'. rewrite stream_split by auto.
  pose proof (Nat.div_mod n rate ltac:(lia)) as D. pose proof (Nat.mod_upper_bound n rate ltac:(lia)) as U. set (q := (n / rate)%nat) in *. replace (n - q * rate)%nat with (n mod rate)%nat by lia.
  destruct (Nat.eqb_spec (n mod rate) 0) as [E|E].
  - rewrite E, firstn_O, app_nil_r. reflexivity.
  - pose proof (iter_ok 24 q st Hs) as Hq. rewrite (perm_ok 24) by auto using r24. pose proof (keccak_ok 24 _ Hq) as Hq'.
    set (S1 := Nat.iter q (keccak 24) st) in *. set (x := (n mod rate)%nat) in *. pose proof (Nat.div_mod x 8 ltac:(lia)) as D8. pose proof (Nat.mod_upper_bound x 8 ltac:(lia)) as U8.
    set (o1 := splice out oo (squeeze (keccak 24) rate q (keccak 24 st))). assert (LQ : length (squeeze (keccak 24) rate q (keccak 24 st)) = (q * rate)%nat) by (apply squeeze_len; auto; lia).
    assert (L1 : length o1 = length out) by (unfold o1; apply length_splice; lia).
    unfold put_words. rewrite put_words_ok by (auto; lia). cbn [bind]. pose proof (firstn_bytes_len (keccak 24 S1) (8 * (x / 8)) Hq' ltac:(lia)) as LF.
    assert (EI : keccak 24 S1 = Nat.iter (q + 1) (keccak 24) st) by exact (iter_1 (keccak 24) q st).
    assert (EI2 : Nat.iter q (keccak 24) (keccak 24 st) = keccak 24 S1) by exact (iter_r (keccak 24) q st). rewrite EI2.
    destruct (Nat.eqb_spec (x - 8 * (x / 8)) 0) as [Q|Q].
    + rewrite <- EI. f_equal. f_equal. unfold o1. replace (oo + q * rate)%nat with (oo + length (squeeze (keccak 24) rate q (keccak 24 st)))%nat by now rewrite LQ.
      rewrite splice_splice_next by lia. do 3 f_equal. lia.
    + rewrite (get_ok _ _ 0) by (destruct Hq'; lia). cbn [bind].
      assert (LG : length (firstn (x - 8 * (x / 8)) (le_bytes 8 (nth (x / 8) (keccak 24 S1) 0))) = (x - 8 * (x / 8))%nat) by (rewrite firstn_length, length_le_bytes; lia).
      rewrite wr_ok by (rewrite LG, length_splice by lia; lia). cbn [bind]. rewrite <- EI. f_equal. f_equal.
      replace (oo + q * rate + 8 * (x / 8))%nat with (oo + q * rate + length (firstn (8 * (x / 8)) (lane_bytes (keccak 24 S1))))%nat by now rewrite LF.
      rewrite splice_splice_next by lia. rewrite lane_bytes_cut by (destruct Hq'; lia). replace (8 * (x / 8) + (x - 8 * (x / 8)))%nat with x by lia.
      unfold o1. replace (oo + q * rate)%nat with (oo + length (squeeze (keccak 24) rate q (keccak 24 st)))%nat by now rewrite LQ.
      apply splice_splice_next. rewrite LQ, firstn_bytes_len by (auto; lia). lia.
Qed.
End sq.

(** * the last block *)
Lemma firstn_zeros_eq (a : list Z) r j k : (r <= length a + j)%nat -> (r <= length a + k)%nat -> firstn r (a ++ zeros j) = firstn r (a ++ zeros k).
Proof.
  intros H1 H2. rewrite !firstn_app. f_equal. assert (G : forall m n, (m <= n)%nat -> firstn m (zeros n) = zeros m).
  { unfold zeros. induction m as [|m IH]; intros [|n] H; cbn; try lia; auto. f_equal. apply IH. lia. }
  rewrite !G by lia. reflexivity.
Qed.
Lemma tail_last rate d enc : (length d + length enc < rate)%nat -> kmac_tail rate d enc = last_block rate 4 (d ++ enc).
Proof.
  intros H. unfold kmac_tail. cbv zeta. set (D := d ++ enc). assert (LD : length D = (length d + length enc)%nat) by (unfold D; apply app_length).
  replace (d ++ enc ++ [4] ++ zeros rate) with (D ++ [4] ++ zeros rate) by (unfold D; now rewrite <- app_assoc). fold D.
  replace (firstn rate (D ++ [4] ++ zeros rate)) with (D ++ 4 :: zeros (rate - length D - 1)).
  2:{ rewrite firstn_app, (firstn_all2 D) by lia. f_equal. destruct (rate - length D)%nat as [|k] eqn:E; [lia|]. cbn [app firstn]. f_equal. replace (S k - 1)%nat with k by lia.
      unfold zeros. assert (k <= rate)%nat by lia. clear - H0. revert H0. generalize rate. induction k as [|k IH]; intros [|n] H; cbn; try lia; auto. f_equal. apply IH. lia. }
  unfold last_block. destruct (Nat.eqb_spec (rate - length D) 1) as [E|E].
  - replace (rate - length D - 1)%nat with 0%nat by lia. cbn [zeros repeat]. replace (rate - 1)%nat with (length D) by lia. rewrite firstn_app, firstn_all, Nat.sub_diag, firstn_O, app_nil_r. f_equal.
    rewrite app_nth2, Nat.sub_diag by lia. reflexivity.
  - replace (rate - length D - 1)%nat with (rate - length D - 2 + 1)%nat by lia. rewrite zeros_app. 
    replace (D ++ 4 :: zeros (rate - length D - 2) ++ zeros 1) with ((D ++ 4 :: zeros (rate - length D - 2)) ++ [0]) by (rewrite <- app_assoc; reflexivity).
    assert (L : length (D ++ 4 :: zeros (rate - length D - 2)) = (rate - 1)%nat) by (rewrite app_length; cbn [length]; rewrite length_zeros; lia).
    rewrite <- L, firstn_app, firstn_all, Nat.sub_diag, firstn_O, app_nil_r. rewrite app_nth2, Nat.sub_diag by lia. cbn [nth]. rewrite <- app_assoc. reflexivity.
Qed.
Lemma kmac_tail_len rate d enc : (0 < rate)%nat -> length (kmac_tail rate d enc) = rate.
Proof. intros H. unfold kmac_tail. cbv zeta. rewrite app_length, !firstn_length, !app_length, length_zeros. cbn [length]. lia. Qed.
Lemma kmac_tail_bytes rate d enc : bytes d -> bytes enc -> bytes (kmac_tail rate d enc).
Proof.
  intros H1 H2. unfold kmac_tail. cbv zeta. assert (B : bytes (firstn rate (d ++ enc ++ [4] ++ zeros rate))).
  { apply bytes_firstn. apply Forall_app. split; [exact H1|]. apply Forall_app. split; [exact H2|]. constructor; [red; lia|apply bytes_zeros]. }
  apply Forall_app. split; [now apply bytes_firstn|]. constructor; [|constructor]. pose proof (bytes_nth _ (rate - 1) B) as Q. red in Q |- *. apply (lor_range 8); lia.
Qed.
Lemma tail_buffer rate d enc buf : bytes d -> bytes enc -> (0 < rate <= 190)%nat -> (length d < rate)%nat -> (length enc <= 9)%nat -> buf = d ++ zeros (200 - length d) ->
  for_up 0 (length enc) (fun i buf => x <- get enc i ;; put buf (length d + i)%nat x) buf = Ok (splice buf (length d) enc) /\ exists b2, put (splice buf (length d) enc) (length d + length enc) 4 = Ok b2 /\
  exists b3, set_top rate b2 = Ok b3 /\ slice b3 0 rate = kmac_tail rate d enc /\ bytes b3 /\ length b3 = 200%nat.
Proof.
  intros Bd Be Hr Ld Le ->. set (buf := d ++ zeros (200 - length d)).
  assert (Lb : length buf = 200%nat) by (unfold buf; rewrite app_length, length_zeros; lia).
  assert (E1 : for_up 0 (length enc) (fun i buf => x <- get enc i ;; put buf (length d + i)%nat x) buf = Ok (splice buf (length d) enc)).
  { pose proof (byte_loop buf (length d) (fun i => nth i enc 0) (fun i buf => x <- get enc i ;; put buf (length d + i)%nat x) (length enc) 0 [] eq_refl ltac:(lia)) as Q. rewrite splice_nil in Q. rewrite Q.
    - f_equal. f_equal. cbn [app]. apply (list_ext 0); [now rewrite map_length, seq_length|]. intros i Hi. rewrite map_length, seq_length in Hi. rewrite (nth_indep _ 0 ((fun i => nth i enc 0) 0%nat)) by (rewrite map_length, seq_length; lia).
      rewrite (map_nth (fun i => nth i enc 0)). rewrite seq_nth by lia. reflexivity.
    - intros i e Hi He. rewrite (get_ok enc i 0) by lia. reflexivity. }
  assert (E2 : put (splice buf (length d) enc) (length d + length enc) 4 = Ok (d ++ enc ++ [4] ++ zeros (200 - length d - length enc - 1))).
  { rewrite put_ok by (rewrite length_splice; lia). f_equal. rewrite upd_splice_snoc by lia. unfold splice, buf. rewrite firstn_app, firstn_all, Nat.sub_diag, firstn_O, app_nil_r. f_equal. rewrite <- app_assoc. f_equal. f_equal.
    rewrite skipn_app, skipn_all2 by (rewrite app_length; cbn [length]; lia). cbn [app]. rewrite app_length. cbn [length].
    replace (length d + (length enc + 1) - length d)%nat with (length enc + 1)%nat by lia.
    replace (200 - length d)%nat with (length enc + 1 + (200 - length d - length enc - 1))%nat at 1 by lia. rewrite (zeros_app (length enc + 1)), skipn_app, skipn_all2 by (rewrite length_zeros; lia). rewrite length_zeros, Nat.sub_diag. reflexivity. }
  split; [exact E1|]. eexists. split; [exact E2|].
  set (b2 := d ++ enc ++ [4] ++ zeros (200 - length d - length enc - 1)). assert (L2 : length b2 = 200%nat) by (unfold b2; rewrite !app_length, length_zeros; cbn [length]; lia).
  assert (B2 : bytes b2) by (unfold b2; apply Forall_app; split; [exact Bd|]; apply Forall_app; split; [exact Be|]; constructor; [red; lia|apply bytes_zeros]).
  unfold set_top. replace (0 <? rate)%nat with true by (symmetry; apply Nat.ltb_lt; lia). cbn [safe bind]. rewrite (get_ok _ _ 0) by lia. cbn [bind]. rewrite put_ok by lia.
  eexists. split; [reflexivity|]. split; [|split; [|now rewrite length_upd]].
  - replace rate with (rate - 1 + 1)%nat at 3 by lia. rewrite slice_snoc_upd by lia. unfold kmac_tail. cbv zeta.
    assert (EF : firstn rate (d ++ enc ++ [4] ++ zeros rate) = firstn rate b2).
    { unfold b2. rewrite !(app_assoc enc), !(app_assoc d). apply firstn_zeros_eq; rewrite !app_length; cbn [length]; lia. }
    rewrite EF. f_equal.
    + unfold slice. cbn [skipn]. rewrite firstn_firstn. f_equal. lia.
    + f_equal. f_equal. rewrite <- (firstn_skipn rate b2) at 1. rewrite app_nth1 by (rewrite firstn_length; lia). reflexivity.
  - apply bytes_upd; [exact B2|]. pose proof (bytes_nth b2 (rate - 1) B2) as Q. red in Q |- *. apply (lor_range 8); lia.
Qed.

(** * the object *)
Section obj.
Context (rate tag : nat).
Hypothesis Hr : (64 <= rate <= 190)%nat.
Hypothesis H8 : (rate mod 8 = 0)%nat.
Hypothesis Ht : (0 < tag)%nat.
Definition kabs (o : kmac_obj) (a : option (list Z * list Z)) : Prop :=
  match a with
  | None => o = KMAC_new
  | Some (A, m) => km_init o = true /\ st_ok A /\ ainv rate 200 (absorb_block (keccak 24) rate) st_ok false A m (km_st o)
  end.
Lemma kmac_step24 st b o : st_ok st -> bytes b -> (o + rate <= length b)%nat ->
  absorb_step (Permute 24) rate st b o = Ok (absorb_block (keccak 24) rate st (slice b o rate)) /\ st_ok (absorb_block (keccak 24) rate st (slice b o rate)).
Proof. apply step_ok; [intros; apply perm_ok; auto using r24|lia]. Qed.
Lemma kabs_upd o A m inp io len : kabs o (Some (A, m)) -> bytes inp -> (io + len <= length inp)%nat ->
  exists o', KMAC_Update rate o inp io len = Ok o' /\ kabs o' (Some (A, m ++ slice inp io len)).
Proof.
  intros (H1 & H2 & H3) Bi HL. unfold KMAC_Update. rewrite H1. cbn [guard bind].
  replace ((io <=? length inp)%nat && (length inp - io <? len)%nat) with false by (symmetry; apply andb_false_iff; right; apply Nat.ltb_ge; lia). cbn [negb guard bind].
  destruct (eager_ok rate 200 (absorb_step (Permute 24) rate) (absorb_block (keccak 24) rate) st_ok ltac:(lia) kmac_step24 A m (km_st o) inp io len H3 Bi HL) as (st' & -> & I'). cbn [bind].
  eexists. split; [reflexivity|]. split; [reflexivity|]. split; [exact H2|exact I'].
Qed.
Lemma last_facts (m : list Z) bs d : (forall b, In b bs -> blk rate b) -> m = concat bs ++ d -> (length d < rate)%nat -> let w := (length m / rate * rate)%nat in firstn w m = concat bs /\ skipn w m = d.
Proof.
  intros H E L w. assert (HB : Forall (blk rate) bs) by now apply Forall_forall. assert (W : w = length (concat bs)).
  { unfold w. rewrite E, app_length, (concat_len rate) by exact HB. rewrite Nat.add_comm, Nat.div_add, Nat.div_small by lia. lia. }
  rewrite W, E. rewrite firstn_app, firstn_all, Nat.sub_diag, firstn_O, app_nil_r. rewrite skipn_app, skipn_all, Nat.sub_diag. split; reflexivity.
Qed.
Lemma kmac_last_ok A m n : st_ok A -> bytes m -> 8 * Z.of_nat n < 2 ^ 64 -> st_ok (kmac_last rate A m n).
Proof.
  intros HA Bm Hn. unfold kmac_last. cbv zeta. pose proof (Nat.div_mod (length m) rate ltac:(lia)) as D. apply xor_lanes_ok.
  - apply absorb_blocks_ok; auto; [lia|now apply bytes_firstn|]. rewrite firstn_length, Nat.min_l by lia. apply Nat.mod_mul. lia.
  - assert (B : bytes (kmac_tail rate (skipn (length m / rate * rate) m) (right_encode (8 * Z.of_nat n)))) by (apply kmac_tail_bytes; [now apply bytes_skipn|now apply right_bytes]).
    pose proof (block_state_ok _ B) as Q. unfold block_state in Q. rewrite kmac_tail_len in Q by lia. apply Q. lia.
Qed.
Lemma ainv_bytes A m s : ainv rate 200 (absorb_block (keccak 24) rate) st_ok false A m s -> bytes m.
Proof.
  destruct s as ((s & buf) & pos). intros (_ & Bb & _ & _ & bs & Hbs & -> & _). apply Forall_app. split; [|now apply bytes_slice]. clear - Hbs. induction Hbs as [|b bs [Hb _] _ IH]; [constructor|]. cbn [concat]. apply Forall_app. now split.
Qed.
Lemma kabs_fin o A m out oo : kabs o (Some (A, m)) -> (oo <= length out)%nat -> (tag <= length out - oo)%nat -> short out ->
  exists o', KMAC_Finalize rate tag o out oo = Ok (o', splice out oo (kmac_out rate A m (length out - oo))) /\ kabs o' (Some (kmac_after rate A m (length out - oo), [])) /\ length (kmac_out rate A m (length out - oo)) = (length out - oo)%nat.
Proof.
  intros (H1 & H2 & H3) HO HT HS. pose proof (ainv_bytes _ _ _ H3) as Bm. destruct o as [((st & buf) & pos) ini]. cbn [km_st km_init] in *. subst ini.
  unfold short in HS. set (n := (length out - oo)%nat) in *. assert (Hn : 0 <= 8 * Z.of_nat n < 2 ^ 64) by (unfold n; lia).
  destruct H3 as (Is & Bb & Lb & P & bs & Hbs & Hm & Hs). unfold KMAC_Finalize. cbn [km_st km_init guard bind].
  replace (oo <=? length out)%nat with true by (symmetry; apply Nat.leb_le; lia). cbn [safe bind]. fold n.
  replace (n <? tag)%nat with false by (symmetry; apply Nat.ltb_ge; lia). cbn [negb guard bind].
  replace (pos =? length buf)%nat with false by (symmetry; apply Nat.eqb_neq; lia). rewrite clear_from_ok by lia. cbn [bind]. set (d := slice buf 0 pos).
  assert (Ld : length d = pos) by (unfold d; rewrite length_slice; lia). assert (Bd : bytes d) by (unfold d; now apply bytes_slice).
  replace (u64 (Z.of_nat n * 8)) with (8 * Z.of_nat n) by (unfold u64; rewrite Z.mod_small; lia).
  pose proof (right_le9 _ (proj2 Hn)) as L9. rewrite RightEncode_ok by (rewrite ?length_zeros; auto; lia). cbn [bind].
  set (enc := right_encode (8 * Z.of_nat n)) in *. assert (Be : bytes enc) by (apply right_bytes; lia).
  rewrite (for_up_ext _ _ _ (fun i buf => x <- get enc i ;; put buf (length d + i)%nat x)).
  2:{ intros i x Hi. rewrite (get_ok (splice (zeros 9) 0 enc) i 0), (get_ok enc i 0) by (rewrite ?length_splice by (rewrite length_zeros; lia); rewrite ?length_zeros; lia). cbn [bind]. rewrite Ld. f_equal.
      rewrite nth_splice by (rewrite length_zeros; lia). destruct (Nat.ltb_spec i 0); [lia|]. destruct (Nat.ltb_spec i (0 + length enc)); [|lia]. now rewrite Nat.sub_0_r. }
  destruct (tail_buffer rate d enc (d ++ zeros (length buf - pos)) Bd Be ltac:(lia) ltac:(lia) L9) as (E1 & b2 & E2 & b3 & E3 & E4 & B3 & L3); [now rewrite Lb, Ld|].
  rewrite E1. cbn [bind]. replace (pos + length enc)%nat with (length d + length enc)%nat by lia. rewrite E2. cbn [bind]. rewrite E3. cbn [bind]. rewrite FastAbsorb_ok by (auto; lia). cbn [bind]. rewrite E4.
  assert (EL : xor_lanes st (block_state (kmac_tail rate d enc)) = kmac_last rate A m n).
  { unfold kmac_last. cbv zeta. destruct (last_facts m bs d) as [W1 W2]; [now apply Forall_forall|exact Hm|lia|]. rewrite W1, W2. fold enc. unfold block_state. rewrite kmac_tail_len by lia. f_equal.
    rewrite Hs. unfold absorb. rewrite <- (app_nil_r (concat bs)), chunks_concat by (auto; lia). rewrite chunks_nil, app_nil_r. reflexivity. }
  rewrite EL. pose proof (kmac_last_ok A m n H2 Bm ltac:(lia)) as HL. rewrite KMAC_Squeeze_ok by (auto; try lia). cbn [bind].
  eexists. split; [reflexivity|]. split; [|exact (stream_len 24 rate (kmac_last rate A m n) n ltac:(lia) HL)].
  pose proof (iter_ok 24 ((n + rate - 1) / rate) _ HL) as HI. split; [reflexivity|]. split; [exact HI|].
  cbn [km_st]. rewrite L3. apply ainv_start; [lia|exact HI|apply bytes_zeros|apply length_zeros].
Qed.
Lemma fits_cust name cust : fits_block rate name cust -> cust_fits rate name cust.
Proof. intros H. exact H. Qed.
Lemma name_bytes info : bytes info -> bytes (name_of info).
Proof. intros H. unfold name_of. destruct (0 <? length info)%nat; [exact H|]. unfold kmac_name. repeat (apply Forall_cons; [red; lia|]). apply Forall_nil. Qed.
Lemma name_short info : short info -> short (name_of info).
Proof. intros H. unfold name_of. destruct (0 <? length info)%nat; [exact H|]. unfold short. cbn. lia. Qed.
Lemma kmac_start_ok name key cust : bytes name -> bytes key -> bytes cust -> short name -> short key -> short cust -> fits_block rate name cust ->
  exists pad, (st <- Customize 24 cust name rate zero_state ;; load_key 24 key rate st) = Ok (pad, kmac_start rate name key cust) /\ st_ok (kmac_start rate name key cust).
Proof.
  intros Bn Bk Bc Sn Sk Sc Hf. destruct (Customize_ok 24 cust name rate zero_state r24 ltac:(lia) zero_state_ok Bc Bn Sc Sn Hf) as [-> S1]. cbn [bind].
  destruct (load_key_ok 24 key rate _ r24 ltac:(lia) S1 Bk Sk) as (pad & -> & _ & _ & S2). exists pad. unfold kmac_start.
  rewrite absorb_app; [split; [reflexivity|exact S2]|lia|apply bytepad_bytes; [lia|apply Forall_app; split; now apply encode_string_bytes]|apply bytepad_aligned; lia].
Qed.
Lemma KMAC_Init_ok o a key cust info : kabs o a -> kcall_ok rate (KInit key cust info) -> (16 <= length key)%nat -> (length cust = 0 \/ 4 <= length cust)%nat ->
  exists o', KMAC_Initialize rate o key cust info = Ok o' /\ kabs o' (Some (kmac_start rate (name_of info) key cust, [])).
Proof.
  intros HA (Bk & Bc & Bi & Sk & Sc & Si & Hf) LK LC. unfold KMAC_Initialize.
  replace (length key <? 16)%nat with false by (symmetry; apply Nat.ltb_ge; lia). cbn [negb guard bind].
  replace (negb (length cust =? 0)%nat && (length cust <? 4)%nat) with false by (destruct (Nat.eqb_spec (length cust) 0), (Nat.ltb_spec (length cust) 4); cbn; lia || reflexivity). cbn [negb guard bind].
  assert (E : (if km_init o then KMAC_new else o) = KMAC_new) by (destruct a as [(A, m)|]; [destruct HA as [-> _]; reflexivity|cbn [kabs] in HA; subst o; reflexivity]). rewrite E. unfold KMAC_new. cbn [km_st].
  change (if (0 <? length info)%nat then info else [0x4B; 0x4D; 0x41; 0x43]) with (name_of info). change (zeros 25) with zero_state.
  destruct (kmac_start_ok (name_of info) key cust) as (pad & E1 & S2); auto using name_bytes, name_short.
  destruct (Customize 24 cust (name_of info) rate zero_state) as [st1| |]; [|discriminate E1|discriminate E1]. cbn [bind] in E1 |- *. rewrite E1. cbn [bind snd].
  eexists. split; [reflexivity|]. split; [reflexivity|]. split; [exact S2|]. cbn [km_st]. apply ainv_start; [lia|exact S2|apply bytes_zeros|apply length_zeros].
Qed.
Lemma khistory_ok cs : forall o a, kabs o a -> Forall (kcall_ok rate) cs -> exists rs, khistory rate tag o cs = Ok rs /\ kexpected rate tag a cs rs.
Proof.
  induction cs as [|c cs IH]; intros o a HA HC; [exists []; split; [reflexivity|exact I]|]. inversion HC as [|? ? Hc HC']; subst. cbn [khistory].
  assert (STEP : forall o' a' r, kstep rate tag o c = Ok (o', r) -> kabs o' a' -> (forall rs, kexpected rate tag a' cs rs -> kexpected rate tag a (c :: cs) (r :: rs)) ->
    exists rs, (r <- kstep rate tag o c ;; rs <- khistory rate tag (fst r) cs ;; Ok (snd r :: rs)) = Ok rs /\ kexpected rate tag a (c :: cs) rs).
  { intros o' a' r E H1 H2. rewrite E. cbn [bind fst snd]. destruct (IH o' a' H1 HC') as (rs & -> & H3). cbn [bind]. exists (r :: rs). split; [reflexivity|]. now apply H2. }
  destruct c as [key cust info|p|out oo|inp out|].
  - destruct (Nat.ltb_spec (length key) 16) as [K|K].
    + apply (STEP o a (Failed InvalidKey)); [|exact HA|].
      * cbn [kstep]. unfold KMAC_Initialize. replace (length key <? 16)%nat with true by (symmetry; now apply Nat.ltb_lt). reflexivity.
      * intros rs H. cbn [kexpected]. replace (length key <? 16)%nat with true by (symmetry; now apply Nat.ltb_lt). split; [reflexivity|exact H].
    + destruct ((0 <? length cust) && (length cust <? 4))%nat eqn:Q.
      * apply (STEP o a (Failed InvalidSalt)); [|exact HA|].
        -- cbn [kstep]. unfold KMAC_Initialize. replace (length key <? 16)%nat with false by (symmetry; apply Nat.ltb_ge; lia). cbn [negb guard bind].
           replace (negb (length cust =? 0)%nat && (length cust <? 4)%nat) with true; [reflexivity|]. apply andb_prop in Q. destruct Q as [Q1 Q2]. rewrite Q2. apply Nat.ltb_lt in Q1. destruct (Nat.eqb_spec (length cust) 0); [lia|reflexivity].
        -- intros rs H. cbn [kexpected]. replace (length key <? 16)%nat with false by (symmetry; apply Nat.ltb_ge; lia). rewrite Q. split; [reflexivity|exact H].
      * assert (LC : (length cust = 0 \/ 4 <= length cust)%nat) by (destruct (Nat.ltb_spec 0 (length cust)), (Nat.ltb_spec (length cust) 4); cbn in Q; try discriminate; lia).
        destruct (KMAC_Init_ok o a key cust info HA Hc K LC) as (o' & E & H1). apply (STEP o' (Some (kmac_start rate (name_of info) key cust, [])) Done); [|exact H1|].
        -- cbn [kstep]. rewrite E. reflexivity.
        -- intros rs H. cbn [kexpected]. replace (length key <? 16)%nat with false by (symmetry; apply Nat.ltb_ge; lia). rewrite Q. split; [reflexivity|exact H].
  - destruct a as [(A & m)|].
    + destruct Hc as [P1 P2]. destruct (kabs_upd o A m (p_in p) (p_off p) (p_len p) HA P2 P1) as (o' & E & H1). apply (STEP o' (Some (A, m ++ p_data p)) Done); [cbn [kstep]; rewrite E; reflexivity|exact H1|].
      intros rs H. split; [reflexivity|exact H].
    + cbn [kabs] in HA. apply (STEP o None (Failed NotInitialized)); [rewrite HA; reflexivity|exact HA|]. intros rs H. split; [reflexivity|exact H].
  - destruct a as [(A & m)|].
    + destruct Hc as [P1 P2]. destruct (Nat.ltb_spec (length out - oo) tag) as [T|T].
      * apply (STEP o (Some (A, m)) (Failed InvalidSize)); [|exact HA|].
        -- cbn [kstep]. unfold KMAC_Finalize. destruct HA as (-> & _). cbn [guard bind]. replace (oo <=? length out)%nat with true by (symmetry; apply Nat.leb_le; lia). cbn [safe bind].
           replace (length out - oo <? tag)%nat with true by (symmetry; now apply Nat.ltb_lt). reflexivity.
        -- intros rs H. cbn [kexpected]. cbv zeta. replace (length out - oo <? tag)%nat with true by (symmetry; now apply Nat.ltb_lt). split; [reflexivity|exact H].
      * destruct (kabs_fin o A m out oo HA P1 T P2) as (o' & E & H1 & LO). apply (STEP o' (Some (kmac_after rate A m (length out - oo), [])) (Wrote (splice out oo (kmac_out rate A m (length out - oo))))); [cbn [kstep]; rewrite E; reflexivity|exact H1|].
        intros rs H. cbn [kexpected]. cbv zeta. replace (length out - oo <? tag)%nat with false by (symmetry; apply Nat.ltb_ge; lia). split; [|exact H]. eexists. split; [reflexivity|]. apply splice_written. rewrite LO. lia.
    + cbn [kabs] in HA. apply (STEP o None (Failed NotInitialized)); [rewrite HA; reflexivity|exact HA|]. intros rs H. split; [reflexivity|exact H].
  - destruct a as [(A & m)|].
    + destruct Hc as [P1 P2]. destruct (Nat.ltb_spec (length out) tag) as [T|T].
      * apply (STEP o (Some (A, m)) (Failed InvalidSize)); [|exact HA|].
        -- cbn [kstep]. unfold KMAC_Compute. destruct HA as (-> & _). cbn [guard bind]. replace (length out <? tag)%nat with true by (symmetry; now apply Nat.ltb_lt). reflexivity.
        -- intros rs H. cbn [kexpected]. cbv zeta. replace (length out <? tag)%nat with true by (symmetry; now apply Nat.ltb_lt). split; [reflexivity|exact H].
      * destruct (kabs_upd o A m inp 0 (length inp) HA P1 ltac:(lia)) as (o1 & E1 & HA1). rewrite slice_all in HA1 by reflexivity.
        destruct (kabs_fin o1 A (m ++ inp) out 0 HA1 ltac:(lia) ltac:(lia) P2) as (o' & E & H1 & LO). rewrite Nat.sub_0_r in *.
        apply (STEP o' (Some (kmac_after rate A (m ++ inp) (length out), [])) (Wrote (splice out 0 (kmac_out rate A (m ++ inp) (length out))))); [|exact H1|].
        -- cbn [kstep]. unfold KMAC_Compute. destruct HA as (-> & _). cbn [guard bind]. replace (length out <? tag)%nat with false by (symmetry; apply Nat.ltb_ge; lia). cbn [negb guard bind]. rewrite E1. cbn [bind]. rewrite E. reflexivity.
        -- intros rs H. cbn [kexpected]. cbv zeta. replace (length out <? tag)%nat with false by (symmetry; apply Nat.ltb_ge; lia). split; [|exact H]. eexists. split; [reflexivity|]. apply splice_written. rewrite LO. lia.
    + cbn [kabs] in HA. apply (STEP o None (Failed NotInitialized)); [rewrite HA; reflexivity|exact HA|]. intros rs H. split; [reflexivity|exact H].
  - apply (STEP KMAC_new None Done); [reflexivity|reflexivity|]. intros rs H. split; [reflexivity|exact H].
Qed.
End obj.
