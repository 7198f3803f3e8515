(** The byte view of the Keccak state, absorbing and squeezing. *)
From Verif Require Import BaseLemmas Spec_Common Spec_Keccak Model_IntegerTools Model_Modes Model_Absorb Model_Keccak Proofs_Windows Proofs_Absorb Proofs_SHA2obj Proofs_Keccak.
Open Scope Z_scope.

Lemma lxor_add8 x y a b : is_byte x -> is_byte y -> Z.lxor (x + 256 * a) (y + 256 * b) = Z.lxor x y + 256 * Z.lxor a b.
Proof.
  intros Hx Hy. red in Hx, Hy. assert (Q : forall u v, 0 <= u < 256 -> u + 256 * v = Z.lor (Z.shiftl v 8) u).
  { intros u v H. rewrite Z.add_comm. replace (256 * v) with (Z.shiftl v 8) by (rewrite Z.shiftl_mul_pow2 by lia; lia).
    symmetry. rewrite Z.lor_comm, lor_shiftl_add by lia. rewrite Z.shiftl_mul_pow2 by lia. lia. }
  pose proof (lxor_range 8 x y ltac:(lia) Hx Hy) as R.
  rewrite !Q by lia. apply Z.bits_inj'. intros k Hk. rewrite Z.lxor_spec, !Z.lor_spec, Z.lxor_spec, !Z.shiftl_spec, Z.lxor_spec by lia.
  destruct (Z.ltb_spec k 8).
  - rewrite !(Z.testbit_neg_r _ (k - 8)) by lia. cbn. reflexivity.
  - rewrite (testbit_high 8 x), (testbit_high 8 y) by lia. cbn. now rewrite !orb_false_r.
Qed.
Lemma le_val_xorl a : forall b, bytes a -> bytes b -> length a = length b -> le_val (xorl a b) = Z.lxor (le_val a) (le_val b).
Proof.
  induction a as [|x a IH]; intros [|y b] Ha Hb HL; cbn [length] in HL; try discriminate; [reflexivity|].
  inversion Ha; inversion Hb; subst. cbn [xorl le_val]. rewrite IH by (auto; lia). now rewrite lxor_add8.
Qed.
Lemma chunks8_cons (a l : list Z) : length a = 8%nat -> chunks 8 (a ++ l) = a :: chunks 8 l.
Proof. intros H. apply chunks_app; [lia|exact H]. Qed.
Lemma u64_bytes_len st : length (u64_bytes st) = (8 * length st)%nat.
Proof. unfold u64_bytes. induction st as [|x st IH]; [reflexivity|]. cbn [map concat length]. rewrite app_length, length_le_bytes, IH. lia. Qed.
Lemma u64_bytes_bytes st : bytes (u64_bytes st).
Proof. unfold u64_bytes. induction st as [|x st IH]; [constructor|]. cbn [map concat]. apply Forall_app. split; [apply bytes_le_bytes|exact IH]. Qed.
Lemma lane_words_len b n : length b = (8 * n)%nat -> length (lane_words b) = n.
Proof.
  revert b. induction n as [|n IH]; intros b H; [destruct b; [reflexivity|discriminate]|].
  rewrite <- (firstn_skipn 8 b). unfold lane_words. rewrite chunks8_cons by (rewrite firstn_length; lia). cbn [map length]. f_equal. apply IH. rewrite skipn_length. lia.
Qed.
Lemma lane_words_ok b : bytes b -> Nat.modulo (length b) 8 = 0%nat -> Forall lane_ok (lane_words b).
Proof.
  intros Hb Hm. assert (exists n, length b = (8 * n)%nat) as [n E] by (exists (length b / 8)%nat; pose proof (Nat.div_mod (length b) 8); lia).
  clear Hm. revert b Hb E. induction n as [|n IH]; intros b Hb E; [destruct b; [constructor|discriminate]|].
  rewrite <- (firstn_skipn 8 b). unfold lane_words. rewrite chunks8_cons by (rewrite firstn_length; lia). cbn [map]. constructor.
  - pose proof (le_val_range (firstn 8 b) (bytes_firstn 8 b Hb)) as R. rewrite firstn_length, Nat.min_l in R by lia. exact R.
  - apply IH; [now apply bytes_skipn|rewrite skipn_length; lia].
Qed.
Lemma words_bytes_words st : Forall lane_ok st -> lane_words (lane_bytes st) = st.
Proof.
  induction 1 as [|x st Hx H IH]; [reflexivity|]. unfold lane_words, lane_bytes. cbn [map concat]. rewrite chunks8_cons by apply length_le_bytes.
  cbn [map]. f_equal; [|exact IH]. rewrite le_val_le_bytes. apply Z.mod_small. exact Hx.
Qed.
Lemma bytes_words_bytes b n : bytes b -> length b = (8 * n)%nat -> lane_bytes (lane_words b) = b.
Proof.
  revert b. induction n as [|n IH]; intros b Hb E; [destruct b; [reflexivity|discriminate]|].
  rewrite <- (firstn_skipn 8 b) at 2. rewrite <- (firstn_skipn 8 b) at 1. unfold lane_bytes, lane_words. rewrite chunks8_cons by (rewrite firstn_length; lia).
  cbn [map concat]. f_equal.
  - replace 8%nat with (length (firstn 8 b)) at 1 by (rewrite firstn_length; lia). apply le_bytes_le_val. now apply bytes_firstn.
  - apply IH; [now apply bytes_skipn|rewrite skipn_length; lia].
Qed.
Lemma xor_bytes st : forall b, Forall lane_ok st -> bytes b -> length b = (8 * length st)%nat -> lane_words (xorl (lane_bytes st) b) = xor_lanes st (lane_words b).
Proof.
  induction st as [|x st IH]; intros b Hs Hb E; [destruct b; [reflexivity|discriminate]|].
  inversion Hs as [|? ? Hx Hs']; subst. cbn [length] in E. rewrite <- (firstn_skipn 8 b) at 1 2.
  unfold lane_bytes. cbn [map concat]. rewrite xorl_app by (rewrite length_le_bytes, firstn_length; lia).
  unfold lane_words, xor_lanes. rewrite !chunks8_cons by (rewrite ?length_xorl, ?length_le_bytes, ?firstn_length; lia). cbn [map combine fst snd].
  f_equal.
  - rewrite le_val_xorl; [|apply bytes_le_bytes|now apply bytes_firstn|rewrite length_le_bytes, firstn_length; lia].
    rewrite le_val_le_bytes, Z.mod_small by exact Hx. reflexivity.
  - apply IH; [assumption|now apply bytes_skipn|rewrite skipn_length; lia].
Qed.
Lemma xor_lanes_ok A B : st_ok A -> st_ok B -> st_ok (xor_lanes A B).
Proof.
  intros [L1 F1] [L2 F2]. split; [unfold xor_lanes; rewrite map_length, combine_length; lia|].
  clear L1 L2. revert B F2. induction F1 as [|x A Hx H IH]; intros B F2; [constructor|]. destruct F2 as [|y B Hy F2]; [constructor|].
  unfold xor_lanes. cbn [combine map fst snd]. constructor; [now apply lxor_lane|now apply IH].
Qed.
(** a block of bytes as a state *)
Definition block_state (b : list Z) : list Z := lane_words (b ++ zeros (200 - length b)).
Lemma block_state_ok b : bytes b -> (length b <= 200)%nat -> st_ok (block_state b).
Proof.
  intros Hb L. assert (E : length (b ++ zeros (200 - length b)) = (8 * 25)%nat) by (rewrite app_length, length_zeros; lia). split.
  - unfold block_state. now rewrite (lane_words_len _ 25).
  - apply lane_words_ok; [apply Forall_app; split; [assumption|apply bytes_zeros]|now rewrite E].
Qed.
Lemma front_xor (U B : list Z) n : length B = n -> (n <= length U <= 200)%nat -> splice U 0 (xorl (slice U 0 n) B) = xorl U (B ++ zeros (200 - n)).
Proof.
  intros LB L. assert (LX : length (xorl (slice U 0 n) B) = n) by (rewrite length_xorl, length_slice; lia).
  rewrite <- (firstn_skipn n U) at 3. rewrite xorl_app by (rewrite firstn_length; lia). rewrite xorl_zeros by (rewrite skipn_length; lia).
  unfold splice. rewrite LX. unfold slice. cbn [firstn skipn app Nat.add]. reflexivity.
Qed.
Lemma FastAbsorb_ok inp io len st : st_ok st -> bytes inp -> (io + len <= length inp)%nat -> (len <= 200)%nat ->
  FastAbsorb inp io len st = Ok (xor_lanes st (block_state (slice inp io len))).
Proof.
  intros [L F] Hb H1 H2. unfold FastAbsorb. pose proof (u64_bytes_len st) as LB. rewrite wxor_ok by lia. cbn [bind]. f_equal.
  assert (LS : length (slice inp io len) = len) by (rewrite length_slice; lia).
  unfold block_state. rewrite LS, <- xor_bytes; [|exact F| |rewrite app_length, length_zeros; lia].
  2:{ apply Forall_app. split; [now apply bytes_slice|apply bytes_zeros]. }
  unfold bytes_u64, lane_words. f_equal. f_equal. change (u64_bytes st) with (lane_bytes st) in *. apply front_xor; lia.
Qed.

(** * absorbing *)
Section rounds.
Context (R : nat) (perm : list Z -> list Z) (rate : nat).
Hypothesis Hperm : forall st, st_ok st -> perm st = keccak R st.
Hypothesis Hrate : (0 < rate <= 200)%nat.
Let f := keccak R.
Let g := absorb_block f rate.
Lemma f_ok st : st_ok st -> st_ok (f st).
Proof. clear Hperm perm. intros H. now apply keccak_ok. Qed.
Lemma g_eq st b : length b = rate -> g st b = f (xor_lanes st (block_state b)).
Proof. clear Hperm perm Hrate. intros H. unfold g, absorb_block, block_state. now rewrite H. Qed.
Lemma g_ok st b : st_ok st -> bytes b -> length b = rate -> st_ok (g st b).
Proof. clear Hperm perm. intros H1 H2 H3. rewrite g_eq by exact H3. apply f_ok, xor_lanes_ok; [exact H1|]. apply block_state_ok; [exact H2|lia]. Qed.
Lemma step_ok st b o : st_ok st -> bytes b -> (o + rate <= length b)%nat ->
  absorb_step perm rate st b o = Ok (g st (slice b o rate)) /\ st_ok (g st (slice b o rate)).
Proof.
  intros H1 H2 H3. unfold absorb_step. rewrite FastAbsorb_ok by (auto; lia). cbn [bind].
  assert (LS : length (slice b o rate) = rate) by (rewrite length_slice; lia).
  rewrite Hperm by (apply xor_lanes_ok; [exact H1|apply block_state_ok; [now apply bytes_slice|lia]]).
  rewrite g_eq by exact LS. split; [reflexivity|]. apply f_ok, xor_lanes_ok; [exact H1|]. apply block_state_ok; [now apply bytes_slice|lia].
Qed.
End rounds.
Lemma fold_g_ok R rate bs : (rate <= 200)%nat -> forall st, st_ok st -> Forall (blk rate) bs -> st_ok (fold_left (absorb_block (keccak R) rate) bs st).
Proof.
  intros Hr. induction bs as [|b bs IH]; intros st Hs Hb; [exact Hs|]. inversion Hb as [|? ? [B1 B2] Hb']; subst. cbn [fold_left]. apply IH; [|assumption].
  destruct b as [|x b]; [|apply g_ok; auto; cbn [length] in *; lia].
  unfold absorb_block. apply keccak_ok, xor_lanes_ok; auto. cbn [length] in *. exact (block_state_ok [] B1 ltac:(cbn; lia)).
Qed.
(** the last block: [d] is shorter than the rate *)
Definition last_block (rate : nat) (dom : Z) (d : list Z) : list Z :=
  d ++ (if (rate - length d =? 1)%nat then [Z.lor dom 128] else dom :: zeros (rate - length d - 2) ++ [128]).
Lemma last_block_len rate dom d : (length d < rate)%nat -> length (last_block rate dom d) = rate.
Proof.
  intros H. unfold last_block. rewrite app_length. destruct (Nat.eqb_spec (rate - length d) 1); cbn [length]; [lia|].
  rewrite app_length, length_zeros. cbn [length]. lia.
Qed.
Lemma last_block_bytes rate dom d : bytes d -> is_byte dom -> bytes (last_block rate dom d).
Proof.
  intros H1 H2. unfold last_block. apply Forall_app. split; [exact H1|]. red in H2. destruct (Nat.eqb_spec (rate - length d) 1).
  - constructor; [|constructor]. red. pose proof (lor_range 8 dom 128 ltac:(lia)). lia.
  - constructor; [exact H2|]. apply Forall_app. split; [apply bytes_zeros|]. constructor; [red; lia|constructor].
Qed.
Lemma pad_last rate dom bs d : (0 < rate)%nat -> Forall (blk rate) bs -> (length d < rate)%nat ->
  chunks rate (sponge_pad rate dom (concat bs ++ d)) = bs ++ [last_block rate dom d].
Proof.
  intros Hr Hb Hd. unfold sponge_pad. rewrite app_length, (concat_len rate) by assumption.
  replace ((length bs * rate + length d) mod rate)%nat with (length d) by (rewrite Nat.add_comm, Nat.mod_add, Nat.mod_small by lia; reflexivity).
  rewrite <- app_assoc, chunks_concat by assumption. f_equal. apply chunk1; [exact Hr|]. exact (last_block_len rate dom d Hd).
Qed.
(** the message buffer of the Absorb functions: [d], the domain byte, the top bit *)
Lemma msg_last rate dom d buf : (length d < rate <= length buf)%nat -> slice buf 0 (length d) = d -> (forall i, (length d < i < rate)%nat -> nth i buf 0 = 0) ->
  exists msg, set_top rate (upd buf (length d) dom) = Ok msg /\ slice msg 0 rate = last_block rate dom d /\ length msg = length buf /\ (bytes buf -> is_byte dom -> bytes msg).
Proof.
  intros Hd Hs Hz. unfold set_top. replace (0 <? rate)%nat with true by (symmetry; apply Nat.ltb_lt; lia). cbn [safe bind].
  rewrite (get_ok _ _ 0) by (rewrite length_upd; lia). cbn [bind]. rewrite put_ok by (rewrite length_upd; lia).
  eexists. split; [reflexivity|]. split; [|split].
  - apply (list_ext 0); [rewrite length_slice by (rewrite !length_upd; lia); now rewrite last_block_len|].
    intros i Hi. rewrite length_slice in Hi by (rewrite !length_upd; lia). rewrite BaseLemmas.nth_slice by lia. cbn [Nat.add].
    assert (E1 : forall i, (i < length d)%nat -> nth i buf 0 = nth i d 0).
    { intros j Hj. rewrite <- Hs. rewrite BaseLemmas.nth_slice by lia. reflexivity. }
    unfold last_block. destruct (Nat.eqb_spec (rate - length d) 1) as [Q|Q].
    + replace (rate - 1)%nat with (length d) by lia. rewrite nth_upd_same by lia.
      destruct (Nat.eq_dec i (length d)) as [->|N].
      * rewrite nth_upd_same by (rewrite length_upd; lia). rewrite app_nth2 by lia. now rewrite Nat.sub_diag.
      * rewrite !nth_upd_other by lia. rewrite app_nth1 by lia. apply E1. lia.
    + rewrite (nth_upd_other _ (length d) (rate - 1)) by lia. rewrite Hz by lia.
      destruct (Nat.eq_dec i (rate - 1)) as [->|N].
      * rewrite nth_upd_same by (rewrite length_upd; lia). rewrite app_nth2 by lia.
        destruct (rate - 1 - length d)%nat as [|k] eqn:E; [lia|]. cbn [nth]. rewrite app_nth2 by (rewrite length_zeros; lia).
        rewrite length_zeros. replace (k - (rate - length d - 2))%nat with 0%nat by lia. reflexivity.
      * rewrite nth_upd_other by lia. destruct (Nat.lt_trichotomy i (length d)) as [L|[->|L]].
        -- rewrite nth_upd_other by lia. rewrite app_nth1 by lia. apply E1. lia.
        -- rewrite nth_upd_same by lia. rewrite app_nth2 by lia. now rewrite Nat.sub_diag.
        -- rewrite nth_upd_other by lia. rewrite Hz by lia. rewrite app_nth2 by lia.
           destruct (i - length d)%nat as [|k] eqn:E; [lia|]. cbn [nth]. rewrite app_nth1 by (rewrite length_zeros; lia). symmetry; apply nth_repeat.
  - now rewrite !length_upd.
  - intros B1 B2. apply bytes_upd; [now apply bytes_upd|]. pose proof (bytes_nth (upd buf (length d) dom) (rate - 1) (bytes_upd _ _ _ B1 B2)) as B3.
    red in B3. red. pose proof (lor_range 8 (nth (rate - 1) (upd buf (length d) dom) 0) 128 ltac:(lia)). lia.
Qed.
Lemma Permute_even R : (R <= 48)%nat -> Nat.even R = true -> forall st, st_ok st -> Permute R st = keccak R st.
Proof.
  intros H1 H2 st Hs. apply Nat.even_spec in H2. destruct H2 as [k ->]. apply Permute_ok; [lia|exact Hs].
Qed.
Definition rounds_ok (R : nat) : Prop := (R <= 48)%nat /\ Nat.even R = true.
Lemma perm_ok R st : rounds_ok R -> st_ok st -> Permute R st = keccak R st.
Proof. intros [H1 H2] H. now apply Permute_even. Qed.

(** what Absorb computes: all but the last permutation of the absorbing phase *)
Definition absorbed (R rate : nat) (st : list Z) (dom : Z) (m st' : list Z) : Prop :=
  st_ok st' /\ keccak R st' = absorb (keccak R) rate st (sponge_pad rate dom m).
Lemma absorb_last R rate dom st bs d msg : (0 < rate <= 200)%nat -> st_ok st -> is_byte dom -> Forall (blk rate) bs -> bytes d -> (length d < rate)%nat -> bytes msg ->
  slice msg 0 rate = last_block rate dom d -> (rate <= length msg)%nat ->
  exists st', FastAbsorb msg 0 rate (fold_left (absorb_block (keccak R) rate) bs st) = Ok st' /\ absorbed R rate st dom (concat bs ++ d) st'.
Proof.
  intros Hr Hs Hdom Hbs Hd Hl Hm Es Lm. pose proof (fold_g_ok R rate bs ltac:(lia) st Hs Hbs) as HF.
  rewrite FastAbsorb_ok by (auto; lia). eexists. split; [reflexivity|]. rewrite Es.
  pose proof (last_block_len rate dom d Hl) as LL. pose proof (last_block_bytes rate dom d Hd Hdom) as LB. split.
  - apply xor_lanes_ok; [exact HF|]. apply block_state_ok; [exact LB|lia].
  - unfold absorb. rewrite pad_last by (auto; lia). rewrite fold_left_app. cbn [fold_left].
    unfold absorb_block at 2, block_state. rewrite LL. reflexivity.
Qed.
Lemma Absorb_ok R inp io len rate dom st : rounds_ok R -> (0 < rate <= 200)%nat -> st_ok st -> bytes inp -> (io + len <= length inp)%nat -> is_byte dom ->
  exists st', Absorb R inp io len rate dom st = Ok st' /\ absorbed R rate st dom (slice inp io len) st'.
Proof.
  intros HR Hr Hs Hi HL Hdom. unfold Absorb. replace (0 <? rate)%nat with true by (symmetry; apply Nat.ltb_lt; lia). cbn [safe bind].
  destruct (eager_blocks_ok rate rate (absorb_step (Permute R) rate) (absorb_block (keccak R) rate) st_ok) with (inp := inp) (fuel := len) (s := st) (io := io) (len := len)
    as (bs & rl & E & J & B & R1 & R2 & D); auto; try lia.
  { intros s b o H1 H2 H3. apply step_ok; auto. intros. now apply perm_ok. }
  rewrite E. cbn [bind]. rewrite wcopy_ok by (rewrite ?length_zeros; lia). cbn [bind].
  set (d := slice inp (io + (len - rl)) rl) in *. assert (Ld : length d = rl) by (unfold d; rewrite length_slice; lia).
  assert (Lb : length (splice (zeros 200) 0 d) = 200%nat) by (rewrite length_splice; rewrite length_zeros; lia).
  rewrite put_ok by lia. cbn [bind]. rewrite <- Ld.
  destruct (msg_last rate dom d (splice (zeros 200) 0 d)) as (msg & E1 & E2 & E3 & E4); [lia| | |].
  - now rewrite slice_splice_same by (rewrite length_zeros; lia).
  - intros i Hi'. rewrite nth_splice by (rewrite length_zeros; lia). cbn [Nat.add Nat.leb andb Nat.sub]. replace (i <? length d)%nat with false by (symmetry; apply Nat.ltb_ge; lia).
    apply nth_repeat.
  - rewrite E1. cbn [bind]. rewrite D. apply absorb_last; auto; try lia.
    + unfold d. now apply bytes_slice.
    + apply E4; [apply bytes_splice; [apply bytes_zeros|unfold d; now apply bytes_slice]|exact Hdom].
Qed.

(** * squeezing *)
Lemma iter_ok R k st : st_ok st -> st_ok (Nat.iter k (keccak R) st).
Proof. intros H. induction k as [|k IH]; [exact H|]. exact (keccak_ok R _ IH). Qed.
Lemma iter_r {A} (f : A -> A) k x : Nat.iter k f (f x) = f (Nat.iter k f x).
Proof. induction k as [|k IH]; [reflexivity|]. change (f (Nat.iter k f (f x)) = f (f (Nat.iter k f x))). now rewrite IH. Qed.
Lemma squeeze_app f rate a b A : squeeze f rate (a + b) A = squeeze f rate a A ++ squeeze f rate b (Nat.iter a f A).
Proof.
  revert A. induction a as [|a IH]; intros A; [reflexivity|]. cbn [Nat.add squeeze]. rewrite IH, <- app_assoc. do 2 f_equal.
  change (squeeze f rate b (Nat.iter a f (f A)) = squeeze f rate b (f (Nat.iter a f A))). now rewrite iter_r.
Qed.
Lemma squeeze_len R rate k st : (rate <= 200)%nat -> st_ok st -> length (squeeze (keccak R) rate k st) = (k * rate)%nat.
Proof.
  intros Hr. revert st. induction k as [|k IH]; intros st Hs; [reflexivity|]. cbn [squeeze]. rewrite app_length, IH by now apply keccak_ok.
  rewrite firstn_length. change (lane_bytes st) with (u64_bytes st). rewrite u64_bytes_len. destruct Hs as [-> _]. lia.
Qed.
Lemma splice_nil {A} (l : list A) o : splice l o [] = l.
Proof. unfold splice. cbn [app length]. rewrite Nat.add_0_r. apply firstn_skipn. Qed.
Lemma wcopy_state st out oo n : st_ok st -> (n <= 200)%nat -> (oo + n <= length out)%nat -> wcopy (u64_bytes st) 0 out oo n = Ok (splice out oo (firstn n (lane_bytes st))).
Proof. intros [L _] H1 H2. rewrite wcopy_ok; [reflexivity| |lia]. rewrite u64_bytes_len. lia. Qed.
Lemma firstn_bytes_len st n : st_ok st -> (n <= 200)%nat -> length (firstn n (lane_bytes st)) = n.
Proof. intros [L _] H. rewrite firstn_length. change (lane_bytes st) with (u64_bytes st). rewrite u64_bytes_len. lia. Qed.
Lemma Squeeze_ok R rate k : rounds_ok R -> (rate <= 200)%nat -> forall st out oo, st_ok st -> (oo + k * rate <= length out)%nat ->
  Squeeze R st out oo k rate = Ok (Nat.iter k (keccak R) st, splice out oo (squeeze (keccak R) rate k (keccak R st))).
Proof.
  intros HR Hr. induction k as [|k IH]; intros st out oo Hs HL.
  - cbn [Squeeze squeeze]. rewrite splice_nil. reflexivity.
  - cbn [Squeeze]. rewrite perm_ok by auto. pose proof (keccak_ok R st Hs) as Hs'. rewrite wcopy_state by (auto; lia). cbn [bind].
    pose proof (firstn_bytes_len (keccak R st) rate Hs' Hr) as LF.
    rewrite IH; [|exact Hs'|rewrite length_splice; rewrite ?LF; lia]. f_equal. f_equal.
    + apply iter_r.
    + cbn [squeeze]. replace (oo + rate)%nat with (oo + length (firstn rate (lane_bytes (keccak R st))))%nat by (now rewrite LF). rewrite splice_splice_next; [reflexivity|]. rewrite LF. rewrite squeeze_len by (auto; now apply keccak_ok). lia.
Qed.
(** [n] bytes of the stream *)
Lemma stream_split R rate n A : (0 < rate <= 200)%nat -> st_ok A ->
  firstn n (squeeze (keccak R) rate (n / rate + 1) A) =
  squeeze (keccak R) rate (n / rate) A ++ firstn (n - n / rate * rate) (lane_bytes (Nat.iter (n / rate) (keccak R) A)).
Proof.
  intros Hr Hs. set (q := (n / rate)%nat). assert (Hq : (q * rate <= n < q * rate + rate)%nat) by (unfold q; pose proof (Nat.div_mod n rate); pose proof (Nat.mod_upper_bound n rate); lia).
  rewrite squeeze_app. rewrite firstn_app, squeeze_len by (auto; lia). rewrite firstn_all2 by (rewrite squeeze_len; auto; lia). f_equal.
  cbn [squeeze]. rewrite app_nil_r, firstn_firstn, Nat.min_l by lia. reflexivity.
Qed.
