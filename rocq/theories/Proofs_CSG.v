(** Expand, and the CSG object. *)
From Verif Require Import BaseLemmas Spec_Common Proofs_Common Spec_Feed Spec_Keccak Spec_CSG Model_IntegerTools Model_Modes Model_Absorb Model_Keccak Model_CSG Proofs_Windows Proofs_Absorb Proofs_SHA2obj
  Proofs_Keccak Proofs_Sponge Proofs_SHA3 Proofs_XOF Session_KMAC Proofs_KMAC Proofs_KMAC2 Proofs_SHAKE Session_CSG.
Open Scope Z_scope.

(** * Expand *)
Section expand.
Context {C : Type} (fill : C -> list Z -> res (C * list Z)) (B : nat) (I : C * list Z -> Prop).
Hypothesis HB : (0 < B)%nat.
Definition fstep (x : C * list Z) : C * list Z := match fill (fst x) (snd x) with Ok y => y | _ => x end.
Hypothesis HF : forall x, I x -> length (snd x) = B -> fill (fst x) (snd x) = Ok (fstep x) /\ I (fstep x) /\ length (snd (fstep x)) = B.
Definition bf (n : nat) : nat := ((n + B - 1) / B)%nat.
Fixpoint made (k : nat) (x : C * list Z) : list Z := match k with O => [] | S k => snd (fstep x) ++ made k (fstep x) end.
Definition wipe (av : nat) (V : list Z) : list Z := if (av =? 0)%nat then V else zeros (B - av) ++ skipn (B - av) V.
Lemma bf_0 : bf 0 = 0%nat.
Proof. unfold bf. apply Nat.div_small. lia. Qed.
Lemma bf_1 n : (0 < n <= B)%nat -> bf n = 1%nat.
Proof. intros H. unfold bf. symmetry. apply (Nat.div_unique _ _ _ (n - 1)); lia. Qed.
Lemma bf_S n : (B < n)%nat -> bf n = S (bf (n - B)).
Proof. intros H. unfold bf. replace (n + B - 1)%nat with (n - B + B - 1 + 1 * B)%nat by lia. rewrite Nat.div_add by lia. lia. Qed.
Lemma bf_range n : (n <= bf n * B < n + B)%nat.
Proof. unfold bf. pose proof (Nat.div_mod (n + B - 1) B ltac:(lia)). pose proof (Nat.mod_upper_bound (n + B - 1) B ltac:(lia)). nia. Qed.
Lemma iter_I k : forall x, I x -> length (snd x) = B -> I (Nat.iter k fstep x) /\ length (snd (Nat.iter k fstep x)) = B.
Proof. induction k as [|k IH]; intros x H1 H2; [auto|]. destruct (IH x H1 H2) as [H3 H4]. destruct (HF _ H3 H4) as (_ & H5 & H6). exact (conj H5 H6). Qed.
Lemma made_len k : forall x, I x -> length (snd x) = B -> length (made k x) = (k * B)%nat.
Proof. induction k as [|k IH]; intros x H1 H2; [reflexivity|]. destruct (HF x H1 H2) as (_ & H3 & H4). cbn [made]. rewrite app_length, IH, H4 by assumption. lia. Qed.
Lemma iter_shift k x : Nat.iter (S k) fstep x = Nat.iter k fstep (fstep x).
Proof. symmetry. exact (iter_r fstep k x). Qed.
Lemma fill_loop_ok fuel : forall x cached out oo len, (len < fuel)%nat -> I x -> length (snd x) = B -> (oo + len <= length out)%nat ->
  fill_loop fill fuel (fst x) (snd x) cached out oo len =
  Ok (fst (Nat.iter (bf len) fstep x), snd (Nat.iter (bf len) fstep x), if (len =? 0)%nat then cached else (bf len * B - len)%nat, splice out oo (firstn len (made (bf len) x))).
Proof.
  induction fuel as [|fuel IH]; intros x cached out oo len Hf Hx Hl Ho; [lia|]. cbn [fill_loop].
  destruct (Nat.eqb_spec len 0) as [->|N].
  - rewrite bf_0. cbn [Nat.iter nat_rect firstn made]. now rewrite splice_nil.
  - destruct (HF x Hx Hl) as (E & Hy & Ly). rewrite E. cbn [bind]. set (y := fstep x) in *. rewrite (surjective_pairing y) at 1. cbv beta iota. rewrite Ly.
    rewrite wcopy_ok by lia. cbn [bind].
    assert (Lm : length (slice (snd y) 0 (Nat.min B len)) = Nat.min B len) by (apply length_slice; lia).
    rewrite IH; [|lia|exact Hy|exact Ly|rewrite length_splice; lia].
    destruct (Nat.leb_spec len B) as [L|L].
    + rewrite (bf_1 len) by lia. rewrite Nat.min_r by lia. rewrite Nat.sub_diag, bf_0. cbn [Nat.iter nat_rect firstn made Nat.eqb]. fold y. rewrite splice_nil, app_nil_r.
      repeat f_equal; lia.
    + rewrite (bf_S len) by lia. rewrite Nat.min_l by lia. rewrite iter_shift. fold y. cbn [made]. fold y.
      replace (len - B =? 0)%nat with false by (symmetry; apply Nat.eqb_neq; lia).
      assert (Hsp : splice (splice out oo (slice (snd y) 0 B)) (oo + B) (firstn (len - B) (made (bf (len - B)) y)) = splice out oo (firstn len (snd y ++ made (bf (len - B)) y))).
      { rewrite slice_all by lia. replace (oo + B)%nat with (oo + length (snd y))%nat by lia.
        pose proof (made_len (bf (len - B)) y Hy Ly) as LM. pose proof (bf_range (len - B)) as BR.
        rewrite splice_splice_next by (rewrite firstn_length; lia). f_equal. rewrite firstn_app, Ly. f_equal. symmetry. apply firstn_all2. lia. }
      rewrite Hsp. do 3 f_equal. pose proof (bf_range (len - B)). lia.
Qed.
Lemma Expand_ok x cached out oo len : I x -> length (snd x) = B -> (cached <= B)%nat -> (oo + len <= length out)%nat ->
  let k := bf (len - cached) in let y := Nat.iter k fstep x in let av := (cached + k * B - len)%nat in
  Expand fill (fst x) (snd x) cached out oo len =
  Ok (fst y, if (k =? 0)%nat then snd y else wipe av (snd y), av, splice out oo (firstn len (skipn (B - cached) (snd x) ++ made k x))).
Proof.
  intros Hx Hl Hc Ho. cbv zeta. unfold Expand. rewrite Hl. destruct (Nat.ltb_spec cached len) as [L|L].
  - set (m := (len - cached)%nat). assert (Hm : (0 < m)%nat) by (unfold m; lia). pose proof (bf_range m) as BR.
    assert (K0 : (bf m =? 0)%nat = false) by (apply Nat.eqb_neq; intros E; rewrite E in BR; lia).
    assert (Lt : length (skipn (B - cached) (snd x)) = cached) by (rewrite skipn_length; lia).
    assert (E : (if (cached =? 0)%nat then Ok (out, oo, len) else out <- wcopy (snd x) (B - cached) out oo cached ;; Ok (out, (oo + cached)%nat, m))
      = Ok (splice out oo (skipn (B - cached) (snd x)), (oo + cached)%nat, m)).
    { destruct (Nat.eqb_spec cached 0) as [->|N].
      - rewrite Nat.sub_0_r, skipn_all2 by lia. rewrite splice_nil, Nat.add_0_r. unfold m. now rewrite Nat.sub_0_r.
      - rewrite wcopy_ok by lia. cbn [bind]. repeat f_equal. unfold slice. apply firstn_all2. lia. }
    rewrite E. cbn [bind]. rewrite fill_loop_ok; [|lia|exact Hx|exact Hl|rewrite length_splice; lia]. cbn [bind].
    replace (m =? 0)%nat with false by (symmetry; apply Nat.eqb_neq; lia). rewrite K0.
    destruct (iter_I (bf m) x Hx Hl) as [Iy Ly]. set (y := Nat.iter (bf m) fstep x) in *. pose proof (made_len (bf m) x Hx Hl) as LM.
    assert (ES : splice (splice out oo (skipn (B - cached) (snd x))) (oo + cached) (firstn m (made (bf m) x)) = splice out oo (firstn len (skipn (B - cached) (snd x) ++ made (bf m) x))).
    { replace (oo + cached)%nat with (oo + length (skipn (B - cached) (snd x)))%nat by lia. rewrite splice_splice_next by (rewrite firstn_length; lia). f_equal.
      rewrite firstn_app, Lt. rewrite (firstn_all2 (n := len)) by lia. reflexivity. }
    rewrite ES. replace (cached + bf m * B - len)%nat with (bf m * B - m)%nat by lia. rewrite Ly. unfold wipe.
    destruct (Nat.eqb_spec (bf m * B - m) 0) as [E0|E0]; [cbn [bind]; now rewrite E0|].
    rewrite wr_ok by (rewrite length_zeros; lia). cbn [bind]. do 4 f_equal. unfold splice. cbn [firstn app Nat.add]. now rewrite length_zeros.
  - replace (len - cached)%nat with 0%nat by lia. rewrite bf_0. cbn [Nat.iter nat_rect made Nat.mul Nat.eqb]. rewrite wcopy_ok by lia. cbn [bind].
    rewrite app_nil_r. repeat f_equal. lia.
Qed.
End expand.

(** * the sponge *)
Section obj.
Context (rate : nat).
Hypothesis Hr : (0 < rate <= 199)%nat.
Let f := keccak 24.
Lemma load_ok st dom bs d : st_ok st -> is_byte dom -> Forall (blk rate) bs -> bytes d -> (length d < rate)%nat ->
  load rate st dom (concat bs ++ d) = xor_lanes (fold_left (absorb_block f rate) bs st) (lane_words (last_block rate dom d ++ zeros (200 - rate))).
Proof.
  intros Hs Hd Hb Bd Ld. unfold load. rewrite pad_last by (auto; lia). rewrite removelast_last, last_last. reflexivity.
Qed.
Lemma CSG_Absorb_ok inp dom st : st_ok st -> bytes inp -> is_byte dom ->
  CSG_Absorb rate dom inp 0 (length inp) st = Ok (load rate st dom inp) /\ absorbed 24 rate st dom inp (load rate st dom inp).
Proof.
  intros Hs Hi Hdom. unfold CSG_Absorb. replace (0 <? rate)%nat with true by (symmetry; apply Nat.ltb_lt; lia). cbn [safe bind].
  destruct (eager_blocks_ok rate rate (absorb_step (Permute 24) rate) (absorb_block (keccak 24) rate) st_ok) with (inp := inp) (fuel := length inp) (s := st) (io := 0%nat) (len := length inp)
    as (bs & rl & E & J & Bb & R1 & R2 & D); auto; try lia.
  { intros s b o H1 H2 H3. apply step_ok; auto; try lia. intros. apply perm_ok; auto using r24. }
  rewrite E. cbn [bind].
  set (d := slice inp (0 + (length inp - rl)) rl) in *. assert (Ld : length d = rl) by (unfold d; rewrite length_slice; lia).
  assert (Bd : bytes d) by (unfold d; now apply bytes_slice).
  assert (E0 : (if (rl =? 0)%nat then Ok (zeros 200) else wcopy inp (0 + (length inp - rl)) (zeros 200) 0 rl) = Ok (splice (zeros 200) 0 d)).
  { destruct (Nat.eqb_spec rl 0) as [Z0|Z0]; [|apply wcopy_ok; rewrite ?length_zeros; lia]. assert (d = []) as -> by (apply length_zero_iff_nil; lia). now rewrite splice_nil. }
  rewrite E0. cbn [bind].
  assert (Lb : length (splice (zeros 200) 0 d) = 200%nat) by (rewrite length_splice; rewrite length_zeros; lia).
  rewrite put_ok by lia. cbn [bind]. rewrite wr_ok by (rewrite length_upd, length_zeros; lia). cbn [bind].
  assert (EW : splice (upd (splice (zeros 200) 0 d) rl dom) (rl + 1) (zeros (rate - (rl + 1))) = upd (splice (zeros 200) 0 d) rl dom).
  { apply (list_ext 0); [rewrite length_splice by (rewrite length_upd, length_zeros; lia); reflexivity|]. intros i Hi'. rewrite length_splice, length_upd in Hi' by (rewrite length_upd, length_zeros; lia).
    rewrite nth_splice by (rewrite length_upd, length_zeros; lia). rewrite length_zeros.
    destruct (Nat.ltb_spec i (rl + 1)) as [L1|L1]; [reflexivity|]. destruct (Nat.ltb_spec i (rl + 1 + (rate - (rl + 1)))) as [L2|L2]; [|reflexivity].
    rewrite nth_upd_other by lia. rewrite nth_splice by (rewrite length_zeros; lia). unfold zeros. rewrite !nth_repeat. cbn [Nat.add].
    destruct (i <? 0)%nat; [reflexivity|]. replace (i <? length d)%nat with false by (symmetry; apply Nat.ltb_ge; lia). reflexivity. }
  rewrite EW, <- Ld.
  destruct (msg_last rate dom d (splice (zeros 200) 0 d)) as (msg & E1 & E2 & E3 & E4); [lia| | |].
  - now rewrite slice_splice_same by (rewrite length_zeros; lia).
  - intros i Hi'. rewrite nth_splice by (rewrite length_zeros; lia). cbn [Nat.add Nat.leb andb Nat.sub]. replace (i <? length d)%nat with false by (symmetry; apply Nat.ltb_ge; lia).
    apply nth_repeat.
  - rewrite E1. cbn [bind]. rewrite slice_all in D by lia.
    assert (Bm : bytes msg) by (apply E4; [apply bytes_splice; [apply bytes_zeros|exact Bd]|exact Hdom]).
    destruct (absorb_last 24 rate dom st bs d msg ltac:(lia) Hs Hdom Bb Bd ltac:(lia) Bm E2 ltac:(lia)) as (st' & F1 & F2).
    assert (EL : st' = load rate st dom inp).
    { rewrite D. rewrite load_ok by (auto; lia). rewrite FastAbsorb_ok in F1; [|apply fold_g_ok; auto; lia|auto|lia|lia]. injection F1 as <-. rewrite E2. unfold block_state. rewrite last_block_len by lia. reflexivity. }
    rewrite F1, <- D in *. rewrite <- EL. auto.
Qed.
(** * Fill *)
Definition Ist (x : list Z * list Z) : Prop := st_ok (fst x).
Lemma fill_ok x : Ist x -> length (snd x) = rate -> CSG_fill rate (fst x) (snd x) = Ok (f (fst x), firstn rate (lane_bytes (f (fst x)))).
Proof.
  intros H L. unfold CSG_fill. rewrite perm_ok by auto using r24. rewrite wcopy_state; [|now apply keccak_ok|lia|lia]. cbn [bind]. do 2 f_equal.
  apply splice_all. pose proof (keccak_ok 24 _ H). unfold f. rewrite firstn_bytes_len by (auto; lia). lia.
Qed.
Lemma fstep_eq x : Ist x -> length (snd x) = rate -> fstep (CSG_fill rate) x = (f (fst x), firstn rate (lane_bytes (f (fst x)))).
Proof. intros H L. unfold fstep. now rewrite fill_ok. Qed.
Lemma fill_inv x : Ist x -> length (snd x) = rate ->
  CSG_fill rate (fst x) (snd x) = Ok (fstep (CSG_fill rate) x) /\ Ist (fstep (CSG_fill rate) x) /\ length (snd (fstep (CSG_fill rate) x)) = rate.
Proof.
  intros H L. rewrite fstep_eq by assumption. split; [now apply fill_ok|]. pose proof (keccak_ok 24 _ H) as H'. split; [exact H'|]. cbn [snd]. apply firstn_bytes_len; [exact H'|lia].
Qed.
Lemma made_squeeze k : forall x, Ist x -> length (snd x) = rate -> made (CSG_fill rate) k x = squeeze f rate k (f (fst x)).
Proof.
  induction k as [|k IH]; intros x H L; [reflexivity|]. destruct (fill_inv x H L) as (_ & H1 & H2). cbn [made squeeze]. rewrite IH by assumption. now rewrite !fstep_eq by assumption.
Qed.
Lemma iter_state k : forall x, Ist x -> length (snd x) = rate -> fst (Nat.iter k (fstep (CSG_fill rate)) x) = Nat.iter k f (fst x).
Proof.
  induction k as [|k IH]; intros x H L; [reflexivity|]. destruct (iter_I (CSG_fill rate) rate Ist fill_inv k x H L) as [H1 H2].
  change (fst (fstep (CSG_fill rate) (Nat.iter k (fstep (CSG_fill rate)) x)) = f (Nat.iter k f (fst x))). rewrite fstep_eq by assumption. cbn [fst]. now rewrite IH.
Qed.
Lemma iter_buf k x : Ist x -> length (snd x) = rate -> snd (Nat.iter (S k) (fstep (CSG_fill rate)) x) = firstn rate (lane_bytes (f (Nat.iter k f (fst x)))).
Proof.
  intros H L. destruct (iter_I (CSG_fill rate) rate Ist fill_inv k x H L) as [H1 H2].
  change (snd (fstep (CSG_fill rate) (Nat.iter k (fstep (CSG_fill rate)) x)) = firstn rate (lane_bytes (f (Nat.iter k f (fst x))))). rewrite fstep_eq by assumption. cbn [snd]. now rewrite iter_state.
Qed.
(** * the relation *)
Definition grel (o : csg) (g : gen) : Prop :=
  cg_state o = Nat.iter (gn_k g) f (gn_A g) /\ st_ok (gn_A g) /\ length (cg_buf o) = rate /\
  (gn_pos g <= gn_k g * rate)%nat /\ cg_cached o = (gn_k g * rate - gn_pos g)%nat /\ (cg_cached o <= rate)%nat /\
  skipn (rate - cg_cached o) (cg_buf o) = skipn (gn_pos g) (squeeze f rate (gn_k g) (f (gn_A g))) /\
  cg_counter o = gn_since g /\ cg_reseed o = gn_reseeds g /\ cg_domain o = gn_dom g /\ is_byte (gn_dom g) /\ cg_ready o = gn_ready g /\ cg_calls o = gn_calls g.
Lemma grel_new : grel (CSG_new rate) gen_new.
Proof.
  unfold grel, CSG_new, gen_new. cbn [cg_state cg_buf cg_cached cg_counter cg_reseed cg_domain cg_ready cg_calls gn_A gn_k gn_pos gn_since gn_reseeds gn_dom gn_ready gn_calls].
  split; [reflexivity|]. split; [exact zero_state_ok|]. split; [apply length_zeros|]. split; [lia|]. split; [reflexivity|]. split; [lia|]. split; [|repeat split; try reflexivity; red; lia].
  rewrite Nat.sub_0_r, skipn_all2 by (rewrite length_zeros; lia). reflexivity.
Qed.
Lemma outputs_prefix A m K : st_ok A -> (m <= K * rate)%nat -> outputs rate A m = firstn m (squeeze f rate K (f A)).
Proof.
  intros Hs Hm. unfold outputs. fold f. pose proof (keccak_ok 24 A Hs) as Hs'. fold f in Hs'.
  assert (H : forall a b, (m <= a * rate)%nat -> (a <= b)%nat -> firstn m (squeeze f rate a (f A)) = firstn m (squeeze f rate b (f A))).
  { intros a b Ha Hab. replace b with (a + (b - a))%nat by lia. rewrite squeeze_app, firstn_app. unfold f. rewrite squeeze_len by (auto; lia).
    replace (m - a * rate)%nat with 0%nat by lia. rewrite firstn_O, app_nil_r. reflexivity. }
  assert (H1 : (m <= (m / rate + 1) * rate)%nat) by (pose proof (Nat.div_mod m rate ltac:(lia)); pose proof (Nat.mod_upper_bound m rate ltac:(lia)); nia).
  destruct (Nat.le_ge_cases (m / rate + 1) K) as [L|L]; [now apply H|symmetry; now apply H].
Qed.
Lemma blocks_bf n : blocks_for rate n = bf rate n.
Proof. reflexivity. Qed.
Lemma bf_split k pos n : (pos <= k * rate)%nat -> (k * rate - pos <= rate)%nat -> Nat.max k (bf rate (pos + n)) = (k + bf rate (n - (k * rate - pos)))%nat.
Proof.
  intros H1 H2. destruct (Nat.leb_spec n (k * rate - pos)) as [L|L].
  - replace (n - (k * rate - pos))%nat with 0%nat by lia. rewrite bf_0 by lia. rewrite Nat.add_0_r. apply Nat.max_l. pose proof (bf_range rate ltac:(lia) (pos + n)). nia.
  - replace (bf rate (pos + n)) with (k + bf rate (n - (k * rate - pos)))%nat; [lia|]. unfold bf.
    replace (pos + n + rate - 1)%nat with (n - (k * rate - pos) + rate - 1 + k * rate)%nat by lia. rewrite Nat.div_add by lia. lia.
Qed.
Lemma next_len g n : st_ok (gn_A g) -> length (next_bytes rate g n) = n.
Proof. intros H. unfold next_bytes. rewrite skipn_length. change (outputs rate (gn_A g) (gn_pos g + n)) with (stream 24 rate (gn_A g) (gn_pos g + n)). rewrite stream_len by (auto; lia). lia. Qed.
Lemma Expand_gen o g out oo n : grel o g -> (oo + n <= length out)%nat ->
  exists buf cached, Expand (CSG_fill rate) (cg_state o) (cg_buf o) (cg_cached o) out oo n = Ok (Nat.iter (gn_k (advance rate g n)) f (gn_A g), buf, cached, splice out oo (next_bytes rate g n)) /\
  forall c r, grel (Csg (Nat.iter (gn_k (advance rate g n)) f (gn_A g)) buf cached c r (cg_domain o) (cg_ready o) (cg_calls o)) (with_counts (advance rate g n) c r).
Proof.
  intros (H1 & H2 & H3 & H4 & H5 & H6 & H7 & H8 & H9 & H10 & H11 & H12 & H13) HO.
  assert (Hx : Ist (cg_state o, cg_buf o)) by (unfold Ist; cbn [fst]; rewrite H1; now apply iter_ok).
  pose proof (Expand_ok (CSG_fill rate) rate Ist ltac:(lia) fill_inv (cg_state o, cg_buf o) (cg_cached o) out oo n Hx H3 H6 HO) as E. cbv zeta in E. cbn [fst snd] in E.
  set (j := bf rate (n - cg_cached o)) in *.
  assert (EK : gn_k (advance rate g n) = (gn_k g + j)%nat) by (unfold advance; cbn [gn_k]; rewrite blocks_bf, bf_split by lia; unfold j; now rewrite H5).
  rewrite iter_state in E by assumption. cbn [fst] in E. rewrite made_squeeze in E by assumption. cbn [fst] in E.
  assert (ES : Nat.iter j f (cg_state o) = Nat.iter (gn_k (advance rate g n)) f (gn_A g)) by (rewrite H1, iter_add, EK; f_equal; lia). rewrite ES in E.
  pose proof (keccak_ok 24 _ H2) as HA. fold f in HA.
  assert (SQ : squeeze f rate (gn_k g + j) (f (gn_A g)) = squeeze f rate (gn_k g) (f (gn_A g)) ++ squeeze f rate j (f (cg_state o))).
  { rewrite squeeze_app. do 2 f_equal. rewrite H1. apply iter_r. }
  assert (LQ : length (squeeze f rate (gn_k g) (f (gn_A g))) = (gn_k g * rate)%nat) by (apply squeeze_len; [lia|exact HA]).
  assert (LQ2 : length (squeeze f rate (gn_k g + j) (f (gn_A g))) = ((gn_k g + j) * rate)%nat) by (apply squeeze_len; [lia|exact HA]).
  pose proof (bf_range rate ltac:(lia) (n - cg_cached o)) as BR. fold j in BR.
  assert (JZ : (n <= cg_cached o)%nat -> j = 0%nat) by (intros Q; unfold j; replace (n - cg_cached o)%nat with 0%nat by lia; apply bf_0; lia).
  assert (EO : firstn n (skipn (rate - cg_cached o) (cg_buf o) ++ squeeze f rate j (f (cg_state o))) = next_bytes rate g n).
  { unfold next_bytes. rewrite (outputs_prefix _ _ (gn_k g + j)) by (auto; lia). rewrite H7, SQ.
    rewrite <- (firstn_skipn_comm). f_equal. rewrite skipn_app. replace (gn_pos g - length (squeeze f rate (gn_k g) (f (gn_A g))))%nat with 0%nat by lia. reflexivity. }
  rewrite EO in E. eexists _, _. split; [exact E|]. intros c r.
  unfold grel, with_counts. cbn [cg_state cg_buf cg_cached cg_counter cg_reseed cg_domain cg_ready cg_calls gn_A gn_k gn_pos gn_since gn_reseeds gn_dom gn_ready gn_calls].
  change (gn_A (advance rate g n)) with (gn_A g). change (gn_pos (advance rate g n)) with (gn_pos g + n)%nat. change (gn_dom (advance rate g n)) with (gn_dom g).
  change (gn_ready (advance rate g n)) with (gn_ready g). change (gn_calls (advance rate g n)) with (gn_calls g). rewrite EK.
  split; [reflexivity|]. split; [exact H2|].
  destruct (iter_I (CSG_fill rate) rate Ist fill_inv j (cg_state o, cg_buf o) Hx H3) as [Iy Ly].
  assert (Lw : length (if (j =? 0)%nat then snd (Nat.iter j (fstep (CSG_fill rate)) (cg_state o, cg_buf o)) else wipe rate (cg_cached o + j * rate - n) (snd (Nat.iter j (fstep (CSG_fill rate)) (cg_state o, cg_buf o)))) = rate).
  { destruct (j =? 0)%nat; [exact Ly|]. unfold wipe. destruct (_ =? 0)%nat; [exact Ly|]. rewrite app_length, length_zeros, skipn_length, Ly. lia. }
  split; [exact Lw|]. split; [lia|]. split; [lia|]. split; [destruct (Nat.le_gt_cases n (cg_cached o)) as [Q|Q]; [rewrite (JZ Q)|]; lia|]. split; [|auto 10].
  destruct (Nat.eqb_spec j 0) as [J0|J0].
  - rewrite J0 in *. cbn [Nat.iter nat_rect snd Nat.mul]. rewrite !Nat.add_0_r. rewrite Nat.add_comm, <- skipn_skipn, <- H7, skipn_skipn. f_equal. lia.
  - destruct j as [|i]; [lia|]. rewrite iter_buf by assumption. cbn [fst].
    set (V := firstn rate (lane_bytes (f (Nat.iter i f (cg_state o))))).
    assert (LV : length V = rate) by (unfold V; apply firstn_bytes_len; [|lia]; apply keccak_ok, iter_ok; exact Hx).
    assert (EV : squeeze f rate (gn_k g + S i) (f (gn_A g)) = squeeze f rate (gn_k g + i) (f (gn_A g)) ++ V).
    { replace (gn_k g + S i)%nat with (gn_k g + i + 1)%nat by lia. rewrite squeeze_app. f_equal. cbn [squeeze]. rewrite app_nil_r. unfold V. do 2 f_equal.
      rewrite iter_r. f_equal. rewrite H1, iter_add. f_equal. lia. }
    assert (EW : skipn (rate - (cg_cached o + S i * rate - n)) (wipe rate (cg_cached o + S i * rate - n) V) = skipn (rate - (cg_cached o + S i * rate - n)) V).
    { unfold wipe. destruct (Nat.eqb_spec (cg_cached o + S i * rate - n) 0); [reflexivity|]. set (q := (rate - (cg_cached o + S i * rate - n))%nat).
      rewrite skipn_app, length_zeros, Nat.sub_diag. rewrite skipn_all2 by (rewrite length_zeros; lia). reflexivity. }
    rewrite EW, EV. assert (LI : length (squeeze f rate (gn_k g + i) (f (gn_A g))) = ((gn_k g + i) * rate)%nat) by (apply squeeze_len; [lia|exact HA]).
    rewrite (skipn_app (gn_pos g + n)), LI. rewrite (skipn_all2 (n := gn_pos g + n)) by (rewrite LI; lia). cbn [app]. f_equal. lia.
Qed.
Lemma Fill_gen o A : Ist (cg_state o, cg_buf o) -> length (cg_buf o) = rate -> cg_state o = A ->
  CSG_Fill rate o = Ok (Csg (f A) (firstn rate (lane_bytes (f A))) rate (cg_counter o) (cg_reseed o) (cg_domain o) (cg_ready o) (cg_calls o)).
Proof.
  intros H1 H2 <-. unfold CSG_Fill. pose proof (fill_ok (cg_state o, cg_buf o) H1 H2) as E. cbn [fst snd] in E. rewrite E. cbn [bind fst snd].
  pose proof (keccak_ok 24 _ H1) as H'. cbn [fst] in H'. unfold f. rewrite firstn_bytes_len by (auto; lia). reflexivity.
Qed.
(** absorbing a seed and filling the buffer *)
Lemma reseed_ok o g m : grel o g -> bytes m ->
  exists o', CSG_Absorb rate (cg_domain o) m 0 (length m) (cg_state o) = Ok (load rate (cg_state o) (gn_dom g) m) /\
  (forall calls, CSG_Fill rate (Csg (load rate (cg_state o) (gn_dom g) m) (cg_buf o) (cg_cached o) (cg_counter o) (cg_reseed o) (cg_domain o) (cg_ready o) calls) = Ok (o' calls) /\
  grel (o' calls) (Gen (gn_ready (reseed rate g m)) (gn_A (reseed rate g m)) (gn_dom (reseed rate g m)) (gn_k (reseed rate g m)) (gn_pos (reseed rate g m)) (gn_since (reseed rate g m)) (gn_reseeds (reseed rate g m)) calls)).
Proof.
  intros (H1 & H2 & H3 & H4 & H5 & H6 & H7 & H8 & H9 & H10 & H11 & H12 & H13) Bm.
  assert (Hs : st_ok (cg_state o)) by (rewrite H1; now apply iter_ok). rewrite H10.
  destruct (CSG_Absorb_ok m (gn_dom g) (cg_state o) Hs Bm H11) as [E1 [E2 _]]. set (A := load rate (cg_state o) (gn_dom g) m) in *.
  exists (fun calls => Csg (f A) (firstn rate (lane_bytes (f A))) rate (cg_counter o) (cg_reseed o) (gn_dom g) (cg_ready o) calls). split; [exact E1|]. intros calls. split.
  - exact (Fill_gen (Csg A (cg_buf o) (cg_cached o) (cg_counter o) (cg_reseed o) (gn_dom g) (cg_ready o) calls) A E2 H3 eq_refl).
  - unfold grel, reseed. cbn [cg_state cg_buf cg_cached cg_counter cg_reseed cg_domain cg_ready cg_calls gn_A gn_k gn_pos gn_since gn_reseeds gn_dom gn_ready gn_calls].
    fold f. rewrite <- H1. fold A. split; [reflexivity|]. split; [exact E2|]. split; [apply firstn_bytes_len; [now apply keccak_ok|lia]|].
    split; [lia|]. split; [lia|]. split; [lia|]. split; [|auto 10]. rewrite Nat.sub_diag. cbn [skipn squeeze]. now rewrite app_nil_r.
Qed.
End obj.
