(** SHA3 objects, Compute and XOFP1600 against FIPS 202. *)
From Verif Require Import BaseLemmas Spec_Common Spec_Feed Spec_Keccak Model_IntegerTools Proofs_IntegerTools Model_Modes Model_Absorb Model_Keccak Model_SHA3 Proofs_Windows Proofs_Absorb Proofs_SHA2obj Proofs_Keccak Proofs_Sponge
  Session_Digest Proofs_Digest.
Open Scope Z_scope.

Lemma zero_state_ok : st_ok zero_state.
Proof. split; [reflexivity|]. apply Forall_forall. intros x H. apply repeat_spec in H. subst. red. lia. Qed.
Lemma r24 : rounds_ok 24. Proof. split; [lia|reflexivity]. Qed.
(** output no longer than the rate: one block *)
Lemma sponge_short f rate A0 dom m n : (0 < n <= rate)%nat -> (rate <= 200)%nat -> st_ok (absorb f rate A0 (sponge_pad rate dom m)) ->
  sponge f rate A0 dom m n = firstn n (lane_bytes (absorb f rate A0 (sponge_pad rate dom m))).
Proof.
  intros H1 H2 H3. unfold sponge. set (A := absorb _ _ _ _) in *. clearbody A. assert (L : length (lane_bytes A) = 200%nat) by (pose proof (u64_bytes_len A) as Q; destruct H3 as [E _]; rewrite E in Q; exact Q).
  destruct (Nat.eq_dec n rate) as [->|N].
  - rewrite Nat.div_same by lia. cbn [Nat.add squeeze]. rewrite firstn_app, firstn_firstn, Nat.min_id, firstn_length, L, Nat.min_l by lia.
    rewrite Nat.sub_diag. cbn [firstn]. apply app_nil_r.
  - rewrite Nat.div_small by lia. cbn [Nat.add squeeze]. rewrite app_nil_r, firstn_firstn, Nat.min_l by lia. reflexivity.
Qed.
Lemma sponge_pad_bytes rate dom m : is_byte dom -> bytes m -> bytes (sponge_pad rate dom m).
Proof.
  intros H1 H2. unfold sponge_pad. apply Forall_app. split; [exact H2|]. red in H1. destruct (Nat.eqb_spec (rate - length m mod rate) 1).
  - constructor; [|constructor]. red. pose proof (lor_range 8 dom 128 ltac:(lia)). lia.
  - constructor; [exact H1|]. apply Forall_app. split; [apply bytes_zeros|]. constructor; [red; lia|constructor].
Qed.

Section sha3.
Context (rate n : nat).
Hypothesis Hn : (0 < n <= rate)%nat.
Hypothesis Hr : (rate <= 200)%nat.
Definition sha3_hash (m : list Z) : list Z := sponge (keccak 24) rate zero_state 6 m n.
Definition after3 (o : sha3_obj) (m : list Z) : Prop := ainv rate rate (absorb_block (keccak 24) rate) st_ok false zero_state m o.
Lemma step24U st b o : st_ok st -> bytes b -> (o + rate <= length b)%nat ->
  absorb_step PermuteR24P1600U rate st b o = Ok (absorb_block (keccak 24) rate st (slice b o rate)) /\ st_ok (absorb_block (keccak 24) rate st (slice b o rate)).
Proof. apply step_ok; [exact R24_ok|lia]. Qed.
Lemma after3_new : after3 (SHA3_new rate) [].
Proof. apply ainv_start; [lia|exact zero_state_ok|apply bytes_zeros|apply length_zeros]. Qed.
Lemma after3_upd o m p : after3 o m -> p_ok p -> exists o', SHA3_Update rate o (p_in p) (p_off p) (p_len p) = Ok o' /\ after3 o' (m ++ p_data p).
Proof.
  intros H [P1 P2]. eapply (eager_ok rate rate); eauto using step24U. lia.
Qed.
Lemma sha3_len m : length (sha3_hash m) = n.
Proof.
  clear - Hn Hr. unfold sha3_hash, sponge. rewrite firstn_length.
  assert (G : forall k A, length A = 25%nat -> length (squeeze (keccak 24) rate k A) = (k * rate)%nat).
  { induction k as [|k IH]; intros A LA; [reflexivity|]. cbn [squeeze]. rewrite app_length, firstn_length. pose proof (u64_bytes_len A) as Q. change (u64_bytes A) with (lane_bytes A) in Q. rewrite Q, LA, IH; [lia|].
    unfold keccak. clear. assert (G : forall l B, length (fold_left keccak_round (l ++ [23%nat]) B) = 25%nat).
    { intros l B. rewrite fold_left_app. reflexivity. }
    exact (G (seq 0 23) A). }
  rewrite G.
  - assert (n < (n / rate + 1) * rate)%nat; [|lia]. pose proof (Nat.div_mod n rate). pose proof (Nat.mod_upper_bound n rate). nia.
  - unfold absorb. assert (Q : forall l B, length B = 25%nat -> length (fold_left (absorb_block (keccak 24) rate) l B) = 25%nat); [|now apply Q].
    induction l as [|b l IH]; intros B LB; [exact LB|]. cbn [fold_left]. apply IH. unfold absorb_block, keccak.
    assert (G' : forall l B, length (fold_left keccak_round (l ++ [23%nat]) B) = 25%nat). { intros l' B'. rewrite fold_left_app. reflexivity. }
    exact (G' (seq 0 23) _).
Qed.
Lemma HashFinal3_ok buf pos st : st_ok st -> bytes buf -> (pos <= length buf)%nat ->
  SHA3_HashFinal rate buf 0 pos st = Ok (absorb (keccak 24) rate st (sponge_pad rate 6 (slice buf 0 pos))).
Proof.
  intros H1 H2 H3. unfold SHA3_HashFinal. destruct (Absorb_ok 24 buf 0 pos rate 6 st r24 ltac:(lia) H1 H2 ltac:(lia) ltac:(red; lia)) as (st' & -> & H4 & H5).
  cbn [bind]. now rewrite R24_ok, H5.
Qed.
Lemma absorb_split bs d st : Forall (blk rate) bs -> (length d < rate)%nat ->
  absorb (keccak 24) rate (fold_left (absorb_block (keccak 24) rate) bs st) (sponge_pad rate 6 d) = absorb (keccak 24) rate st (sponge_pad rate 6 (concat bs ++ d)).
Proof.
  intros H1 H2. unfold absorb. rewrite pad_last by (auto; lia). pose proof (pad_last rate 6 [] d ltac:(lia) (Forall_nil _) H2) as E. cbn [concat app] in E. rewrite E.
  rewrite fold_left_app. reflexivity.
Qed.
Lemma absorb_ok st m : st_ok st -> bytes m -> st_ok (absorb (keccak 24) rate st (sponge_pad rate 6 m)).
Proof.
  intros H1 H2. destruct (Absorb_ok 24 m 0 (length m) rate 6 st r24 ltac:(lia) H1 H2 ltac:(lia) ltac:(red; lia)) as (st' & _ & H4 & H5).
  rewrite slice_all in H5 by reflexivity. rewrite <- H5. now apply keccak_ok.
Qed.
Lemma clear_from_ok buf pos : (pos <= length buf)%nat -> clear_from buf pos = Ok (slice buf 0 pos ++ zeros (length buf - pos)).
Proof.
  clear. intros H. unfold clear_from. replace (pos <=? length buf)%nat with true by (symmetry; apply Nat.leb_le; lia). cbn [safe bind].
  rewrite wr_ok by (rewrite length_zeros; lia). f_equal. unfold splice, slice. rewrite length_zeros, skipn_all2 by lia. rewrite app_nil_r. reflexivity.
Qed.
Lemma after3_fin o m out oo : after3 o m -> (oo + n <= length out)%nat -> SHA3_Finalize rate n o out oo = Ok (SHA3_new rate, splice out oo (sha3_hash m)).
Proof.
  destruct o as ((st & buf) & pos). intros (I & Bb & Lb & P & bs & Hbs & Hm & Hs) H. unfold SHA3_Finalize.
  replace ((oo <=? length out)%nat && (length out - oo <? n)%nat) with false by (symmetry; apply Bool.andb_false_intro2; apply Nat.ltb_ge; lia).
  cbn [negb guard bind].
  assert (exists buf', (if (pos =? length buf)%nat then Ok buf else clear_from buf pos) = Ok buf' /\ bytes buf' /\ (pos <= length buf')%nat /\ slice buf' 0 pos = slice buf 0 pos) as (buf' & E & B1 & B2 & B3).
  { replace (pos =? length buf)%nat with false by (symmetry; apply Nat.eqb_neq; lia). rewrite clear_from_ok by lia. eexists. split; [reflexivity|].
    assert (LS : length (slice buf 0 pos) = pos) by (rewrite length_slice; lia). split; [|split].
    - apply Forall_app. split; [now apply bytes_slice|apply bytes_zeros].
    - rewrite app_length. lia.
    - unfold slice at 1. cbn [skipn]. rewrite firstn_app, LS, Nat.sub_diag, firstn_all2 by lia. apply app_nil_r. }
  rewrite E. cbn [bind]. rewrite HashFinal3_ok by auto. cbn [bind]. rewrite B3, Hs. assert (LS : length (slice buf 0 pos) = pos) by (rewrite length_slice; lia).
  rewrite absorb_split by (auto; lia). rewrite <- Hm.
  assert (Bm : bytes m). { rewrite Hm. apply Forall_app. split; [|now apply bytes_slice]. clear - Hbs. induction Hbs as [|b bs [Hb _] _ IH]; [constructor|]. cbn [concat]. apply Forall_app. now split. }
  pose proof (absorb_ok zero_state m zero_state_ok Bm) as HA. rewrite wcopy_state by (auto; lia). cbn [bind]. unfold sha3_hash. rewrite sponge_short by auto. reflexivity.
Qed.
Lemma after3_bad o out oo : (oo <= length out)%nat -> (length out < oo + n)%nat -> SHA3_Finalize rate n o out oo = Throw InvalidSize.
Proof.
  destruct o as ((st & buf) & pos). intros H1 H2. unfold SHA3_Finalize.
  replace ((oo <=? length out)%nat && (length out - oo <? n)%nat) with true by (symmetry; apply andb_true_intro; split; [apply Nat.leb_le; lia|apply Nat.ltb_lt; lia]).
  reflexivity.
Qed.
Lemma sha3_hist cs : Forall dcall_ok cs ->
  exists rs, dhistory (SHA3_Update rate) (SHA3_Finalize rate n) (SHA3_Compute rate n) (SHA3_new rate) (SHA3_new rate) cs = Ok rs /\ expected sha3_hash n [] cs rs.
Proof.
  intros H. eapply (history_ok _ _ _ _ after3); eauto using after3_new, after3_upd, after3_fin, after3_bad, sha3_len.
Qed.
End sha3.

(** Keccak::Compute *)
Lemma Compute_ok R inp io len out oo rate : rounds_ok R -> bytes inp -> (io + len <= length inp)%nat -> (67 <= rate < 200)%nat -> (oo + (200 - rate) / 2 <= length out)%nat ->
  Nat.even rate = true ->
  Compute R inp io len out oo rate = Ok (splice out oo (sponge (keccak R) rate zero_state 6 (slice inp io len) ((200 - rate) / 2))).
Proof.
  intros HR Hi HL Hr Ho He. unfold Compute. change (zeros 25) with zero_state.
  destruct (Absorb_ok R inp io len rate 6 zero_state HR ltac:(lia) zero_state_ok Hi HL ltac:(red; lia)) as (st' & -> & H4 & H5). cbn [bind].
  rewrite perm_ok by auto. pose proof (keccak_ok R st' H4) as H6.
  assert (0 < (200 - rate) / 2 <= rate)%nat.
  { pose proof (Nat.div_mod (200 - rate) 2). pose proof (Nat.mod_upper_bound (200 - rate) 2). apply Nat.even_spec in He. destruct He as [k ->]. lia. }
  rewrite wcopy_state by (auto; lia). rewrite sponge_short by (try lia; rewrite <- H5; exact H6). now rewrite H5.
Qed.
(** the words of the state written one by one *)
Lemma put_words_ok st out oo k : st_ok st -> (k <= 25)%nat -> (oo + 8 * k <= length out)%nat ->
  for_up 0 k (fun i out => x <- get st i ;; Le64ToBytes x out (oo + 8 * i)%nat) out = Ok (splice out oo (firstn (8 * k) (lane_bytes st))).
Proof.
  intros [L F] Hk HL.
  assert (P : forall j, (j <= 25)%nat -> length (firstn (8 * j) (lane_bytes st)) = (8 * j)%nat).
  { intros j Hj. rewrite firstn_length. pose proof (u64_bytes_len st) as Q. change (u64_bytes st) with (lane_bytes st) in Q. lia. }
  destruct (for_up_inv (fun i o => o = splice out oo (firstn (8 * i) (lane_bytes st))) (fun i out => x <- get st i ;; Le64ToBytes x out (oo + 8 * i)%nat) 0 k out) as (r & E & Hr).
  - rewrite Nat.mul_0_r, firstn_O. now rewrite splice_nil.
  - intros i o Hi ->. rewrite (get_ok _ _ 0) by lia. cbn [bind]. eexists. split; [|reflexivity].
    unfold Le64ToBytes. rewrite LeToBytes_correct by (rewrite length_splice; rewrite ?P; lia). f_equal.
    replace (oo + 8 * i)%nat with (oo + length (firstn (8 * i) (lane_bytes st)))%nat by (rewrite P; lia).
    rewrite splice_splice_next by (rewrite P, length_le_bytes by lia; lia). f_equal.
    clear - L Hi Hk. assert (G : forall i st, (i < length st)%nat -> firstn (8 * i) (lane_bytes st) ++ le_bytes 8 (nth i st 0) = firstn (8 * S i) (lane_bytes st)); [|apply G; lia].
    clear. induction i as [|i IH]; intros [|x st] H; cbn [length] in H; try lia.
    + unfold lane_bytes. cbn [map concat nth]. rewrite Nat.mul_0_r, firstn_O. change (8 * 1)%nat with 8%nat. rewrite app_nil_l. rewrite firstn_app, firstn_all2 by (rewrite length_le_bytes; lia).
      rewrite length_le_bytes, Nat.sub_diag. cbn [firstn]. now rewrite app_nil_r.
    + unfold lane_bytes. cbn [map concat nth]. fold (lane_bytes st). replace (8 * S i)%nat with (8 + 8 * i)%nat by lia. replace (8 * S (S i))%nat with (8 + 8 * S i)%nat by lia.
      replace 8%nat with (length (le_bytes 8 x)) at 1 5 by apply length_le_bytes. rewrite !firstn_app_2, <- app_assoc. f_equal. apply IH. lia.
  - rewrite E. now rewrite Hr.
Qed.
