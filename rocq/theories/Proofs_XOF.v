(** The extendable output functions. *)
From Verif Require Import BaseLemmas Spec_Common Spec_Feed Spec_Keccak Model_IntegerTools Proofs_IntegerTools Model_Modes Model_Absorb Model_Keccak Model_SHAKE Proofs_Windows Proofs_Absorb Proofs_SHA2obj
  Proofs_Keccak Proofs_Sponge Proofs_SHA3.
Open Scope Z_scope.

(** the first [n] bytes of the output stream that starts after one permutation of [st] *)
Definition stream (R rate : nat) (st : list Z) (n : nat) : list Z := firstn n (squeeze (keccak R) rate (n / rate + 1) (keccak R st)).
Lemma stream_len R rate st n : (0 < rate <= 200)%nat -> st_ok st -> length (stream R rate st n) = n.
Proof.
  intros Hr Hs. unfold stream. rewrite firstn_length, squeeze_len by (try lia; now apply keccak_ok).
  assert (n < (n / rate + 1) * rate)%nat; [|lia]. pose proof (Nat.div_mod n rate). pose proof (Nat.mod_upper_bound n rate). nia.
Qed.
Lemma sponge_stream R rate A0 dom m n st' : absorbed R rate A0 dom m st' -> sponge (keccak R) rate A0 dom m n = stream R rate st' n.
Proof. intros [_ H]. unfold sponge, stream. now rewrite H. Qed.
(** number of permutations that [n] bytes take *)
Definition perms (rate n : nat) : nat := ((n + (rate - 1)) / rate)%nat.
Lemma perms_eq rate n : (0 < rate)%nat -> perms rate n = if (n mod rate =? 0)%nat then (n / rate)%nat else S (n / rate).
Proof.
  intros Hr. unfold perms. pose proof (Nat.div_mod n rate ltac:(lia)) as D. pose proof (Nat.mod_upper_bound n rate ltac:(lia)) as M. symmetry. destruct (Nat.eqb_spec (n mod rate) 0) as [E|E].
  - apply (Nat.div_unique _ _ _ (rate - 1)); lia.
  - apply (Nat.div_unique _ _ _ (n mod rate - 1)); [lia|]. rewrite Nat.mul_succ_r. lia.
Qed.

(** Keccak.h:440-447 *)
Lemma squeeze_loop_ok R rate fuel : rounds_ok R -> (0 < rate <= 200)%nat -> forall st out oo n, (n <= fuel)%nat -> st_ok st -> (oo + n <= length out)%nat ->
  squeeze_loop fuel R st out oo n rate = Ok (splice out oo (stream R rate st n)).
Proof.
  intros HR Hr. induction fuel as [|fuel IH]; intros st out oo n Hf Hs HL.
  - assert (n = 0)%nat by lia. subst. cbn [squeeze_loop]. unfold stream. rewrite firstn_O. now rewrite splice_nil.
  - cbn [squeeze_loop]. destruct (Nat.eqb_spec n 0) as [->|N]; [unfold stream; rewrite firstn_O; now rewrite splice_nil|].
    pose proof (keccak_ok R st Hs) as Hs'. rewrite perm_ok by auto. rewrite wcopy_state by (auto; lia). cbn [bind].
    pose proof (firstn_bytes_len (keccak R st) (Nat.min rate n) Hs' ltac:(lia)) as LF.
    rewrite IH by (auto; try lia; rewrite length_splice; lia). f_equal.
    replace (oo + Nat.min rate n)%nat with (oo + length (firstn (Nat.min rate n) (lane_bytes (keccak R st))))%nat by lia.
    rewrite splice_splice_next by (rewrite LF, stream_len by auto; lia). f_equal. unfold stream.
    destruct (Nat.leb_spec rate n) as [L|L].
    + rewrite Nat.min_l by lia. replace (n / rate)%nat with (S ((n - rate) / rate)).
      2:{ replace n with (n - rate + 1 * rate)%nat at 2 by lia. rewrite Nat.div_add by lia. lia. }
      cbn [Nat.add squeeze]. rewrite firstn_app, firstn_bytes_len by (auto; lia). rewrite firstn_firstn, Nat.min_r by lia. reflexivity.
    + rewrite Nat.min_r by lia. rewrite Nat.sub_diag, firstn_O, app_nil_r. rewrite Nat.div_small by lia. cbn [Nat.add squeeze]. rewrite app_nil_r, firstn_firstn, Nat.min_l by lia. reflexivity.
Qed.
(** Squeeze of the whole blocks and then a partial block *)
Lemma two_part R rate st out oo n : rounds_ok R -> (0 < rate <= 200)%nat -> st_ok st -> (oo + n <= length out)%nat ->
  splice (splice out oo (squeeze (keccak R) rate (n / rate) (keccak R st))) (oo + n / rate * rate) (firstn (n - n / rate * rate) (lane_bytes (keccak R (Nat.iter (n / rate) (keccak R) st))))
  = splice out oo (stream R rate st n).
Proof.
  intros HR Hr Hs HL. pose proof (keccak_ok R st Hs) as Hs'. unfold stream. rewrite stream_split by auto. rewrite <- iter_r.
  assert (Hq : (n / rate * rate <= n < n / rate * rate + rate)%nat) by (pose proof (Nat.div_mod n rate); pose proof (Nat.mod_upper_bound n rate); nia).
  set (q := (n / rate)%nat) in *. replace (oo + q * rate)%nat with (oo + length (squeeze (keccak R) rate q (keccak R st)))%nat by (rewrite squeeze_len; auto; lia).
  apply splice_splice_next. rewrite squeeze_len, firstn_bytes_len by (auto; try lia; now apply iter_ok). lia.
Qed.
Lemma XOF_ok R inp io len out oo olen rate : rounds_ok R -> (0 < rate <= 198)%nat -> bytes inp -> (io + len <= length inp)%nat -> (oo + olen <= length out)%nat ->
  XOFP1600 R inp io len out oo olen rate = Ok (splice out oo (shake R rate (slice inp io len) olen)).
Proof.
  intros HR Hr Hi HL HO. unfold XOFP1600. replace (0 <? rate)%nat with true by (symmetry; apply Nat.ltb_lt; lia). cbn [safe bind]. change (zeros 25) with zero_state.
  destruct (eager_blocks_ok rate rate (absorb_step (Permute R) rate) (absorb_block (keccak R) rate) st_ok) with (inp := inp) (fuel := len) (s := zero_state) (io := io) (len := len)
    as (bs & rl & E & J & B & R1 & R2 & D); auto; try lia; try exact zero_state_ok.
  { intros s b o H1 H2 H3. apply step_ok; auto; try lia. intros. now apply perm_ok. }
  rewrite E. cbn [bind]. rewrite wcopy_ok by (rewrite ?length_zeros; lia). cbn [bind].
  set (d := slice inp (io + (len - rl)) rl) in *. assert (Ld : length d = rl) by (unfold d; rewrite length_slice; lia). rewrite <- Ld.
  assert (Bd : bytes d) by (unfold d; now apply bytes_slice).
  assert (Lb : length (splice (zeros 200) 0 d) = 200%nat) by (rewrite length_splice; rewrite length_zeros; lia).
  rewrite put_ok by lia. cbn [bind].
  assert (EW : wr (upd (splice (zeros 200) 0 d) (length d) 31) (length d + 1) (zeros (rate - length d + 1)) = Ok (upd (splice (zeros 200) 0 d) (length d) 31)).
  { rewrite wr_ok by (rewrite length_upd, length_zeros; lia). f_equal. apply (list_ext 0); [rewrite length_splice by (rewrite length_upd, length_zeros; lia); reflexivity|].
    intros i Hlt. rewrite length_splice in Hlt by (rewrite length_upd, length_zeros; lia). rewrite length_upd in Hlt.
    rewrite nth_splice by (rewrite length_upd, length_zeros; lia). rewrite length_zeros.
    destruct (Nat.ltb_spec i (length d + 1)); [reflexivity|]. destruct (Nat.ltb_spec i (length d + 1 + (rate - length d + 1))); [|reflexivity].
    rewrite nth_upd_other by lia. rewrite nth_splice by (rewrite length_zeros; lia).
    unfold zeros. rewrite !nth_repeat. cbn [Nat.add]. replace (i <? length d)%nat with false by (symmetry; apply Nat.ltb_ge; lia). now destruct (i <? 0)%nat. }
  rewrite EW. cbn [bind].
  destruct (msg_last rate 31 d (splice (zeros 200) 0 d)) as (msg & E1 & E2 & E3 & E4); [lia| | |].
  { now rewrite slice_splice_same by (rewrite length_zeros; lia). }
  { intros i Hi'. rewrite nth_splice by (rewrite length_zeros; lia). cbn [Nat.add Nat.leb andb Nat.sub]. replace (i <? length d)%nat with false by (symmetry; apply Nat.ltb_ge; lia).
    apply nth_repeat. }
  assert (Bm : bytes msg) by (apply E4; [apply bytes_splice; [apply bytes_zeros|exact Bd]|red; lia]).
  rewrite E1. cbn [bind]. destruct (absorb_last R rate 31 zero_state bs d msg) as (st' & -> & HA); auto; try lia; try exact zero_state_ok; try (red; lia).
  cbn [bind]. rewrite <- D in HA. unfold shake. rewrite (sponge_stream _ _ _ _ _ _ _ HA). destruct HA as [Hs' _].
  assert (Hq : (olen / rate * rate <= olen < olen / rate * rate + rate)%nat) by (pose proof (Nat.div_mod olen rate); pose proof (Nat.mod_upper_bound olen rate); nia).
  rewrite Squeeze_ok by (auto; lia). cbn [bind]. rewrite <- two_part by (auto; lia).
  pose proof (squeeze_len R rate (olen / rate) (keccak R st') ltac:(lia) (keccak_ok R st' Hs')) as LQ.
  pose proof (iter_ok R (olen / rate) st' Hs') as HI. pose proof (keccak_ok R _ HI) as HI'.
  destruct (Nat.eqb_spec (olen - olen / rate * rate) 0) as [Z0|Z0].
  - rewrite Z0, firstn_O, splice_nil. reflexivity.
  - rewrite perm_ok by auto. set (rest := (olen - olen / rate * rate)%nat) in *. set (A := keccak R (Nat.iter (olen / rate) (keccak R) st')) in *.
    set (fnl := if (rest mod 8 =? 0)%nat then (rest / 8)%nat else (rest / 8 + 1)%nat).
    assert (Hf : (rest <= 8 * fnl <= 200)%nat).
    { assert (rest < 199)%nat by lia. unfold fnl. pose proof (Nat.div_mod rest 8). pose proof (Nat.mod_upper_bound rest 8). destruct (Nat.eqb_spec (rest mod 8) 0); lia. }
    pose proof (put_words_ok A msg 0 fnl HI' ltac:(lia) ltac:(lia)) as EP. cbn [Nat.add] in EP. rewrite EP. cbn [bind].
    assert (LF : length (firstn (8 * fnl) (lane_bytes A)) = (8 * fnl)%nat) by (apply firstn_bytes_len; [exact HI'|lia]).
    rewrite wcopy_ok; [|rewrite length_splice; lia|rewrite length_splice; lia]. do 2 f_equal.
    transitivity (firstn rest (slice (splice msg 0 (firstn (8 * fnl) (lane_bytes A))) 0 (8 * fnl))).
    + unfold slice. cbn [skipn]. rewrite firstn_firstn, Nat.min_l by lia. reflexivity.
    + rewrite <- LF at 2. rewrite slice_splice_same by lia. rewrite firstn_firstn, Nat.min_l by lia. reflexivity.
Qed.

(** * SHAKE *)
Lemma SHAKE_Expand_ok rate o out oo n : (0 < rate <= 200)%nat -> st_ok (sk_state o) -> (oo + n <= length out)%nat ->
  SHAKE_Expand rate o out oo n = Ok (Shake (Nat.iter (perms rate n) (keccak 24) (sk_state o)) (sk_counter o + if (n mod rate =? 0)%nat then 0 else 1) (sk_domain o) (sk_init o), splice out oo (stream 24 rate (sk_state o) n)).
Proof.
  intros Hr Hs HL. unfold SHAKE_Expand.
  assert (Hq : (n / rate * rate <= n < n / rate * rate + rate)%nat) by (pose proof (Nat.div_mod n rate); pose proof (Nat.mod_upper_bound n rate); nia).
  assert (Hm : (n mod rate = n - n / rate * rate)%nat) by (pose proof (Nat.div_mod n rate); nia).
  assert (E : (if (rate <=? n)%nat then r <- Squeeze 24 (sk_state o) out oo (n / rate) rate ;; Ok (fst r, snd r, (oo + n / rate * rate)%nat, (n - n / rate * rate)%nat) else Ok (sk_state o, out, oo, n))
    = Ok (Nat.iter (n / rate) (keccak 24) (sk_state o), splice out oo (squeeze (keccak 24) rate (n / rate) (keccak 24 (sk_state o))), (oo + n / rate * rate)%nat, (n - n / rate * rate)%nat)).
  { destruct (Nat.leb_spec rate n).
    - rewrite Squeeze_ok by (auto using r24; lia). reflexivity.
    - rewrite Nat.div_small by lia. cbn [Nat.iter nat_rect squeeze Nat.mul]. rewrite splice_nil, Nat.add_0_r, Nat.sub_0_r. reflexivity. }
  rewrite E. cbn [bind]. rewrite <- two_part by (auto using r24; lia). rewrite perms_eq, Hm by lia.
  destruct (Nat.eqb_spec (n - n / rate * rate) 0) as [Z0|Z0].
  - rewrite Z0, firstn_O, splice_nil, Nat.add_0_r. reflexivity.
  - pose proof (iter_ok 24 (n / rate) _ Hs) as HI. rewrite perm_ok by auto using r24.
    rewrite wcopy_state; [|now apply keccak_ok|lia|rewrite length_splice by (rewrite squeeze_len by (try lia; now apply keccak_ok); lia); lia].
    cbn [bind]. reflexivity.
Qed.
