(** KMAC against SP 800-185; the stateless form; SHAKE. *)
From Verif Require Import BaseLemmas Spec_Common Proofs_Common Spec_Feed Spec_Keccak Model_IntegerTools Proofs_IntegerTools Model_Modes Model_Absorb Model_Keccak Model_SHAKE Proofs_Windows Proofs_Absorb Proofs_SHA2obj
  Proofs_Keccak Proofs_Sponge Proofs_SHA3 Proofs_XOF Session_Digest Session_KMAC Proofs_KMAC Proofs_KMAC2.
Open Scope Z_scope.

Section gen.
Context (R rate : nat).
Hypothesis Hr : (11 <= rate <= 190)%nat.
(** the function computed, with any number of rounds *)
Definition last_state (A d enc : list Z) : list Z := xor_lanes A (lane_words (kmac_tail rate d enc ++ zeros (200 - rate))).
Lemma tail_is_pad A d enc : (length d + length enc < rate)%nat -> keccak R (last_state A d enc) = absorb (keccak R) rate A (sponge_pad rate 4 (d ++ enc)).
Proof.
  intros H. unfold last_state. rewrite tail_last by exact H. unfold absorb.
  pose proof (pad_last rate 4 [] (d ++ enc) ltac:(lia) (Forall_nil _) ltac:(rewrite app_length; lia)) as E. cbn [concat app] in E. rewrite E. reflexivity.
Qed.
Lemma split_blocks (m : list Z) : let w := (length m / rate * rate)%nat in m = firstn w m ++ skipn w m /\ (length (firstn w m) mod rate = 0)%nat /\ length (skipn w m) = (length m mod rate)%nat.
Proof.
  intros w. pose proof (Nat.div_mod (length m) rate ltac:(lia)). split; [now rewrite firstn_skipn|]. split; [rewrite firstn_length, Nat.min_l by (unfold w; lia); apply Nat.mod_mul; lia|]. rewrite skipn_length. unfold w. lia.
Qed.
Lemma kmac_spec key cust m n : bytes key -> bytes cust -> bytes m -> short key -> short cust -> 8 * Z.of_nat n < 2 ^ 64 -> (length m mod rate + length (right_encode (8 * Z.of_nat n)) < rate)%nat ->
  let w := (length m / rate * rate)%nat in
  firstn n (squeeze (keccak R) rate (n / rate + 1) (keccak R (last_state (absorb (keccak R) rate
    (absorb (keccak R) rate zero_state (bytepad (encode_string kmac_name ++ encode_string cust) rate ++ bytepad (encode_string key) rate)) (firstn w m)) (skipn w m) (right_encode (8 * Z.of_nat n)))))
  = kmac R rate key m n cust.
Proof.
  intros Bk Bc Bm Sk Sc Hn Hf w. destruct (split_blocks m) as (E & M & L). fold w in E, M, L.
  rewrite tail_is_pad by lia. unfold kmac, cshake. cbn [length Nat.add Nat.eqb]. unfold sponge. do 2 f_equal.
  change [75; 77; 65; 67] with kmac_name.
  set (P := bytepad (encode_string kmac_name ++ encode_string cust) rate). set (K := bytepad (encode_string key) rate).
  assert (BP : bytes P). { apply bytepad_bytes; [lia|]. apply Forall_app. split; [apply encode_string_bytes; [repeat (apply Forall_cons; [red; lia|]); apply Forall_nil|red; cbn; lia]|now apply encode_string_bytes]. }
  assert (MP : (length P mod rate = 0)%nat) by (apply bytepad_aligned; lia).
  assert (BK : bytes K) by (apply bytepad_bytes; [lia|now apply encode_string_bytes]).
  assert (MK : (length K mod rate = 0)%nat) by (apply bytepad_aligned; lia).
  rewrite (absorb_app R rate zero_state P K) by (auto; lia). rewrite (sponge_pad_app rate 4 P), (absorb_app R rate _ P) by (auto; lia). rewrite (sponge_pad_app rate 4 K), (absorb_app R rate _ K) by (auto; lia).
  replace (m ++ right_encode (8 * Z.of_nat n)) with (firstn w m ++ skipn w m ++ right_encode (8 * Z.of_nat n)) by (rewrite app_assoc, <- E; reflexivity).
  rewrite (sponge_pad_app rate 4 (firstn w m)), (absorb_app R rate _ (firstn w m)) by (auto; try lia; now apply bytes_firstn). reflexivity.
Qed.
End gen.
Lemma kmac_exact rate key cust m n : (11 <= rate <= 190)%nat -> bytes key -> bytes cust -> bytes m -> short key -> short cust -> 8 * Z.of_nat n < 2 ^ 64 ->
  (length m mod rate + length (right_encode (8 * Z.of_nat n)) < rate)%nat ->
  kmac_out rate (kmac_start rate kmac_name key cust) m n = kmac 24 rate key m n cust.
Proof. intros. unfold kmac_out, kmac_last, kmac_start. cbv zeta. apply (kmac_spec 24 rate); auto. Qed.
Lemma name_fits rate cust : (17 <= rate <= 200)%nat -> short cust -> fits_block rate kmac_name cust.
Proof.
  intros Hr Hc. unfold fits_block. rewrite app_length, rate_left by lia. unfold encode_string. rewrite app_length. change (length (left_encode (8 * Z.of_nat (length kmac_name)))) with 2%nat. cbn [length kmac_name Nat.add Nat.sub].
  rewrite Nat.mod_small by lia. pose proof (left_le9 _ Hc). lia.
Qed.

(** * where the encoded length does not fit *)
(** two tails that agree within the rate *)
Lemma tail_cut rate d1 e1 d2 e2 : firstn rate (d1 ++ e1 ++ [4] ++ zeros rate) = firstn rate (d2 ++ e2 ++ [4] ++ zeros rate) -> kmac_tail rate d1 e1 = kmac_tail rate d2 e2.
Proof. intros H. unfold kmac_tail. cbv zeta. now rewrite H. Qed.
(** the encoded length of a 128 byte tag can be taken for the end of a message *)
Lemma enc128 : right_encode (8 * Z.of_nat 128) = [4; 0; 2].
Proof. reflexivity. Qed.
Lemma kmac_collision rate A m : (11 <= rate <= 190)%nat -> (length m mod rate = rate - 5)%nat -> kmac_out rate A m 128 = kmac_out rate A (m ++ [4; 0; 2]) 128.
Proof.
  intros Hr Hm. unfold kmac_out. replace (kmac_last rate A (m ++ [4; 0; 2]) 128) with (kmac_last rate A m 128); [reflexivity|]. unfold kmac_last. cbv zeta. rewrite enc128. pose proof (Nat.div_mod (length m) rate ltac:(lia)) as D.
  assert (EW : (length (m ++ [4%Z; 0%Z; 2%Z]) / rate = length m / rate)%nat).
  { rewrite app_length. cbn [length]. rewrite D at 1. rewrite Hm. replace (rate * (length m / rate) + (rate - 5) + 3)%nat with (rate - 2 + length m / rate * rate)%nat by lia. rewrite Nat.div_add, Nat.div_small by lia. lia. }
  rewrite EW. set (w := (length m / rate * rate)%nat). assert (LW : (w <= length m)%nat) by (unfold w; lia).
  rewrite firstn_app, skipn_app. replace (w - length m)%nat with 0%nat by lia. rewrite firstn_O, app_nil_r, skipn_O. do 3 f_equal. apply tail_cut.
  assert (LD : length (skipn w m) = (rate - 5)%nat) by (rewrite skipn_length; unfold w; lia). set (d := skipn w m) in *.
  replace (d ++ [4; 0; 2] ++ [4] ++ zeros rate) with ((d ++ [4; 0; 2; 4; 0]) ++ zeros (rate - 1)).
  2:{ rewrite <- app_assoc. f_equal. cbn [app]. do 4 f_equal. destruct rate; [lia|]. cbn [zeros repeat Nat.sub]. now rewrite Nat.sub_0_r. }
  replace ((d ++ [4; 0; 2]) ++ [4; 0; 2] ++ [4] ++ zeros rate) with ((d ++ [4; 0; 2; 4; 0]) ++ [2; 4] ++ zeros rate) by (rewrite <- !app_assoc; reflexivity).
  rewrite !firstn_app. rewrite app_length, LD. cbn [length]. replace (rate - (rate - 5 + 5))%nat with 0%nat by lia. rewrite !firstn_O. reflexivity.
Qed.
(** with one byte left only the first byte of the encoded length counts *)
Lemma kmac_prefix rate A m n1 n2 : (11 <= rate <= 190)%nat -> (length m mod rate = rate - 1)%nat -> (n1 <= n2)%nat -> hd 0 (right_encode (8 * Z.of_nat n1)) = hd 0 (right_encode (8 * Z.of_nat n2)) -> st_ok A -> bytes m -> 8 * Z.of_nat n2 < 2 ^ 64 ->
  kmac_out rate A m n1 = firstn n1 (kmac_out rate A m n2).
Proof.
  intros Hr Hm Hn Hh HA Bm Hb. unfold kmac_out. assert (EL : kmac_last rate A m n1 = kmac_last rate A m n2).
  { unfold kmac_last. cbv zeta. do 3 f_equal. apply tail_cut. pose proof (Nat.div_mod (length m) rate ltac:(lia)) as D. set (w := (length m / rate * rate)%nat).
    assert (LD : length (skipn w m) = (rate - 1)%nat) by (rewrite skipn_length; unfold w; lia). set (d := skipn w m) in *.
    assert (G : forall v, right_encode v = hd 0 (right_encode v) :: tl (right_encode v)).
    { intros v. pose proof (right_len v). destruct (right_encode v); [discriminate|reflexivity]. }
    rewrite (G (8 * Z.of_nat n1)), (G (8 * Z.of_nat n2)), Hh. rewrite !firstn_app, LD. f_equal. replace (rate - (rate - 1))%nat with 1%nat by lia. cbn [app firstn]. reflexivity. }
  rewrite EL. set (B := keccak 24 (kmac_last rate A m n2)).
  rewrite firstn_firstn, Nat.min_l by lia.
  assert (SB : st_ok B).
  { apply keccak_ok. unfold kmac_last. cbv zeta. pose proof (split_blocks rate ltac:(lia) m) as (E & M & L). apply xor_lanes_ok.
    - apply absorb_blocks_ok; auto; [lia|now apply bytes_firstn].
    - assert (BB : bytes (kmac_tail rate (skipn (length m / rate * rate) m) (right_encode (8 * Z.of_nat n2)))) by (apply kmac_tail_bytes; [now apply bytes_skipn|now apply right_bytes]).
      pose proof (block_state_ok _ BB) as Q. unfold block_state in Q. rewrite kmac_tail_len in Q by lia. apply Q. lia. }
  assert (LE : (n1 / rate <= n2 / rate)%nat) by (apply Nat.div_le_mono; lia).
  replace (n2 / rate + 1)%nat with (n1 / rate + 1 + (n2 / rate - n1 / rate))%nat by lia. rewrite (squeeze_app (keccak 24) rate (n1 / rate + 1)), firstn_app.
  rewrite (squeeze_len 24 rate (n1 / rate + 1) B) by (auto; lia). replace (n1 - (n1 / rate + 1) * rate)%nat with 0%nat; [now rewrite firstn_O, app_nil_r|].
  pose proof (Nat.div_mod n1 rate ltac:(lia)). pose proof (Nat.mod_upper_bound n1 rate ltac:(lia)). lia.
Qed.

(** * the stateless form *)
Lemma MACP_ok R key cust msg io len out rate : rounds_ok R -> (64 <= rate <= 190)%nat -> bytes key -> bytes cust -> bytes msg -> short key -> short cust -> short out -> (io + len <= length msg)%nat ->
  (0 < len mod rate)%nat -> (len mod rate + length (right_encode (8 * Z.of_nat (length out))) < rate)%nat ->
  MACP1600 R key cust msg io len out rate = Ok (kmac R rate key (slice msg io len) (length out) cust) /\ length (kmac R rate key (slice msg io len) (length out) cust) = length out.
Proof.
  intros HR Hr Bk Bc Bm Sk Sc So HL Hp Hf. unfold MACP1600. replace (0 <? rate)%nat with true by (symmetry; apply Nat.ltb_lt; lia). cbn [safe bind]. change [0x4B; 0x4D; 0x41; 0x43] with kmac_name. change (zeros 25) with zero_state.
  assert (Bn : bytes kmac_name) by (repeat (apply Forall_cons; [red; lia|]); apply Forall_nil). assert (Sn : short kmac_name) by (red; cbn; lia).
  destruct (Customize_ok R cust kmac_name rate zero_state HR ltac:(lia) zero_state_ok Bc Bn Sc Sn (name_fits rate cust ltac:(lia) Sc)) as [-> S1]. cbn [bind].
  destruct (load_key_ok R key rate _ HR ltac:(lia) S1 Bk Sk) as (pad & -> & BP & LP & S2). cbn [bind].
  set (A := absorb (keccak R) rate (absorb (keccak R) rate zero_state (bytepad (encode_string kmac_name ++ encode_string cust) rate)) (bytepad (encode_string key) rate)) in *.
  destruct (eager_blocks_ok rate rate (absorb_step (Permute R) rate) (absorb_block (keccak R) rate) st_ok) with (inp := msg) (fuel := len) (s := A) (io := io) (len := len)
    as (bs & rl & E & J & B & R1 & R2 & D); auto; try lia.
  { intros s b o H1 H2 H3. apply step_ok; auto; try lia. intros. now apply perm_ok. }
  rewrite E. cbn [bind]. set (d := slice msg (io + (len - rl)) rl) in *. assert (Ld : length d = rl) by (unfold d; rewrite length_slice; lia). assert (Bd : bytes d) by (unfold d; now apply bytes_slice).
  assert (LM : length (slice msg io len) = len) by (apply length_slice; lia).
  assert (ER : (len mod rate = rl)%nat). { rewrite <- LM, D, app_length, (concat_len rate), Ld by assumption. rewrite Nat.add_comm, Nat.mod_add, Nat.mod_small by lia. reflexivity. }
  assert (EW : (len / rate * rate = length (concat bs))%nat). { pose proof (Nat.div_mod len rate ltac:(lia)). rewrite <- LM in H at 1. rewrite D, app_length in H. lia. }
  replace (rl =? 0)%nat with false by (symmetry; apply Nat.eqb_neq; lia). rewrite wcopy_ok by lia. cbn [bind]. fold d.
  rewrite clear_from_ok by (rewrite length_splice; lia). cbn [bind].
  replace (slice (splice pad 0 d) 0 rl) with d by (rewrite <- Ld; symmetry; apply slice_splice_same; lia). rewrite length_splice by lia.
  unfold short in So. replace (u64 (Z.of_nat (length out) * 8)) with (8 * Z.of_nat (length out)) by (unfold u64; rewrite Z.mod_small; lia).
  set (enc := right_encode (8 * Z.of_nat (length out))) in *. pose proof (right_le9 _ So) as L9. fold enc in L9.
  rewrite RightEncode_ok by (fold enc; rewrite ?app_length, ?length_zeros; lia). cbn [bind]. fold enc.
  destruct (tail_buffer rate d enc (d ++ zeros (length pad - rl)) Bd ltac:(apply right_bytes; lia) ltac:(lia) ltac:(lia) L9) as (_ & b2 & E2 & b3 & E3 & E4 & B3 & L3); [now rewrite LP, Ld|].
  rewrite Ld in E2. rewrite E2. cbn [bind]. rewrite E3. cbn [bind]. rewrite FastAbsorb_ok by (auto; lia). cbn [bind]. rewrite E4.
  set (st1 := xor_lanes (fold_left (absorb_block (keccak R) rate) bs A) (block_state (kmac_tail rate d enc))).
  assert (S3 : st_ok st1). { apply xor_lanes_ok; [exact J|]. apply block_state_ok; [|rewrite kmac_tail_len; lia]. apply kmac_tail_bytes; [exact Bd|apply right_bytes; lia]. }
  assert (ET : stream R rate st1 (length out) = kmac R rate key (slice msg io len) (length out) cust).
  { pose proof (kmac_spec R rate ltac:(lia) key cust (slice msg io len) (length out) Bk Bc ltac:(now apply bytes_slice) Sk Sc ltac:(lia)) as Q. rewrite LM in Q. specialize (Q ltac:(fold enc; lia)). cbv zeta in Q. rewrite <- Q.
    unfold stream. do 3 f_equal. unfold st1, last_state, block_state. rewrite kmac_tail_len by lia. rewrite EW, D. rewrite firstn_app, firstn_all, Nat.sub_diag, firstn_O, app_nil_r, skipn_app, skipn_all, Nat.sub_diag, skipn_O. cbn [app]. fold enc. f_equal.
    rewrite (absorb_app R rate zero_state); [|lia|apply bytepad_bytes; [lia|apply Forall_app; split; now apply encode_string_bytes]|apply bytepad_aligned; lia].
    fold A. unfold absorb at 1. rewrite <- (app_nil_r (concat bs)), chunks_concat by (auto; lia). rewrite chunks_nil, app_nil_r. reflexivity. }
  rewrite squeeze_loop_ok by (auto; lia). rewrite ET. rewrite <- ET. split; [|apply stream_len; [lia|exact S3]]. f_equal. apply splice_all. apply stream_len; [lia|exact S3].
Qed.
