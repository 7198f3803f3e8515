(** The parallel MAC: the leaves are eight sponges, the root a ninth. *)
From Verif Require Import BaseLemmas Spec_Common Spec_Feed Spec_Keccak Model_IntegerTools Proofs_IntegerTools Model_Modes Model_Absorb Model_Keccak Proofs_Windows Proofs_Absorb Proofs_SHA2obj
  Proofs_Keccak Proofs_Sponge Proofs_SHA3 Proofs_XOF Proofs_KMAC Spec_KPA Model_KPA.
Open Scope Z_scope.

Lemma r12 : rounds_ok 12. Proof. split; [lia|reflexivity]. Qed.
Lemma each_ok {A B} (f : A -> res B) (g : A -> B) l : (forall x, In x l -> f x = Ok (g x)) -> each f l = Ok (map g l).
Proof.
  induction l as [|x l IH]; intros H; [reflexivity|]. cbn [each map]. rewrite H by now left. cbn [bind]. rewrite IH by (intros y Hy; apply H; now right). reflexivity.
Qed.
Lemma combine_fst {B} (F : nat * B -> B) (l : list B) : forall s, combine (seq s (length l)) (map F (combine (seq s (length l)) l)) = map (fun p => (fst p, F p)) (combine (seq s (length l)) l).
Proof. induction l as [|x l IH]; intros s; [reflexivity|]. cbn [length seq combine map fst]. now rewrite IH. Qed.
Lemma combine_snd {B} (l : list B) : forall s, map snd (combine (seq s (length l)) l) = l.
Proof. induction l as [|x l IH]; intros s; [reflexivity|]. cbn [length seq combine map snd]. now rewrite IH. Qed.
Lemma combine_in {B} (l : list B) (p : nat * B) : length l = 8%nat -> In p (combine (seq 0 8) l) -> (fst p < 8)%nat /\ In (snd p) l.
Proof. intros L H. destruct p as [i x]. split; [apply in_combine_l in H; apply in_seq in H; cbn [fst]; lia|now apply in_combine_r in H]. Qed.

Section leaves.
Context (rate : nat).
Hypothesis Hr : (11 <= rate <= 190)%nat.
Definition leaves_ok (A : list (list Z)) : Prop := length A = 8%nat /\ Forall st_ok A.
(** one block of eight times the rate *)
Definition lstep (A : list (list Z)) (b : list Z) : list (list Z) :=
  map (fun p => absorb_block (keccak 12) rate (snd p) (slice b (fst p * rate) rate)) (combine (seq 0 8) A).
Lemma lstep_ok A b : leaves_ok A -> bytes b -> length b = (rate * 8)%nat -> leaves_ok (lstep A b).
Proof.
  intros [L F] B Lb. split; [unfold lstep; rewrite map_length, combine_length, seq_length; lia|]. apply Forall_forall. intros x Hx. apply in_map_iff in Hx. destruct Hx as (p & <- & Hp).
  apply combine_in in Hp; [|exact L]. destruct Hp as [H1 H2]. rewrite Forall_forall in F. apply g_ok; [lia|now apply F|now apply bytes_slice|rewrite length_slice; nia].
Qed.
Lemma absorb8_ok A inp io : leaves_ok A -> bytes inp -> (io + rate * 8 <= length inp)%nat ->
  exists l, FastAbsorbx8 rate A inp io = Ok l /\ KpaPermutex8 l = lstep A (slice inp io (rate * 8)).
Proof.
  intros [L F] B H. unfold FastAbsorbx8, KPA_PARALLELISM. rewrite Forall_forall in F.
  rewrite (each_ok _ (fun p => xor_lanes (snd p) (block_state (slice inp (io + fst p * rate) rate)))).
  2:{ intros p Hp. apply combine_in in Hp; [|exact L]. destruct Hp as [H1 H2]. apply FastAbsorb_ok; auto; [nia|lia]. }
  eexists. split; [reflexivity|]. unfold KpaPermutex8, lstep. rewrite map_map. apply map_ext_in. intros p Hp. apply combine_in in Hp; [|exact L]. destruct Hp as [H1 H2].
  assert (LS : length (slice inp (io + fst p * rate) rate) = rate) by (rewrite length_slice; nia).
  rewrite perm_ok; [|apply r12|apply xor_lanes_ok; [now apply F|apply block_state_ok; [now apply bytes_slice|lia]]].
  assert (E : slice (slice inp io (rate * 8)) (fst p * rate) rate = slice inp (io + fst p * rate) rate).
  { apply (list_ext 0); [rewrite !length_slice; rewrite ?length_slice; nia|]. intros i Hi. rewrite length_slice in Hi by (rewrite length_slice; nia). rewrite !BaseLemmas.nth_slice; try nia. f_equal. lia. }
  rewrite E. symmetry. apply (g_eq 12 rate). exact LS.
Qed.
Definition kg (s : list (list Z) * nat) (b : list Z) : list (list Z) * nat := (lstep (fst s) b, (snd s + rate * 8)%nat).
Lemma kpa_block_ok s b o : leaves_ok (fst s) -> bytes b -> (o + rate * 8 <= length b)%nat ->
  kpa_block rate s b o = Ok (kg s (slice b o (rate * 8))) /\ leaves_ok (fst (kg s (slice b o (rate * 8)))).
Proof.
  intros H1 H2 H3. unfold kpa_block. destruct (absorb8_ok (fst s) b o H1 H2 H3) as (l & -> & E). cbn [bind]. rewrite E. split; [reflexivity|].
  cbn [kg fst]. apply lstep_ok; auto; [now apply bytes_slice|rewrite length_slice; lia].
Qed.
Lemma fold_kg bs : forall A k, fold_left kg bs (A, k) = (fold_left lstep bs A, (k + length bs * (rate * 8))%nat).
Proof.
  induction bs as [|b bs IH]; intros A k; [cbn [fold_left length]; f_equal; lia|]. cbn [fold_left]. unfold kg at 2. cbn [fst snd]. rewrite IH. f_equal. cbn [length]. lia.
Qed.
Lemma fold_lstep bs : forall A, leaves_ok A -> Forall (blk (rate * 8)) bs ->
  fold_left lstep bs A = map (fun p => absorb (keccak 12) rate (snd p) (concat (map (fun b => slice b (fst p * rate) rate) bs))) (combine (seq 0 8) A) /\ leaves_ok (fold_left lstep bs A).
Proof.
  induction bs as [|b bs IH]; intros A HA HB.
  - cbn [fold_left map concat]. split; [|exact HA]. destruct HA as [L _]. transitivity (map snd (combine (seq 0 8) A)).
    + rewrite <- L. symmetry. apply combine_snd.
    + apply map_ext. intros p. reflexivity.
  - inversion HB as [|? ? [B1 B2] HB']; subst. cbn [fold_left]. destruct (IH (lstep A b)) as [E1 E2]; [now apply lstep_ok|exact HB'|]. split; [|exact E2]. rewrite E1. destruct HA as [L F].
    unfold lstep at 1. rewrite <- L at 1 2. rewrite (combine_fst (fun p => absorb_block (keccak 12) rate (snd p) (slice b (fst p * rate) rate))). rewrite map_map, L. cbn [fst snd].
    apply map_ext_in. intros p Hp. apply combine_in in Hp; [|exact L]. destruct Hp as [H1 H2]. cbn [map concat]. unfold absorb.
    assert (LS : length (slice b (fst p * rate) rate) = rate) by (apply length_slice; rewrite B2; clear - H1; nia). rewrite (chunks_app rate); [reflexivity|lia|exact LS].
Qed.
(** a message is its full blocks and a rest *)
Lemma zero_fill_blocks bs d : Forall (blk (rate * 8)) bs -> (length d < rate * 8)%nat ->
  chunks (rate * 8) (zero_fill (rate * 8) (concat bs ++ d)) = bs ++ (if (length d =? 0)%nat then [] else [d ++ zeros (rate * 8 - length d)]).
Proof.
  intros HB Hd. unfold zero_fill. rewrite app_length, (concat_len (rate * 8)) by exact HB. rewrite Nat.add_comm, Nat.mod_add, (Nat.mod_small (length d)) by lia. rewrite <- app_assoc, chunks_concat by (auto; lia). f_equal.
  destruct (Nat.eqb_spec (length d) 0) as [E|E].
  - destruct d; [|discriminate E]. cbn [length app]. rewrite Nat.sub_0_r, Nat.mod_same by lia. reflexivity.
  - rewrite (Nat.mod_small (rate * 8 - length d)) by lia. apply chunk1; [lia|]. rewrite app_length, length_zeros. lia.
Qed.
Lemma kpa_leaves_blocks A bs d : leaves_ok A -> Forall (blk (rate * 8)) bs -> bytes d -> (length d < rate * 8)%nat ->
  kpa_leaves rate A (concat bs ++ d) = (if (length d =? 0)%nat then fold_left lstep bs A else lstep (fold_left lstep bs A) (d ++ zeros (rate * 8 - length d))) /\ leaves_ok (kpa_leaves rate A (concat bs ++ d)).
Proof.
  intros HA HB Bd Hd. set (bs' := bs ++ (if (length d =? 0)%nat then [] else [d ++ zeros (rate * 8 - length d)])).
  assert (HB' : Forall (blk (rate * 8)) bs').
  { apply Forall_app. split; [exact HB|]. destruct (length d =? 0)%nat; constructor; [|constructor]. split; [apply Forall_app; split; [exact Bd|apply bytes_zeros]|rewrite app_length, length_zeros; lia]. }
  destruct (fold_lstep bs' A HA HB') as [E1 E2].
  assert (E : kpa_leaves rate A (concat bs ++ d) = fold_left lstep bs' A).
  { rewrite E1. unfold kpa_leaves, leaf_part. rewrite zero_fill_blocks by assumption. reflexivity. }
  rewrite E. split; [|exact E2]. unfold bs'. rewrite fold_left_app. destruct (length d =? 0)%nat; reflexivity.
Qed.
(** the leaf hashes side by side *)
Lemma collect_ok h t : (h <= 64)%nat -> forall i fb, bytes fb -> Forall st_ok t -> (i * h + length t * h <= length fb)%nat ->
  exists fb', kpa_collect h i t fb = Ok fb' /\ bytes fb' /\ length fb' = length fb /\
  slice fb' 0 (i * h + length t * h) = slice fb 0 (i * h) ++ concat (map (fun st => firstn h (lane_bytes st)) t).
Proof.
  intros Hh. induction t as [|st t IH]; intros i fb B F L.
  - exists fb. cbn [kpa_collect map concat length]. rewrite app_nil_r, Nat.mul_0_l, Nat.add_0_r. auto.
  - inversion F as [|? ? Hs F']; subst. cbn [kpa_collect length] in *. rewrite wcopy_state by (auto; nia). cbn [bind].
    assert (LF : length (firstn h (lane_bytes st)) = h) by (apply firstn_bytes_len; auto; lia).
    destruct (IH (S i) (splice fb (i * h) (firstn h (lane_bytes st)))) as (fb' & E & B' & L' & E').
    + apply bytes_splice; [exact B|]. apply bytes_firstn. exact (u64_bytes_bytes st).
    + exact F'.
    + rewrite length_splice by nia. nia.
    + exists fb'. split; [exact E|]. split; [exact B'|]. split; [rewrite L', length_splice by nia; reflexivity|].
      replace (i * h + S (length t) * h)%nat with (S i * h + length t * h)%nat by lia. rewrite E'. cbn [map concat]. rewrite app_assoc. f_equal.
      apply slice_wcopy_front; rewrite LF; nia.
Qed.
Lemma AbsorbLeaves_ok inp len : bytes inp -> (len <= length inp)%nat ->
  KpaAbsorbLeaves zero_state rate inp 0 len = Ok (absorb (keccak 12) rate zero_state (zero_fill rate (slice inp 0 len))) /\ st_ok (absorb (keccak 12) rate zero_state (zero_fill rate (slice inp 0 len))).
Proof.
  intros B HL. unfold KpaAbsorbLeaves.
  destruct (eager_blocks_ok rate rate (absorb_step (Permute 12) rate) (absorb_block (keccak 12) rate) st_ok) with (inp := inp) (fuel := len) (s := zero_state) (io := 0%nat) (len := len)
    as (bs & rl & E & J & Bb & R1 & R2 & D); auto using zero_state_ok; try lia.
  { intros s b o H1 H2 H3. apply step_ok; auto; try lia. intros. apply perm_ok; [apply r12|assumption]. }
  rewrite E. cbn [bind]. rewrite D. cbn [Nat.add] in *. set (d := slice inp (len - rl) rl) in *. assert (Ld : length d = rl) by (unfold d; rewrite length_slice; lia).
  assert (Bd : bytes d) by (unfold d; now apply bytes_slice).
  assert (EA : absorb (keccak 12) rate zero_state (zero_fill rate (concat bs ++ d)) =
    if (rl =? 0)%nat then fold_left (absorb_block (keccak 12) rate) bs zero_state else absorb_block (keccak 12) rate (fold_left (absorb_block (keccak 12) rate) bs zero_state) (d ++ zeros (rate - rl))).
  { unfold absorb, zero_fill. rewrite app_length, (concat_len rate) by exact Bb. rewrite Ld, Nat.add_comm, Nat.mod_add, (Nat.mod_small rl) by lia. rewrite <- app_assoc, chunks_concat by (auto; lia). rewrite fold_left_app.
    destruct (Nat.eqb_spec rl 0) as [Q|Q].
    - rewrite Q, Nat.sub_0_r, Nat.mod_same by lia. assert (d = []) as -> by (destruct d; [reflexivity|cbn [length] in Ld; lia]). reflexivity.
    - rewrite (Nat.mod_small (rate - rl)) by lia. rewrite chunk1 by (rewrite ?app_length, ?length_zeros; lia). reflexivity. }
  rewrite EA. destruct (Nat.eqb_spec rl 0) as [Q|Q]; [split; [reflexivity|exact J]|].
  rewrite FastAbsorb_ok by (auto; lia). cbn [bind]. fold d.
  assert (SX : st_ok (xor_lanes (fold_left (absorb_block (keccak 12) rate) bs zero_state) (block_state d))) by (apply xor_lanes_ok; [exact J|apply block_state_ok; [exact Bd|lia]]).
  rewrite perm_ok by (try apply r12; exact SX).
  rewrite (g_eq 12 rate) by (rewrite app_length, length_zeros; lia). rewrite block_state_zeros by lia. split; [reflexivity|now apply keccak_ok].
Qed.
(** ** the key schedule *)
Lemma stage_ok s pad st : bytes s -> strlen_ok s -> bytes pad -> length pad = 200%nat -> st_ok st ->
  exists pad', kpa_stage rate s (pad, st) = Ok (pad', absorb (keccak 12) rate st (bytepad (encode_string s) rate)) /\ bytes pad' /\ length pad' = 200%nat /\
  st_ok (absorb (keccak 12) rate st (bytepad (encode_string s) rate)).
Proof.
  intros Bs Ls Bp Lp Hs. unfold kpa_stage. pose proof (rate_left rate ltac:(lia)) as L2. unfold strlen_ok in Ls.
  assert (I0 : sinv 12 rate st [] (pad, 0%nat, st)).
  { split; [lia|]. split; [exact Lp|]. split; [exact Bp|]. split; [congruence|]. exists []. split; [constructor|]. split; reflexivity. }
  destruct (left_step 12 rate st ltac:(lia) [] pad 0%nat st (Z.of_nat rate) I0) as (p1 & -> & I1); [lia|lia|]. cbn [bind]. cbn [app] in I1. rewrite Nat.add_0_l in I1.
  replace (u64 (8 * Z.of_nat (length s))) with (8 * Z.of_nat (length s)) by (unfold u64; rewrite Z.mod_small; lia). pose proof (left_le9 _ Ls) as L9.
  destruct (left_step 12 rate st ltac:(lia) _ _ _ _ (8 * Z.of_nat (length s)) I1) as (p2 & -> & I2); [lia|lia|]. cbn [bind].
  destruct (absorb_str_ok 12 rate st r12 ltac:(lia) Hs _ _ _ _ s I2 Bs) as (((p3 & o3) & s3) & -> & I3). cbn [bind].
  rewrite <- app_assoc in I3. fold (encode_string s) in I3. set (X := left_encode (Z.of_nat rate) ++ encode_string s) in *.
  assert (NX : X <> []) by (unfold X, left_encode; discriminate).
  assert (O5 : (0 < o3 <= rate)%nat /\ length p3 = 200%nat /\ bytes p3) by (destruct I3 as (? & ? & ? & Q & _); specialize (Q NX); auto).
  destruct O5 as (O5 & L3 & B3).
  destruct (clear_from p3 o3) as [p6| |] eqn:E6; [|rewrite clear_from_ok in E6 by lia; discriminate|rewrite clear_from_ok in E6 by lia; discriminate].
  destruct (last_ok 12 rate st ltac:(lia) Hs _ _ _ _ p6 I3 NX E6) as (HL & B6 & L6 & S5 & SX).
  rewrite clear_from_ok in E6 by lia. injection E6 as E6.
  replace (o3 =? 0)%nat with false by (symmetry; apply Nat.eqb_neq; lia). replace (o3 <=? rate)%nat with true by (symmetry; apply Nat.leb_le; lia). cbn [safe bind].
  rewrite wr_ok by (rewrite length_zeros; lia). cbn [bind]. assert (B4 : bytes (splice p3 o3 (zeros (rate - o3)))) by (apply bytes_splice; [exact B3|apply bytes_zeros]).
  assert (L4 : length (splice p3 o3 (zeros (rate - o3))) = 200%nat) by (rewrite length_splice; rewrite ?length_zeros; lia).
  rewrite FastAbsorb_ok by (auto; lia). cbn [bind].
  assert (ES : block_state (slice (splice p3 o3 (zeros (rate - o3))) 0 rate) = block_state (slice p6 0 (round8 o3))).
  { rewrite (slice_wcopy_front p3 o3 (zeros (rate - o3)) rate) by (rewrite ?length_zeros; lia). rewrite block_state_zeros by (rewrite length_slice; lia).
    pose proof (round8_le o3 ltac:(lia)) as R8. rewrite <- E6. replace (slice (slice p3 0 o3 ++ zeros (length p3 - o3)) 0 (round8 o3)) with (slice p3 0 o3 ++ zeros (round8 o3 - o3)); [rewrite block_state_zeros by (rewrite length_slice; lia); reflexivity|].
    apply (list_ext 0); [rewrite length_slice by (rewrite app_length, length_slice, length_zeros; lia); rewrite app_length, length_slice, length_zeros; lia|]. intros i Hi. rewrite app_length, length_slice, length_zeros in Hi by lia.
    rewrite BaseLemmas.nth_slice by lia. cbn [Nat.add]. destruct (Nat.lt_ge_cases i o3) as [Q|Q].
    - rewrite !app_nth1 by (rewrite length_slice; lia). reflexivity.
    - rewrite !app_nth2 by (rewrite length_slice; lia). unfold zeros. now rewrite !nth_repeat. }
  rewrite ES. rewrite perm_ok by (try apply r12; exact SX). rewrite HL. eexists. split; [reflexivity|]. split; [exact B4|]. split; [exact L4|]. rewrite bytepad_fill. fold X. rewrite <- HL. now apply keccak_ok.
Qed.
End leaves.
