(** What the sampled matrix is. *)
From Verif Require Import BaseLemmas Proofs_IntegerTools Proofs_CSX Spec_Keccak Model_Keccak Spec_Kyber Model_Kyber Session_Kyber Proofs_Keccak Proofs_Sponge Proofs_SHA3 Proofs_XOF Proofs_CSX2
  Proofs_Kyber Proofs_Kyber2 Proofs_Kyber3 Proofs_Kyber4 Proofs_Kyber5 Proofs_Kyber6 Proofs_Kyber7 Proofs_Kyber8 Proofs_Kyber9 Proofs_Kyber10 Proofs_Kyber11 Proofs_Kyber13 Proofs_Kyber14 Proofs_Kyber15.
Open Scope Z_scope.
Opaque lay zrs zis L0 I0 scale poly_of FW BW zsum gamma keccak.

Lemma accepted_app a b k : length a = (3 * k)%nat -> accepted (a ++ b) = accepted a ++ accepted b.
Proof. intros L. unfold accepted. rewrite (Proofs_Block.chunks_app_many 3 ltac:(lia) k) by exact L. now rewrite map_app, concat_app, filter_app. Qed.
Lemma shake_prefix r m a b : (0 < r <= 200)%nat -> bytes m -> (a <= b)%nat -> shake 24 r m a = firstn a (shake 24 r m b).
Proof.
  intros Hr Hm Hab. destruct (Absorb_ok 24 m 0 (length m) r 31 zero_state r24 Hr zero_state_ok Hm ltac:(lia) ltac:(red; lia)) as (st & _ & A).
  rewrite slice_all in A by reflexivity. unfold shake. rewrite !(sponge_stream _ _ _ _ _ _ _ A). unfold stream. rewrite firstn_firstn, Nat.min_l by exact Hab.
  assert (D : (a / r <= b / r)%nat) by (apply Nat.div_le_mono; lia). replace (b / r + 1)%nat with ((a / r + 1) + (b / r - a / r))%nat by lia. rewrite (squeeze_app _ _ (a / r + 1) (b / r - a / r)).
  rewrite firstn_app. rewrite squeeze_len by (try lia; apply keccak_ok, A). pose proof (Nat.div_mod a r ltac:(lia)). pose proof (Nat.mod_upper_bound a r ltac:(lia)). replace (a - (a / r + 1) * r)%nat with 0%nat by nia. now rewrite firstn_O, app_nil_r.
Qed.
Lemma seed_bytes seed x y : bytes seed -> (x < 256)%nat -> (y < 256)%nat -> bytes (seed ++ [Z.of_nat x; Z.of_nat y]).
Proof. intros H Hx Hy. apply bytes_app. split; [exact H|]. constructor; [unfold is_byte; lia|constructor; [unfold is_byte; lia|constructor]]. Qed.
Lemma xof_len seed x y n : bytes seed -> (x < 256)%nat -> (y < 256)%nat -> length (xof_bytes seed x y n) = n.
Proof. intros. apply shake_len; [lia|]. now apply seed_bytes. Qed.
Lemma xof_prefix seed x y a b : bytes seed -> (x < 256)%nat -> (y < 256)%nat -> (a <= b)%nat -> xof_bytes seed x y a = firstn a (xof_bytes seed x y b).
Proof. intros. apply shake_prefix; [lia|now apply seed_bytes|assumption]. Qed.
(** more blocks do not change the first 256 values *)
Lemma accepted_prefix seed x y a b : bytes seed -> (x < 256)%nat -> (y < 256)%nat -> (a <= b)%nat -> (256 <= length (accepted (xof_bytes seed x y (3 * a))))%nat ->
  (256 <= length (accepted (xof_bytes seed x y (3 * b))))%nat /\ firstn 256 (accepted (xof_bytes seed x y (3 * b))) = firstn 256 (accepted (xof_bytes seed x y (3 * a))).
Proof.
  intros Hs Hx Hy Hab HL. rewrite <- (firstn_skipn (3 * a) (xof_bytes seed x y (3 * b))). rewrite <- xof_prefix by (auto; lia). rewrite (accepted_app _ _ a) by (now apply xof_len). rewrite app_length. split; [lia|].
  rewrite firstn_app. replace (256 - length (accepted (xof_bytes seed x y (3 * a))))%nat with 0%nat by lia. now rewrite firstn_O, app_nil_r.
Qed.
Lemma sampled_unique seed x y p q : bytes seed -> (x < 256)%nat -> (y < 256)%nat -> sampled seed x y p -> sampled seed x y q -> p = q.
Proof.
  intros Hs Hx Hy (n & L & ->) (k & L' & ->). replace (168 * n)%nat with (3 * (56 * n))%nat in * by lia. replace (168 * k)%nat with (3 * (56 * k))%nat in * by lia.
  destruct (Nat.le_ge_cases n k) as [H|H]; [symmetry; apply (accepted_prefix seed x y (56 * n) (56 * k)); auto; nia|apply (accepted_prefix seed x y (56 * k) (56 * n)); auto; nia].
Qed.
Lemma lane_len st n : st_ok st -> (n <= 200)%nat -> length (firstn n (lane_bytes st)) = n. Proof. apply firstn_bytes_len. Qed.
Lemma lane_b st : bytes (lane_bytes st). Proof. apply Proofs_CSX.concat_le_bytes. Qed.
Lemma ent_sampled F seed x y : bytes seed -> length seed = 32%nat -> (x < 256)%nat -> (y < 256)%nat -> (256 <= length (accepted (xof_bytes seed x y 534)))%nat ->
  ent (S F) seed (Z.of_nat x) (Z.of_nat y) = Some (firstn 256 (accepted (xof_bytes seed x y 534))).
Proof.
  intros Hs Ls Hx Hy HL. unfold ent. set (m := seed ++ [Z.of_nat x; Z.of_nat y]). assert (Bm : bytes m) by (now apply seed_bytes). assert (Lm : length m = 34%nat) by (unfold m; rewrite app_length, Ls; reflexivity).
  destruct (Absorb_ok 24 m 0 34 168 31 zero_state r24 ltac:(lia) zero_state_ok Bm ltac:(lia) ltac:(red; lia)) as (st & E & A). rewrite E. cbv zeta. rewrite slice_all in A by (now symmetry).
  assert (S0 : st_ok st) by apply A. assert (S1 : st_ok (keccak 24 st)) by (now apply keccak_ok). assert (S4 : st_ok (keccak 24 (Nat.iter 3 (keccak 24) st))) by (cbn [Nat.iter nat_rect]; repeat apply keccak_ok; exact S0).
  set (b := squeeze (keccak 24) 168 3 (keccak 24 st)). assert (Lb : length b = 504%nat) by (unfold b; rewrite squeeze_len by (lia || exact S1); reflexivity). assert (Bb : bytes b) by apply squeeze_bytes.
  set (c := lane_bytes (keccak 24 (Nat.iter 3 (keccak 24) st))).
  assert (X : xof_bytes seed x y 534 = b ++ firstn 30 c).
  { unfold xof_bytes, shake. fold m. rewrite (sponge_stream _ _ _ _ _ _ _ A). unfold stream. change (534 / 168 + 1)%nat with (3 + 1)%nat. rewrite squeeze_app. fold b. rewrite firstn_app, Lb. rewrite (firstn_all2 b) by lia. apply (f_equal (app b)). change (534 - 504)%nat with 30%nat. change (Nat.iter 3 (keccak 24) (keccak 24 st)) with (keccak 24 (Nat.iter 3 (keccak 24) st)). cbn [squeeze]. rewrite app_nil_r, firstn_firstn. change (Nat.min 30 168) with 30%nat. reflexivity. }
  rewrite X in *. rewrite (accepted_app _ _ 168) in * by exact Lb. rewrite (kept_ok b 168) by (auto; exact Lb).
  cbn [more]. destruct (Nat.ltb_spec (length (accepted b)) 256) as [H|H].
  - cbv zeta. fold c. assert (Lc : length c = 200%nat) by (pose proof (lane_len _ 200 S4 ltac:(lia)) as Q1; fold c in Q1; rewrite firstn_length in Q1; unfold c; change (lane_bytes (keccak 24 (Nat.iter 3 (keccak 24) st))) with (u64_bytes (keccak 24 (Nat.iter 3 (keccak 24) st))); rewrite u64_bytes_len; destruct S4 as [-> _]; reflexivity). assert (Bc : bytes c) by apply lane_b.
    set (b' := firstn 32 c ++ skipn 32 (slice b 0 168)). assert (E' : b' = firstn 30 c ++ (skipn 30 (firstn 32 c) ++ skipn 32 (slice b 0 168))).
    { unfold b'. rewrite <- (firstn_skipn 30 (firstn 32 c)) at 1. rewrite firstn_firstn. rewrite <- app_assoc. reflexivity. }
    rewrite (kept_ok b' 56). 2:{ unfold b'. apply bytes_app. split; [now apply bytes_firstn|apply bytes_skipn; now apply bytes_slice]. } 2:{ unfold b'. rewrite app_length, firstn_length, skipn_length, length_slice by lia. lia. }
    rewrite E'. rewrite (accepted_app _ _ 10) by (rewrite firstn_length; lia). rewrite (app_assoc (accepted b)). set (u := accepted b ++ accepted (firstn 30 c)) in *. clearbody u. set (w := accepted (skipn 30 (firstn 32 c) ++ skipn 32 (slice b 0 168))). clearbody w.
    assert (Q2 : (length (u ++ w) <? 256)%nat = false) by (apply Nat.ltb_ge; rewrite app_length; lia). assert (Q3 : firstn 256 (u ++ w) = firstn 256 u) by (rewrite firstn_app; replace (256 - length u)%nat with 0%nat by lia; now rewrite firstn_O, app_nil_r).
    destruct F; cbn [more]; rewrite Q2, Q3; reflexivity.
  - rewrite (firstn_app 256 (accepted b)). replace (256 - length (accepted b))%nat with 0%nat by lia. now rewrite firstn_O, app_nil_r.
Qed.
Lemma more_mono F : forall st b acc a k, more F st b acc = Some a -> more (k + F) st b acc = Some a.
Proof.
  induction F as [|F IH]; intros st b acc a k H.
  - cbn [more] in H. rewrite Nat.add_0_r. destruct k; cbn [more]; destruct (length acc <? 256)%nat; try discriminate; exact H.
  - rewrite Nat.add_succ_r. cbn [more] in H |- *. destruct (length acc <? 256)%nat; [|exact H]. now apply IH.
Qed.
Lemma ent_mono F G seed x y a b : ent F seed x y = Some a -> ent G seed x y = Some b -> a = b.
Proof.
  unfold ent. destruct (Absorb _ _ _ _ _ _ _) as [st| |]; try discriminate. cbv zeta. intros H1 H2. apply (more_mono _ _ _ _ _ G) in H1. apply (more_mono _ _ _ _ _ F) in H2. rewrite Nat.add_comm in H1. rewrite H1 in H2. now injection H2.
Qed.
Lemma byte_of_nat i : (i < 256)%nat -> byte_of i = Z.of_nat i. Proof. intros H. unfold byte_of, u8. apply Z.mod_small. lia. Qed.
(** the matrix when every entry is reached in 534 bytes *)
Lemma matrix_sampled F seed tr K : bytes seed -> length seed = 32%nat -> (K <= 256)%nat -> (forall x y, (x < K)%nat -> (y < K)%nat -> (256 <= length (accepted (xof_bytes seed x y 534)))%nat) ->
  exists A, GenMatrix (S F) seed tr K = Ok A /\ length A = K /\ forall i j, (i < K)%nat -> (j < K)%nat -> length (nth i A []) = K /\ sampled seed (if tr then i else j) (if tr then j else i) (nth j (nth i A []) []).
Proof.
  intros Hs Ls HK H. set (e := fun x y => firstn 256 (accepted (xof_bytes seed x y 534))).
  assert (HS : sampled_at (S F) (slice seed 0 32) K e). { rewrite slice_all by (now symmetry). intros x y Hx Hy. rewrite !byte_of_nat by lia. apply ent_sampled; auto; lia. }
  exists (grid K (fun i j => if tr then e i j else e j i)). split; [now apply grid_Matrix; auto; lia|]. split; [unfold grid; now rewrite map_length, seq_length|]. intros i j Hi Hj. unfold grid. rewrite (map_seq_nth _ K i []) by exact Hi. split; [now rewrite map_length, seq_length|]. rewrite (map_seq_nth _ K j []) by exact Hj.
  assert (G : forall x y, (x < K)%nat -> (y < K)%nat -> sampled seed x y (e x y)).
  { intros x y Hx Hy. specialize (H x y Hx Hy). exists 4%nat. change 534%nat with (3 * 178)%nat in H. unfold e. change (168 * 4)%nat with (3 * 224)%nat. change 534%nat with (3 * 178)%nat. destruct (accepted_prefix seed x y 178 224 Hs ltac:(lia) ltac:(lia) ltac:(lia) H) as [H1 H2]. split; [exact H1|now symmetry]. }
  destruct tr; now apply G.
Qed.
(** whatever the seed: the entries are polynomials with coefficients below Q, and the other order is the transpose *)
Lemma matrix_any F seed tr K A : bytes seed -> (32 <= length seed)%nat -> GenMatrix F seed tr K = Ok A ->
  length A = K /\ (forall i j, (i < K)%nat -> (j < K)%nat -> length (nth i A []) = K /\ is_poly (nth j (nth i A []) []) /\ Forall (fun x => 0 <= x < Q) (nth j (nth i A []) [])) /\ GenMatrix F seed (negb tr) K = Ok (transpose K A).
Proof.
  intros Hs L H. assert (E : exists e, sampled_at F (slice seed 0 32) K e /\ A = grid K (fun i j => if tr then e i j else e j i)).
  { apply Matrix_ok in H; auto. apply (F2_seq _ K A []) in H. destruct H as [LA H]. exists (fun x y => if tr then nth y (nth x A []) [] else nth x (nth y A []) []). split.
    - intros x y Hx Hy. destruct tr.
      + specialize (H x Hx). apply (F2_seq _ K _ []) in H. destruct H as [_ H]. exact (H y Hy).
      + specialize (H y Hy). apply (F2_seq _ K _ []) in H. destruct H as [_ H]. exact (H x Hx).
    - apply (List.nth_ext _ _ [] []); [unfold grid; now rewrite map_length, seq_length|]. rewrite LA. intros i Hi. unfold grid. rewrite (map_seq_nth _ K i []) by exact Hi. specialize (H i Hi). apply (F2_seq _ K _ []) in H. destruct H as [LR _].
      apply (List.nth_ext _ _ [] []); [now rewrite map_length, seq_length|]. rewrite LR. intros j Hj. rewrite (map_seq_nth _ K j []) by exact Hj. now destruct tr. }
  destruct E as (e & HS & ->). split; [unfold grid; now rewrite map_length, seq_length|]. split.
  - intros i j Hi Hj. unfold grid. rewrite (map_seq_nth _ K i []) by exact Hi. split; [now rewrite map_length, seq_length|]. rewrite (map_seq_nth _ K j []) by exact Hj. destruct tr; eapply sampled_facts; eauto.
  - rewrite (grid_Matrix F seed K e (negb tr) Hs L HS). f_equal. unfold grid, transpose. apply map_ext_in. intros i Hi. apply in_seq in Hi. rewrite map_map. apply map_ext_in. intros j Hj. apply in_seq in Hj. rewrite (map_seq_nth _ K i zero_poly) by lia. now destruct tr.
Qed.
(** the witness: 253 values in 534 bytes, and the rest is taken from bytes that were used before *)
Definition bad_seed : list Z := [78; 232; 5] ++ zeros 29.
Lemma bad_bytes : bytes bad_seed /\ length bad_seed = 32%nat.
Proof. split; [|reflexivity]. unfold bad_seed. apply bytes_app. split; [repeat (constructor; [unfold is_byte; lia|]); constructor|apply bytes_zeros]. Qed.
Transparent keccak.
Lemma bad_entry : exists a, ent 1 bad_seed 0 0 = Some a /\ (256 <= length (accepted (xof_bytes bad_seed 0 0 672)))%nat /\ negb (forallb (fun p => fst p =? snd p) (combine a (firstn 256 (accepted (xof_bytes bad_seed 0 0 672))))) = true.
Proof.
  assert (E : match ent 1 bad_seed 0 0 with Some a => let l := accepted (xof_bytes bad_seed 0 0 672) in (256 <=? length l)%nat && negb (forallb (fun p => fst p =? snd p) (combine a (firstn 256 l))) | None => false end = true) by (vm_cast_no_check (eq_refl true)).
  destruct (ent 1 bad_seed 0 0) as [a|]; [|discriminate]. cbv zeta in E. apply andb_prop in E. destruct E as [E1 E2]. exists a. split; [reflexivity|]. split; [now apply Nat.leb_le|exact E2].
Qed.
Opaque keccak.
Lemma bad_not_sampled : exists a, ent 1 bad_seed 0 0 = Some a /\ ~ sampled bad_seed 0 0 a.
Proof.
  destruct bad_entry as (a & E & LN & N). exists a. split; [exact E|]. intros S. destruct bad_bytes as [HB HL]. assert (S2 : sampled bad_seed 0 0 (firstn 256 (accepted (xof_bytes bad_seed 0 0 672)))).
  { exists 4%nat. split; [exact LN|reflexivity]. }
  rewrite (sampled_unique bad_seed 0 0 a (firstn 256 (accepted (xof_bytes bad_seed 0 0 672))) HB ltac:(lia) ltac:(lia) S S2) in N. clear - N. revert N. generalize (firstn 256 (accepted (xof_bytes bad_seed 0 0 672))). intros l. induction l as [|x l IH]; cbn [combine forallb fst snd]; [discriminate|]. rewrite Z.eqb_refl. exact IH.
Qed.
Lemma bad_matrix F tr K A : (0 < K)%nat -> GenMatrix F bad_seed tr K = Ok A -> ~ sampled bad_seed 0 0 (nth 0 (nth 0 A []) []).
Proof.
  intros HK H. destruct bad_bytes as [HB HL]. apply Matrix_ok in H; [|exact HB|lia]. apply (F2_seq _ K A []) in H. destruct H as [LA H]. specialize (H 0%nat HK). apply (F2_seq _ K _ []) in H. destruct H as [_ H]. specialize (H 0%nat HK). rewrite slice_all in H by (now symmetry).
  destruct bad_not_sampled as (a & E & N). assert (E2 : ent F bad_seed 0 0 = Some (nth 0 (nth 0 A []) [])) by (destruct tr; exact H). now rewrite <- (ent_mono _ _ _ _ _ _ _ E E2).
Qed.
Lemma bad_exists tr : exists A, GenMatrix 1 bad_seed tr 1 = Ok A.
Proof.
  destruct bad_not_sampled as (a & E & _). destruct bad_bytes as [HB HL]. exists (grid 1 (fun i j => if tr then a else a)). apply (grid_Matrix 1 bad_seed 1 (fun _ _ => a) tr HB ltac:(lia)). rewrite slice_all by (now symmetry). intros x y Hx Hy. replace x with 0%nat by lia. replace y with 0%nat by lia. exact E.
Qed.
