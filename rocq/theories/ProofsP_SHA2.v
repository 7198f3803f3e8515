(** The SHA-2 properties, assembled. *)
From Verif Require Import BaseLemmas Spec_Common Proofs_Common Spec_Feed Spec_SHA2 Model_IntegerTools Proofs_Windows Model_Absorb Proofs_Absorb
  Model_SHA2 Proofs_SHA2obj Proofs_SHA2cmp Model_SHA2Par Proofs_SHA2Par Proofs_SHA2Par2 Session_Digest Session_SHA2 Proofs_Digest.
Open Scope Z_scope.

Lemma sha256_len m : length (sha256 m) = 32%nat.
Proof. unfold sha256. rewrite words_out_len. unfold merkle. change (fun h b => compress256 h (be_words 4 b)) with F256. rewrite fold_F256_len; [reflexivity|]. rewrite <- H256_eq. reflexivity. Qed.
Lemma H512_len : length H512 = 8%nat. Proof. rewrite <- H512_eq. reflexivity. Qed.
Lemma sha512_with_length_len f m : length (sha512_with_length f m) = 64%nat.
Proof. unfold sha512_with_length. rewrite words_out_len. change (fun h b => compress512 h (be_words 8 b)) with F512. rewrite fold_F512_len; [reflexivity|]. apply H512_len. Qed.

(** SHA-256 *)
Lemma c30_hist cs : Forall dcall_ok cs -> exists rs, dhistory SHA2256_Update SHA2256_Finalize SHA2256_Compute SHA2256_new SHA2256_new cs = Ok rs /\ expected sha256 32 [] cs rs.
Proof.
  intros H. eapply (history_ok SHA2256_Update SHA2256_Finalize SHA2256_Compute SHA2256_new after256 sha256 32); auto using after256_new.
  - intros o m p A P. destruct (after256_feed o m [p] A) as (o' & E & A'); [constructor; auto|]. cbn [feed] in E. apply bind_ok in E. destruct E as (s & -> & [= <-]).
    exists s. split; auto. unfold joined in A'. cbn [map concat] in A'. now rewrite app_nil_r in A'.
  - intros o m out oo A L. exact (final256 o m out oo A L).
  - intros o out oo H1 H2. unfold SHA2256_Finalize. destruct o as ((s & b) & q).
    replace ((oo <=? length out)%nat && (length out - oo <? 32)%nat) with true by (symmetry; apply andb_true_iff; split; [apply Nat.leb_le|apply Nat.ltb_lt]; lia). reflexivity.
  - apply sha256_len.
Qed.
Lemma code_field_eq n : field512 (Z.of_nat n) (n mod 128) = code_field (Z.of_nat n).
Proof.
  unfold field512, code_field. replace ((n mod 128 <? 112)%nat) with (Z.of_nat n mod 128 <? 112); [reflexivity|].
  change 128 with (Z.of_nat 128). rewrite <- Nat2Z.inj_mod. destruct (Nat.ltb_spec (n mod 128) 112), (Z.ltb_spec (Z.of_nat (n mod 128)) 112); lia.
Qed.
Lemma c31_final o m out oo : after512 o m -> (oo + 64 <= length out)%nat -> SHA2512_Finalize o out oo = Ok (SHA2512_new, splice out oo (sha512_code m)).
Proof. intros A H. rewrite (final512 o m out oo A H). rewrite code_field_eq. reflexivity. Qed.
Lemma c31_hist cs : Forall dcall_ok cs -> exists rs, dhistory SHA2512_Update SHA2512_Finalize SHA2512_Compute SHA2512_new SHA2512_new cs = Ok rs /\ expected sha512_code 64 [] cs rs.
Proof.
  intros H. eapply (history_ok SHA2512_Update SHA2512_Finalize SHA2512_Compute SHA2512_new after512 sha512_code 64); auto using after512_new.
  - intros o m p A P. destruct (after512_feed o m [p] A) as (o' & E & A'); [constructor; auto|]. cbn [feed] in E. apply bind_ok in E. destruct E as (s & -> & [= <-]).
    exists s. split; auto. unfold joined in A'. cbn [map concat] in A'. now rewrite app_nil_r in A'.
  - intros o m out oo A L. exact (c31_final o m out oo A L).
  - intros o out oo H1 H2. unfold SHA2512_Finalize. destruct o as ((s & b) & q).
    replace ((oo <=? length out)%nat && (length out - oo <? 64)%nat) with true by (symmetry; apply andb_true_iff; split; [apply Nat.leb_le|apply Nat.ltb_lt]; lia). reflexivity.
  - intros m. unfold sha512_code. rewrite sha512_with_length_len. reflexivity.
Qed.
Lemma c31_exact m : Z.of_nat (length m) mod 128 < 112 \/ Z.of_nat (length m) mod 2 ^ 61 < 2 ^ 61 - 128 -> sha512_code m = sha512 m.
Proof.
  intros H. unfold sha512_code. replace (code_field (Z.of_nat (length m))) with (8 * Z.of_nat (length m)); [reflexivity|]. unfold code_field.
  destruct (Z.ltb_spec (Z.of_nat (length m) mod 128) 112); [reflexivity|]. destruct H as [H|H]; [lia|].
  set (n := Z.of_nat (length m)) in *. clearbody n. replace ((n + 128) / 2 ^ 61) with (n / 2 ^ 61); [lia|].
  set (T := 2 ^ 61) in *. assert (HT : T = 2305843009213693952) by reflexivity. clearbody T.
  apply Z.div_unique with (n mod T + 128); [left; pose proof (Z.mod_pos_bound n T ltac:(lia)); lia|]. pose proof (Z.div_mod n T ltac:(lia)). lia.
Qed.
Lemma c31_other n : n mod 128 >= 112 -> n mod 2 ^ 61 >= 2 ^ 61 - 128 -> code_field n = 8 * n + 2 ^ 64.
Proof.
  intros H1 H2. unfold code_field. destruct (Z.ltb_spec (n mod 128) 112); [lia|].
  set (T := 2 ^ 61) in *. assert (HT : T = 2305843009213693952) by reflexivity. clearbody T.
  replace ((n + 128) / T) with (n / T + 1); [lia|]. apply Z.div_unique with (n mod T + 128 - T); [left; pose proof (Z.mod_pos_bound n T ltac:(lia)); lia|]. pose proof (Z.div_mod n T ltac:(lia)). lia.
Qed.
(** stateless forms *)
Lemma c31_compute512 inp io len out oo : bytes inp -> (io + len <= length inp)%nat -> (oo + 64 <= length out)%nat -> Z.of_nat len < 2 ^ 61 ->
  exists out', SHA2_Compute512 inp io len out oo = Ok out' /\ written out out' oo (sha512 (slice inp io len)).
Proof.
  intros H1 H2 H3 H4. unfold SHA2_Compute512. pose proof (compute1024_ok SHA2512State 8 inp io len out oo) as P. rewrite P by auto. eexists. split; [reflexivity|].
  rewrite H512_eq. assert (E : firstn 8 (merkle 128 16 F512 H512 (slice inp io len)) = merkle 128 16 F512 H512 (slice inp io len)).
  { apply firstn_all2. unfold merkle. rewrite fold_F512_len; [lia|apply H512_len]. }
  rewrite E. change (sha512 (slice inp io len)) with (words_out 8 (merkle 128 16 F512 H512 (slice inp io len))). apply splice_written. rewrite words_out_len. unfold merkle. rewrite fold_F512_len by apply H512_len. lia.
Qed.
Lemma c31_compute384 inp io len out oo : bytes inp -> (io + len <= length inp)%nat -> (oo + 48 <= length out)%nat -> Z.of_nat len < 2 ^ 61 ->
  exists out', SHA2_Compute384 inp io len out oo = Ok out' /\ written out out' oo (sha384 (slice inp io len)).
Proof.
  intros H1 H2 H3 H4. unfold SHA2_Compute384. pose proof (compute1024_ok SHA2384State 6 inp io len out oo) as P. rewrite P by (auto; lia). eexists. split; [reflexivity|].
  rewrite H384_eq. change (sha384 (slice inp io len)) with (words_out 8 (firstn 6 (merkle 128 16 F512 H384 (slice inp io len)))). apply splice_written. rewrite words_out_len, firstn_length. lia.
Qed.
Lemma c30_compute256 inp io len out oo : bytes inp -> (io + len <= length inp)%nat -> (oo + 32 <= length out)%nat ->
  exists out', SHA2_Compute256 inp io len out oo = Ok out' /\ written out out' oo (sha256 (slice inp io len)).
Proof. intros H1 H2 H3. rewrite compute256_ok by auto. eexists. split; [reflexivity|]. apply splice_written. rewrite sha256_len. lia. Qed.

(** parallel mode *)
Lemma c50_256 hdr d m : (0 < d)%nat -> hdr_ok 64 hdr -> bytes m -> exists h, value256 hdr d m h.
Proof.
  intros Hd Hh Hm.
  destruct (par_any 64 32 SHA2256_Permute g256 I8 (SHA2256_HashFinal SHA2256_Permute) (fun s out oo => BeWordsToBlock 4 (fst s) out oo) s256_init false hdr d
    ltac:(lia) Hd g256_ok eq_refl Hh w256 eq_refl st256 w256_len HF256_total m Hm) as (n0 & s & En & Is & F).
  exists (w256 s), n0. split; [exact En|]. split; [now apply w256_len|]. intros pblk c ps Hc Hp Hps Hj. destruct (F pblk c ps Hc Hp Hps Hj) as (o & E & _ & G).
  exists o. split; [exact E|]. intros out oo Ho. eexists. split; [exact (G out oo Ho)|]. apply splice_written. destruct (w256_len s Is) as (-> & _). exact Ho.
Qed.
Lemma c50_512 hdr d m : (0 < d)%nat -> hdr_ok 128 hdr -> bytes m -> exists h, value512 hdr d m h.
Proof.
  intros Hd Hh Hm.
  destruct (par_any 128 64 SHA2512_Permute g512 I8 (SHA2512_HashFinal SHA2512_Permute) (fun s out oo => BeWordsToBlock 8 (fst s) out oo) s512_init true hdr d
    ltac:(lia) Hd g512_ok eq_refl Hh w512 eq_refl st512 w512_len HF512_total m Hm) as (n0 & s & En & Is & F).
  exists (w512 s), n0. split; [exact En|]. split; [now apply w512_len|]. intros pblk c ps Hc Hp Hps Hj. destruct (F pblk c ps Hc Hp Hps Hj) as (o & E & _ & G).
  exists o. split; [exact E|]. intros out oo Ho. eexists. split; [exact (G out oo Ho)|]. apply splice_written. destruct (w512_len s Is) as (-> & _). exact Ho.
Qed.

Lemma written_unique out o1 o2 oo h1 h2 : length h1 = length h2 -> (oo + length h1 <= length out)%nat -> written out o1 oo h1 -> o1 = o2 -> written out o2 oo h2 -> h1 = h2.
Proof.
  intros L Ho (_ & W1 & _) <- (_ & W2 & _). apply (list_ext 0); [exact L|]. intros i Hi. rewrite <- W1 by auto. rewrite W2 by lia. reflexivity.
Qed.
Lemma value256_unique hdr d m h1 h2 : bytes m -> value256 hdr d m h1 -> value256 hdr d m h2 -> h1 = h2.
Proof.
  intros Bm (n1 & E1 & L1 & F1) (n2 & E2 & L2 & F2). rewrite E1 in E2. injection E2 as <-.
  assert (P : Forall p_ok [Piece m 0 (length m)]) by (constructor; [split; [cbn; lia|exact Bm]|constructor]).
  assert (J : joined [Piece m 0 (length m)] = m) by (unfold joined, p_data; cbn [map concat p_in p_off p_len]; rewrite slice_all, app_nil_r by auto; reflexivity).
  destruct (F1 _ 1%nat _ ltac:(lia) eq_refl P J) as (o & G1 & K1). destruct (F2 _ 1%nat _ ltac:(lia) eq_refl P J) as (o2 & G2 & K2). rewrite G1 in G2. injection G2 as <-.
  destruct (K1 (zeros 32) 0%nat) as (x & X1 & X2); [reflexivity|]. destruct (K2 (zeros 32) 0%nat) as (y & Y1 & Y2); [reflexivity|]. rewrite X1 in Y1. injection Y1 as E.
  eapply (written_unique (zeros 32) x y 0); eauto; [congruence|]. rewrite L1, length_zeros. lia.
Qed.
Lemma value512_unique hdr d m h1 h2 : bytes m -> value512 hdr d m h1 -> value512 hdr d m h2 -> h1 = h2.
Proof.
  intros Bm (n1 & E1 & L1 & F1) (n2 & E2 & L2 & F2). rewrite E1 in E2. injection E2 as <-.
  assert (P : Forall p_ok [Piece m 0 (length m)]) by (constructor; [split; [cbn; lia|exact Bm]|constructor]).
  assert (J : joined [Piece m 0 (length m)] = m) by (unfold joined, p_data; cbn [map concat p_in p_off p_len]; rewrite slice_all, app_nil_r by auto; reflexivity).
  destruct (F1 _ 1%nat _ ltac:(lia) eq_refl P J) as (o & G1 & K1). destruct (F2 _ 1%nat _ ltac:(lia) eq_refl P J) as (o2 & G2 & K2). rewrite G1 in G2. injection G2 as <-.
  destruct (K1 (zeros 64) 0%nat) as (x & X1 & X2); [reflexivity|]. destruct (K2 (zeros 64) 0%nat) as (y & Y1 & Y2); [reflexivity|]. rewrite X1 in Y1. injection Y1 as E.
  eapply (written_unique (zeros 64) x y 0); eauto; [congruence|]. rewrite L1, length_zeros. lia.
Qed.

Lemma fold_fst {S} (g : (list Z * S) -> list Z -> list Z * S) (F : list Z -> list Z -> list Z) (fl : list Z -> list Z) : (forall s b, fst (g s b) = F (fst s) b) ->
  forall bs s, fst (fold_left (fun s b => g s (fl b)) bs s) = fold_left (fun h b => F h (fl b)) bs (fst s).
Proof. intros H. induction bs as [|b bs IH]; intros s; [reflexivity|]. cbn [fold_left]. now rewrite IH, H. Qed.
Lemma fold_map {A B C} (f : A -> B -> A) (g : C -> B) l : forall x, fold_left (fun a c => f a (g c)) l x = fold_left f (map g l) x.
Proof. induction l as [|y l IH]; intros x; [reflexivity|]. cbn [fold_left map]. apply IH. Qed.
Lemma strides_leaf rate d m i n : (0 < d)%nat -> (i < d)%nat -> map (fun b => slice b (i * rate) rate) (strides rate d m 0 n) = map (fun j => slice m ((j * d + i) * rate) rate) (seq 0 n).
Proof.
  intros Hd Hi. unfold strides. rewrite map_map. apply map_ext. intros j. unfold minsize. rewrite slice_slice by nia. f_equal. nia.
Qed.
Lemma leaf_state {S} (g : (list Z * S) -> list Z -> list Z * S) (F : list Z -> list Z -> list Z) rate d m i n s : (forall s b, fst (g s b) = F (fst s) b) -> (0 < d)%nat -> (i < d)%nat ->
  fst (fold_left (fun s b => g s (slice b (i * rate) rate)) (strides rate d m 0 n) s) = fold_left F (map (fun j => slice m ((j * d + i) * rate) rate) (seq 0 n)) (fst s).
Proof. intros H Hd Hi. rewrite (fold_fst g F _ H), (fold_map F (fun b => slice b (i * rate) rate)), strides_leaf; auto. Qed.
(** the messages whose length is a multiple of d blocks *)
Lemma c33_256 hdr d m : (0 < d)%nat -> Nat.even d = true -> hdr_ok 64 hdr -> bytes m -> (length m mod (d * 64) = 0)%nat ->
  value256 hdr d m (sha256 (concat (map (fun i => words_out 4 (leaf_value 64 F256 H256 hdr d m i) ++ zeros 32) (seq 0 (d / 2))))).
Proof.
  intros Hd He Hh Hm HM.
  destruct (par_any 64 32 SHA2256_Permute g256 I8 (SHA2256_HashFinal SHA2256_Permute) (fun s out oo => BeWordsToBlock 4 (fst s) out oo) s256_init false hdr d
    ltac:(lia) Hd g256_ok eq_refl Hh w256 eq_refl st256 w256_len HF256_total m Hm) as (n0 & s & En & Is & F).
  exists n0. split; [exact En|]. split; [apply sha256_len|]. intros pblk c ps Hc Hp Hps Hj. destruct (F pblk c ps Hc Hp Hps Hj) as (o & E & J & G).
  exists o. split; [exact E|]. intros out oo Ho.
  destruct (finalize_full_value 64 32 SHA2256_Permute g256 I8 (SHA2256_HashFinal SHA2256_Permute) (fun s out oo => BeWordsToBlock 4 (fst s) out oo) s256_init false hdr d
    ltac:(lia) Hd g256_ok eq_refl Hh w256 eq_refl st256 w256_len He sha256 (fun bs rest => root256 d bs rest Hd He) m o out oo Hm J HM Ho) as (o' & E2).
  pose proof (G out oo Ho) as E3. rewrite E3 in E2. injection E2 as <- E4. eexists. split; [exact E3|]. rewrite E4.
  replace (full_root _ _ _ _ _ _ _ _) with (concat (map (fun i => words_out 4 (leaf_value 64 F256 H256 hdr d m i) ++ zeros 32) (seq 0 (d / 2)))).
  - apply splice_written. rewrite sha256_len. exact Ho.
  - unfold full_root. f_equal. apply map_ext_in. intros i Hi. apply in_seq in Hi. f_equal. unfold w256. f_equal. unfold leaf_value.
    assert (Hi' : (i < d)%nat) by (destruct (even_half d Hd He) as (e & ? & ? & ?); lia).
    refine (eq_trans _ (eq_sym (leaf_state g256 F256 64 d m i (length m / minsize 64 d) (leaf0 g256 s256_init hdr i) (fun s b => eq_refl) Hd Hi'))).
    unfold leaf0, g256. cbn [fst]. rewrite <- H256_eq. reflexivity.
Qed.
Lemma c33_512 hdr d m : (0 < d)%nat -> Nat.even d = true -> hdr_ok 128 hdr -> bytes m -> (length m mod (d * 128) = 0)%nat ->
  value512 hdr d m (sha512 (concat (map (fun i => words_out 8 (leaf_value 128 F512 H512 hdr d m i) ++ zeros 64) (seq 0 (d / 2))))).
Proof.
  intros Hd He Hh Hm HM.
  assert (SL : forall x, length (sha512 x) = 64%nat) by (intros; unfold sha512; rewrite words_out_len; unfold merkle; change (fun h b => compress512 h (be_words 8 b)) with F512; rewrite fold_F512_len; [reflexivity|apply H512_len]).
  destruct (par_any 128 64 SHA2512_Permute g512 I8 (SHA2512_HashFinal SHA2512_Permute) (fun s out oo => BeWordsToBlock 8 (fst s) out oo) s512_init true hdr d
    ltac:(lia) Hd g512_ok eq_refl Hh w512 eq_refl st512 w512_len HF512_total m Hm) as (n0 & s & En & Is & F).
  exists n0. split; [exact En|]. split; [apply SL|]. intros pblk c ps Hc Hp Hps Hj. destruct (F pblk c ps Hc Hp Hps Hj) as (o & E & J & G).
  exists o. split; [exact E|]. intros out oo Ho.
  destruct (finalize_full_value 128 64 SHA2512_Permute g512 I8 (SHA2512_HashFinal SHA2512_Permute) (fun s out oo => BeWordsToBlock 8 (fst s) out oo) s512_init true hdr d
    ltac:(lia) Hd g512_ok eq_refl Hh w512 eq_refl st512 w512_len He sha512 (fun bs rest => root512 d bs rest Hd He) m o out oo Hm J HM Ho) as (o' & E2).
  pose proof (G out oo Ho) as E3. rewrite E3 in E2. injection E2 as <- E4. eexists. split; [exact E3|]. rewrite E4.
  replace (full_root _ _ _ _ _ _ _ _) with (concat (map (fun i => words_out 8 (leaf_value 128 F512 H512 hdr d m i) ++ zeros 64) (seq 0 (d / 2)))).
  - apply splice_written. rewrite SL. exact Ho.
  - unfold full_root. f_equal. apply map_ext_in. intros i Hi. apply in_seq in Hi. f_equal. unfold w512. f_equal. unfold leaf_value.
    assert (Hi' : (i < d)%nat) by (destruct (even_half d Hd He) as (e & ? & ? & ?); lia).
    refine (eq_trans _ (eq_sym (leaf_state g512 F512 128 d m i (length m / minsize 128 d) (leaf0 g512 s512_init hdr i) (fun s b => eq_refl) Hd Hi'))).
    unfold leaf0, g512. cbn [fst]. rewrite <- H512_eq. reflexivity.
Qed.
Lemma leaf_same rate F h0 hdr d m m' i : same_first_half rate d m m' -> (i < d / 2)%nat -> leaf_value rate F h0 hdr d m i = leaf_value rate F h0 hdr d m' i.
Proof. intros (L & H) Hi. unfold leaf_value. rewrite L. f_equal. apply map_ext. intros j. now apply H. Qed.
Lemma c33_collide256 hdr d m m' h : (0 < d)%nat -> Nat.even d = true -> hdr_ok 64 hdr -> bytes m -> bytes m' -> (length m mod (d * 64) = 0)%nat -> same_first_half 64 d m m' ->
  value256 hdr d m h -> value256 hdr d m' h.
Proof.
  intros Hd He Hh Hm Hm' HM HS V. pose proof (value256_unique hdr d m _ _ Hm V (c33_256 hdr d m Hd He Hh Hm HM)) as ->.
  assert (HM' : (length m' mod (d * 64) = 0)%nat) by (destruct HS as (<- & _); auto).
  pose proof (c33_256 hdr d m' Hd He Hh Hm' HM') as V'.
  replace (map (fun i => words_out 4 (leaf_value 64 F256 H256 hdr d m i) ++ zeros 32) (seq 0 (d / 2))) with (map (fun i => words_out 4 (leaf_value 64 F256 H256 hdr d m' i) ++ zeros 32) (seq 0 (d / 2))); [exact V'|].
  apply map_ext_in. intros i Hi. apply in_seq in Hi. do 2 f_equal. symmetry. apply leaf_same; auto. lia.
Qed.
Lemma c33_collide512 hdr d m m' h : (0 < d)%nat -> Nat.even d = true -> hdr_ok 128 hdr -> bytes m -> bytes m' -> (length m mod (d * 128) = 0)%nat -> same_first_half 128 d m m' ->
  value512 hdr d m h -> value512 hdr d m' h.
Proof.
  intros Hd He Hh Hm Hm' HM HS V. pose proof (value512_unique hdr d m _ _ Hm V (c33_512 hdr d m Hd He Hh Hm HM)) as ->.
  assert (HM' : (length m' mod (d * 128) = 0)%nat) by (destruct HS as (<- & _); auto).
  pose proof (c33_512 hdr d m' Hd He Hh Hm' HM') as V'.
  replace (map (fun i => words_out 8 (leaf_value 128 F512 H512 hdr d m i) ++ zeros 64) (seq 0 (d / 2))) with (map (fun i => words_out 8 (leaf_value 128 F512 H512 hdr d m' i) ++ zeros 64) (seq 0 (d / 2))); [exact V'|].
  apply map_ext_in. intros i Hi. apply in_seq in Hi. do 2 f_equal. symmetry. apply leaf_same; auto. lia.
Qed.
Lemma half_block (rate d : nat) : (0 < rate)%nat -> (0 < d)%nat -> Nat.even d = true ->
  exists m m', bytes m /\ bytes m' /\ m <> m' /\ length m = (d * rate)%nat /\ same_first_half rate d m m'.
Proof.
  intros Hr Hd He. destruct (even_half d Hd He) as (e & -> & E2 & E0).
  assert (LL : length (zeros (2 * e * rate - 1) ++ [1]) = (2 * e * rate)%nat) by (rewrite app_length, length_zeros; cbn [length]; nia).
  exists (zeros (2 * e * rate)), (zeros (2 * e * rate - 1) ++ [1]). split; [apply bytes_zeros|]. split.
  { apply bytes_app. split; [apply bytes_zeros|]. repeat constructor; unfold is_byte; lia. }
  split.
  { intros E. assert (X : nth (2 * e * rate - 1) (zeros (2 * e * rate)) 0 = nth (2 * e * rate - 1) (zeros (2 * e * rate - 1) ++ [1]) 0) by now rewrite <- E.
    rewrite app_nth2 in X by (rewrite length_zeros; lia). rewrite length_zeros, Nat.sub_diag in X. cbn [nth] in X. unfold zeros in X. rewrite nth_repeat in X. discriminate. }
  split; [apply length_zeros|]. split; [now rewrite length_zeros|]. rewrite E2. intros j i Hi. destruct j as [|j].
  - replace (2 * e * rate)%nat with ((2 * e * rate - 1) + 1)%nat at 1 by nia. rewrite zeros_app. unfold slice.
    rewrite !skipn_app, !firstn_app. f_equal. rewrite skipn_length, length_zeros.
    replace (rate - (2 * e * rate - 1 - (0 * (2 * e) + i) * rate))%nat with 0%nat by nia. reflexivity.
  - unfold slice. rewrite !skipn_all2; auto; rewrite ?LL, ?length_zeros; nia.
Qed.
