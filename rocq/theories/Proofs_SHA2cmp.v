(** The compact block functions and the stateless digests. *)
From Verif Require Import BaseLemmas Spec_Common Spec_Feed Spec_SHA2 Model_IntegerTools Proofs_IntegerTools Proofs_Windows Proofs_Modes5
  Model_Modes Model_Straight Model_SHA2Gen Model_Absorb Proofs_Absorb Model_SHA2 Proofs_SHA2 Proofs_SHA2obj.
Open Scope Z_scope.

(** * message schedule *)
Lemma iter_S {A} n (f : A -> A) x : Nat.iter (S n) f x = f (Nat.iter n f x).
Proof. reflexivity. Qed.
Lemma extend_ok w s0 s1 c0 c1 rounds m : length m = 16%nat -> (16 <= rounds)%nat ->
  (forall x, c0 x = s0 x) -> (forall x, c1 x = s1 x) ->
  extend_W w c0 c1 rounds m = Ok (schedule w s0 s1 rounds m).
Proof.
  intros Hm Hr H0 H1. unfold extend_W, schedule.
  set (g := fun ws => ws ++ [next_W w s0 s1 ws]).
  match goal with |- for_up 16 _ ?f _ = _ => destruct (for_up_inv (fun i ws => ws = Nat.iter (i - 16) g m ++ zeros (rounds - i)) f 16 (rounds - 16) (m ++ zeros (rounds - 16))) as (ws & E & G) end.
  - reflexivity.
  - intros i ws Hi ->. assert (L : length (Nat.iter (i - 16) g m) = (16 + (i - 16))%nat) by (apply sched_len; auto).
    assert (N : forall k, (k < i)%nat -> get (Nat.iter (i - 16) g m ++ zeros (rounds - i)) k = Ok (nth k (Nat.iter (i - 16) g m) 0)).
    { intros k Hk. rewrite (get_ok _ _ 0) by (rewrite app_length; lia). rewrite app_nth1 by lia. reflexivity. }
    rewrite !N by lia. cbn [bind]. rewrite put_ok by (rewrite app_length, length_zeros; lia).
    eexists. split; [reflexivity|].
    replace (S i - 16)%nat with (S (i - 16)) by lia. rewrite iter_S. unfold g at 6. 
    replace (upd (Nat.iter (i - 16) g m ++ zeros (rounds - i)) i) with (upd (Nat.iter (i - 16) g m ++ zeros (rounds - i)) (length (Nat.iter (i - 16) g m) + 0)) by (f_equal; lia).
    rewrite upd_app_r. rewrite <- app_assoc. f_equal. replace (rounds - i)%nat with (S (rounds - S i)) by lia. cbn [zeros repeat upd app]. f_equal.
    unfold next_W. rewrite L. replace (16 + (i - 16))%nat with i by lia. rewrite H0, H1. reflexivity.
  - rewrite E. f_equal. subst ws. replace (16 + (rounds - 16))%nat with rounds by lia. rewrite Nat.sub_diag. cbn [zeros repeat]. apply app_nil_r.
Qed.

(** * rounds *)
Definition spin (r : nat) (s : list Z) : list Z := skipn r s ++ firstn r s.
Section rounds.
Variables (w : Z) (Sum0 Sum1 : Z -> Z) (rnd : Z -> Z -> Z -> Z -> Z -> Z -> Z -> Z -> Z -> Z -> Z * Z).
Hypothesis Hr : forall a b c d e f g h k x,
  let T1 := ADD w (ADD w (ADD w (ADD w h (Sum1 e)) (Ch w e f g)) k) x in
  rnd a b c d e f g h k x = (ADD w d T1, ADD w T1 (ADD w (Sum0 a) (Maj a b c))).
Lemma c_round_ok Ks ws j s : (j < length Ks)%nat -> (j < length ws)%nat -> length s = 8%nat ->
  c_round rnd Ks ws j (spin (j mod 8) s) = Ok (spin (S j mod 8) (sha2_round w Sum0 Sum1 s (nth j Ks 0, nth j ws 0))).
Proof.
  intros H1 H2 H. unfold c_round. rewrite (get_ok Ks j 0), (get_ok ws j 0) by lia. cbn [bind].
  set (k := nth j Ks 0). set (x := nth j ws 0).
  assert (R : (S j mod 8 = if j mod 8 =? 7 then 0 else S (j mod 8))%nat) by (destruct (Nat.eqb_spec (j mod 8) 7); lia).
  rewrite R. assert (B : (j mod 8 < 8)%nat) by lia. set (r := (j mod 8)%nat) in *. clearbody r. clear R.
  do 8 (destruct s as [|? s]; [discriminate H|]). destruct s; [|discriminate H].
  do 8 (destruct r as [|r]; [cbv beta iota zeta delta [spin skipn firstn app Nat.add Nat.sub Nat.modulo Nat.divmod fst snd get nth_error bind Nat.eqb];
    rewrite Hr; reflexivity|]). lia.
Qed.
Lemma rounds_C Ks ws n : forall j s, (j + n <= length Ks)%nat -> length ws = length Ks -> length s = 8%nat ->
  for_up j n (c_round rnd Ks ws) (spin (j mod 8) s) = Ok (spin ((j + n) mod 8) (fold_left (sha2_round w Sum0 Sum1) (slice (combine Ks ws) j n) s)).
Proof.
  induction n as [|n IH]; intros j s H1 H2 H.
  - cbn [for_up]. rewrite Nat.add_0_r. reflexivity.
  - cbn [for_up]. rewrite c_round_ok by lia. cbn [bind].
    rewrite IH; [|lia|lia|now apply round_len]. replace (S j + n)%nat with (j + S n)%nat by lia. do 2 f_equal.
    change (S n) with (1 + n)%nat. rewrite slice_app, fold_left_app. replace (j + 1)%nat with (S j) by lia. f_equal.
    replace (slice (combine Ks ws) j 1) with [(nth j Ks 0, nth j ws 0)]; [reflexivity|].
    apply (list_ext (0, 0)); [rewrite length_slice; [reflexivity|rewrite combine_length; lia]|].
    intros i Hi. cbn [length] in Hi. assert (i = 0)%nat by lia. subst i. rewrite BaseLemmas.nth_slice by lia. rewrite Nat.add_0_r.
    rewrite combine_nth by lia. reflexivity.
Qed.
End rounds.
Lemma Round256_ok a b c d e f g h k x :
  let T1 := ADD 32 (ADD 32 (ADD 32 (ADD 32 h (Sum1_256 e)) (Ch 32 e f g)) k) x in
  Round256 a b c d e f g h k x = (ADD 32 d T1, ADD 32 T1 (ADD 32 (Sum0_256 a) (Maj a b c))).
Proof.
  cbv zeta.
  assert (E1 : Sum1_256 e = Z.lxor (Z.lxor (Z.lor (wshr e 6) (wshl 32 e 26)) (Z.lor (wshr e 11) (wshl 32 e 21))) (Z.lor (wshr e 25) (wshl 32 e 7))) by reflexivity.
  assert (E0 : Sum0_256 a = Z.lxor (Z.lxor (Z.lor (wshr a 2) (wshl 32 a 30)) (Z.lor (wshr a 13) (wshl 32 a 19))) (Z.lor (wshr a 22) (wshl 32 a 10))) by reflexivity.
  rewrite E1, E0. unfold Round256, Ch, Maj. cbv beta zeta delta [wadd ADD wnot NOT]. reflexivity.
Qed.
Lemma Round512_ok a b c d e f g h k x :
  let T1 := ADD 64 (ADD 64 (ADD 64 (ADD 64 h (Sum1_512 e)) (Ch 64 e f g)) k) x in
  Round512 a b c d e f g h k x = (ADD 64 d T1, ADD 64 T1 (ADD 64 (Sum0_512 a) (Maj a b c))).
Proof.
  cbv zeta. rewrite <- (ADD_assoc 64 _ (Sum0_512 a)) by lia.
  assert (E1 : Sum1_512 e = Z.lxor (Z.lxor (Z.lor (wshl 64 e 50) (wshr e 14)) (Z.lor (wshl 64 e 46) (wshr e 18))) (Z.lor (wshl 64 e 23) (wshr e 41))).
  { unfold Sum1_512, ROTR. rewrite (Z.lor_comm (Z.shiftr e 14)), (Z.lor_comm (Z.shiftr e 18)), (Z.lor_comm (Z.shiftr e 41)). reflexivity. }
  assert (E0 : Sum0_512 a = Z.lxor (Z.lxor (Z.lor (wshl 64 a 36) (wshr a 28)) (Z.lor (wshl 64 a 30) (wshr a 34))) (Z.lor (wshl 64 a 25) (wshr a 39))).
  { unfold Sum0_512, ROTR. rewrite (Z.lor_comm (Z.shiftr a 28)), (Z.lor_comm (Z.shiftr a 34)), (Z.lor_comm (Z.shiftr a 39)). reflexivity. }
  rewrite E1, E0. unfold Round512, Ch, Maj. cbv beta zeta delta [wadd ADD wnot NOT]. reflexivity.
Qed.
Lemma Sigma0_ok x : Sigma0 x = sig0_512 x.
Proof. unfold sig0_512, ROTR. rewrite (Z.lor_comm (Z.shiftr x 1)), (Z.lor_comm (Z.shiftr x 8)). reflexivity. Qed.
Lemma Sigma1_ok x : Sigma1 x = sig1_512 x.
Proof. unfold sig1_512, ROTR. rewrite (Z.lor_comm (Z.shiftr x 19)), (Z.lor_comm (Z.shiftr x 61)). reflexivity. Qed.
Lemma K256_eq : SHA2256_RC64 = K256. Proof. vm_compute. reflexivity. Qed.
Lemma K512_eq : SHA2512_RC80 = K512. Proof. vm_compute. reflexivity. Qed.

Lemma permute_C_ok w size rounds s0 s1 c0 c1 Sum0 Sum1 rnd Ks inp io h :
  (size = 4 \/ size = 8)%nat -> rounds = length Ks -> (16 <= length Ks)%nat -> (length Ks mod 8 = 0)%nat ->
  (forall x, c0 x = s0 x) -> (forall x, c1 x = s1 x) ->
  (forall a b c d e f g h k x, let T1 := ADD w (ADD w (ADD w (ADD w h (Sum1 e)) (Ch w e f g)) k) x in
    rnd a b c d e f g h k x = (ADD w d T1, ADD w T1 (ADD w (Sum0 a) (Maj a b c)))) ->
  length h = 8%nat -> bytes inp -> (io + 16 * size <= length inp)%nat ->
  permute_C w size rounds c0 c1 rnd Ks inp io h = Ok (sha2_compress w Sum0 Sum1 s0 s1 Ks h (be_words size (slice inp io (16 * size)))).
Proof.
  intros Hs -> H16 H8 C0 C1 Hr Hh Hb Hl. unfold permute_C. rewrite load_be_ok by auto. cbn [bind].
  set (m := be_words size _). assert (Lm : length m = 16%nat) by (apply be_words_len; [lia|rewrite length_slice; lia]).
  rewrite (extend_ok w s0 s1) by auto. cbn [bind]. set (W := schedule _ _ _ _ _).
  assert (LW : length W = length Ks) by (apply schedule_len; auto).
  pose proof (rounds_C w Sum0 Sum1 rnd Hr Ks W (length Ks) 0 h ltac:(lia) LW Hh) as E.
  change (spin (0 mod 8) h) with (h ++ []) in E. rewrite app_nil_r in E. rewrite E. cbn [bind]. f_equal. unfold sha2_compress.
  rewrite Nat.add_0_l, H8. cbn [spin skipn firstn]. unfold spin. cbn [skipn firstn]. rewrite app_nil_r.
  rewrite slice_all by (rewrite combine_length; lia). reflexivity.
Qed.
Lemma permute256C_ok inp io h : length h = 8%nat -> bytes inp -> (io + 64 <= length inp)%nat ->
  PermuteR64P512C inp io h = Ok (F256 h (slice inp io 64)).
Proof.
  intros H Hb Hl. unfold PermuteR64P512C, F256, compress256. rewrite <- K256_eq.
  refine (permute_C_ok 32 4 64 sig0_256 sig1_256 Theta0 Theta1 Sum0_256 Sum1_256 Round256 SHA2256_RC64 inp io h _ _ _ _ _ _ Round256_ok H Hb _);
    [now left|reflexivity|cbn; lia|reflexivity|reflexivity|reflexivity|lia].
Qed.
Lemma permute512C_ok inp io h : length h = 8%nat -> bytes inp -> (io + 128 <= length inp)%nat ->
  PermuteR80P1024C inp io h = Ok (F512 h (slice inp io 128)).
Proof.
  intros H Hb Hl. unfold PermuteR80P1024C, F512, compress512. rewrite <- K512_eq.
  refine (permute_C_ok 64 8 80 sig0_512 sig1_512 Sigma0 Sigma1 Sum0_512 Sum1_512 Round512 SHA2512_RC80 inp io h _ _ _ _ Sigma0_ok Sigma1_ok Round512_ok H Hb _);
    [now right|reflexivity|cbn; lia|reflexivity|lia].
Qed.

(** * stateless digests *)
Lemma copy_pad (R : nat) inp io len : (io + len <= length inp)%nat -> (len < R)%nat ->
  (buf <- wcopy inp io (zeros R) 0 len ;; put buf len 128) = Ok (slice inp io len ++ [128] ++ zeros (R - 1 - len)).
Proof.
  intros H1 H2. rewrite wcopy_ok by (rewrite ?length_zeros; lia). cbn [bind].
  assert (L : length (slice inp io len) = len) by (apply length_slice; lia).
  assert (E : splice (zeros R) 0 (slice inp io len) = slice inp io len ++ zeros (R - len)).
  { unfold splice. cbn [firstn app]. rewrite L, Nat.add_0_l. f_equal. replace R with (len + (R - len))%nat at 1 by lia. rewrite zeros_app, skipn_app, skipn_all2 by (rewrite length_zeros; lia).
    rewrite length_zeros, Nat.sub_diag. reflexivity. }
  rewrite E. rewrite put_ok by (rewrite app_length, length_zeros; lia). f_equal. set (dd := slice inp io len) in *.
  assert (U : upd (dd ++ zeros (R - len)) len 128 = dd ++ upd (zeros (R - len)) 0 128) by (rewrite <- (upd_app_r dd); f_equal; lia). rewrite U. f_equal.
  replace (R - len)%nat with (S (R - 1 - len)) by lia. reflexivity.
Qed.
Lemma two_stage R L d b1 b2 : (0 < L < R)%nat -> (length d < R)%nat -> (length b1 + length b2 = L)%nat ->
  let b := d ++ [128] ++ zeros (R - 1 - length d) in
  (if (R - L <? S (length d))%nat
   then last_blocks R L d (b1 ++ b2) = [b; splice (splice (zeros R) (R - L) b1) (R - L + length b1) b2]
   else last_blocks R L d (b1 ++ b2) = [splice (splice b (R - L) b1) (R - L + length b1) b2]).
Proof.
  intros H1 H2 H3 b. unfold last_blocks. destruct (Nat.ltb_spec (R - L) (S (length d))).
  - replace (length d <? R - L)%nat with false by (symmetry; apply Nat.ltb_ge; lia). do 2 f_equal.
    symmetry. apply (write_len R [] (zeros R) b1 b2 (R - L)); cbn [length app]; [lia|]. f_equal. lia.
  - replace (length d <? R - L)%nat with true by (symmetry; apply Nat.ltb_lt; lia). f_equal. symmetry.
    replace (R - L)%nat with (length (d ++ [128%Z]) + (R - L - 1 - length d))%nat at 1 2 by (rewrite app_length; cbn [length]; lia).
    rewrite (write_len R).
    + rewrite <- app_assoc. reflexivity.
    + rewrite app_length. cbn [length]. lia.
    + subst b. rewrite <- app_assoc. do 3 f_equal. lia.
Qed.
Lemma splice2_len (z : list Z) a x c y : (a + length x <= length z)%nat -> (c + length y <= length z)%nat -> length (splice (splice z a x) c y) = length z.
Proof. intros H1 H2. rewrite length_splice; rewrite length_splice; lia. Qed.
Lemma compute256_ok inp io len out oo : bytes inp -> (io + len <= length inp)%nat -> (oo + 32 <= length out)%nat ->
  SHA2_Compute256 inp io len out oo = Ok (splice out oo (sha256 (slice inp io len))).
Proof.
  intros Hb Hl Ho. unfold SHA2_Compute256.
  destruct (eager_blocks_ok 64 64 SHA2256_Permute g256 I8 ltac:(lia) g256_ok inp Hb len (SHA2256State, 0) io len) as (bs & rl & E & I & Hbs & R1 & R2 & D); auto.
  { reflexivity. }
  change (fun (s : s256) inp io => h <- PermuteR64P512U inp io (fst s) ;; Ok (h, u64 (snd s + 64))) with SHA2256_Permute. rewrite E. cbn [bind]. clear E.
  rewrite <- bind_assoc. rewrite copy_pad by lia. cbn [bind]. set (d := slice inp (io + (len - rl)) rl) in *.
  assert (Ld : length d = rl) by (apply length_slice; lia). cbv zeta.
  rewrite fold_g256. cbn [fst snd]. set (t := if bs then 0 else _).
  set (m := slice inp io len) in *. assert (LM : length m = (length bs * 64 + rl)%nat) by (rewrite D, app_length, (concat_len 64) by auto; lia).
  set (x := t + Z.of_nat rl).
  assert (EX : be_bytes 8 (8 * x) = be_bytes 8 (8 * Z.of_nat (length m))).
  { rewrite <- (be_bytes_mod 8 (8 * x)), <- (be_bytes_mod 8 (8 * Z.of_nat (length m))). f_equal. change (2 ^ (8 * Z.of_nat 8)) with (2 ^ 64). subst x t.
    rewrite LM. rewrite <- (Z.mul_mod_idemp_r 8 (_ + _)), <- (Z.mul_mod_idemp_r 8 (Z.of_nat _)) by lia. do 2 f_equal.
    destruct bs; cbn [length]; [f_equal; lia|]. unfold u64. rewrite Z.add_mod_idemp_l by lia. f_equal. lia. }
  set (h := fold_left F256 bs SHA2256State) in *.
  assert (Hh : length h = 8%nat) by (revert I; rewrite fold_g256; intros I; exact I).
  assert (EM : sha256 m = words_out 4 (fold_left F256 (last_blocks 64 8 d (be_bytes 8 (8 * x))) h)).
  { unfold sha256. f_equal. change (fun h b => compress256 h (be_words 4 b)) with F256. unfold merkle, sha2_pad. rewrite EX. subst h. rewrite <- fold_left_app, H256_eq. f_equal. rewrite D at 1 2.
    apply pad_blocks; auto; try lia; apply length_be_bytes. }
  rewrite EM. clear EM EX. rewrite <- bitlen_bytes. set (b1 := be_bytes 4 _). set (b2 := be_bytes 4 (u32 _)).
  assert (L1 : length b1 = 4%nat) by apply length_be_bytes. assert (L2 : length b2 = 4%nat) by apply length_be_bytes.
  assert (B1 : bytes b1) by apply bytes_be_bytes. assert (B2 : bytes b2) by apply bytes_be_bytes.
  pose proof (two_stage 64 8 d b1 b2 ltac:(lia) ltac:(lia) ltac:(lia)) as TS. cbv zeta in TS. change (64 - 8)%nat with 56%nat in TS. rewrite L1 in TS.
  rewrite Ld in TS.
  set (b := d ++ [128] ++ zeros (64 - 1 - rl)) in *.
  assert (Lb : length b = 64%nat) by (subst b; rewrite !app_length, length_zeros; cbn [length]; lia).
  assert (Bb : bytes b) by (subst b; apply bytes_app; split; [subst d; now apply bytes_slice|]; apply bytes_app; split; [constructor; [unfold is_byte; lia|constructor]|apply bytes_zeros]).
  destruct (56 <? S rl)%nat; rewrite TS; clear TS.
  - rewrite permute256_ok by (auto; lia). cbn [bind]. rewrite slice_all by auto.
    rewrite Be32ToBytes_correct by (rewrite length_zeros; lia). cbn [bind]. fold b1. rewrite Be32ToBytes_correct by (rewrite length_splice; rewrite length_zeros; lia). cbn [bind]. fold b2.
    assert (H8 : length (F256 h b) = 8%nat) by now apply compress256_len.
    assert (L3 : length (splice (splice (zeros 64) 56 b1) 60 b2) = 64%nat) by (rewrite splice2_len; rewrite ?length_zeros; lia).
    rewrite permute256_ok by (auto using bytes_splice, bytes_zeros; lia). cbn [bind]. rewrite slice_all by auto.
    cbn [fold_left]. apply BeWords_ok; auto. now apply compress256_len.
  - cbn [bind]. rewrite Be32ToBytes_correct by lia. cbn [bind]. fold b1. rewrite Be32ToBytes_correct by (rewrite length_splice; lia). cbn [bind]. fold b2.
    assert (L3 : length (splice (splice b 56 b1) 60 b2) = 64%nat) by (rewrite splice2_len; lia).
    rewrite permute256_ok by (auto using bytes_splice; lia). cbn [bind]. rewrite slice_all by auto.
    cbn [fold_left]. apply BeWords_ok; auto. now apply compress256_len.
Qed.

Lemma BeWords64_ok nw h out oo : (nw <= length h)%nat -> (oo + 8 * nw <= length out)%nat ->
  for_up 0 nw (fun i out => x <- get h i ;; Be64ToBytes x out (oo + 8 * i)) out = Ok (splice out oo (words_out 8 (firstn nw h))).
Proof.
  intros Hh H. unfold words_out.
  destruct (for_up_inv (fun i o => o = splice out oo (concat (map (be_bytes 8) (firstn i h))))
    (fun i o => x <- get h i ;; Be64ToBytes x o (oo + 8 * i)%nat) 0 nw out) as (o & E & G).
  - unfold splice. cbn [map firstn concat app length]. rewrite Nat.add_0_r. symmetry. apply firstn_skipn.
  - intros i o Hi ->. rewrite (get_ok h i 0) by lia. cbn [bind].
    assert (LL : length (concat (map (be_bytes 8) (firstn i h))) = (8 * i)%nat).
    { rewrite (concat_length_eq 8).
      - rewrite map_length, firstn_length. lia.
      - intros b Hb. apply in_map_iff in Hb. destruct Hb as (x & <- & _). apply length_be_bytes. }
    exists (splice out oo (concat (map (be_bytes 8) (firstn (S i) h)))). split; [|reflexivity].
    assert (FS : firstn (S i) h = firstn i h ++ [nth i h 0]).
    { rewrite <- (firstn_skipn i h) at 1. rewrite firstn_app, firstn_length, Nat.min_l by lia.
      rewrite firstn_all2 by (rewrite firstn_length; lia). f_equal. replace (S i - i)%nat with 1%nat by lia.
      change (firstn 1 (skipn i h)) with (slice h i 1). apply (list_ext 0); [now rewrite length_slice by lia|].
      intros k Hk. rewrite length_slice in Hk by lia. assert (k = 0)%nat by lia. subst. rewrite BaseLemmas.nth_slice by lia. now rewrite Nat.add_0_r. }
    rewrite FS, map_app, concat_app. cbn [map concat]. rewrite app_nil_r.
    assert (LO : length (splice out oo (concat (map (be_bytes 8) (firstn i h)))) = length out) by (apply length_splice; lia).
    rewrite Be64ToBytes_correct by lia. f_equal; rewrite <- LL; apply splice_splice_next; rewrite length_be_bytes; lia.
  - rewrite E. f_equal. exact G.
Qed.
Lemma fold_g1024 bs : forall h t, fold_left (fun s b => (F512 (fst s) b, u64 (snd s + 128))) bs (h, t) = (fold_left F512 bs h, if bs then t else u64 (t + 128 * Z.of_nat (length bs))).
Proof.
  induction bs as [|b bs IH]; intros h t; [reflexivity|]. cbn [fold_left fst snd]. rewrite IH. f_equal.
  destruct bs; cbn [length]; [f_equal; lia|]. unfold u64. rewrite Z.add_mod_idemp_l by lia. f_equal. lia.
Qed.
Lemma compute1024_ok iv nw inp io len out oo : length iv = 8%nat -> (nw <= 8)%nat -> bytes inp -> (io + len <= length inp)%nat -> (oo + 8 * nw <= length out)%nat ->
  Z.of_nat len < 2 ^ 61 ->
  SHA2_Compute1024 iv nw inp io len out oo = Ok (splice out oo (words_out 8 (firstn nw (merkle 128 16 F512 iv (slice inp io len))))).
Proof.
  intros Hiv Hnw Hb Hl Ho H61. unfold SHA2_Compute1024.
  set (f := fun (s : list Z * Z) inp io => h <- PermuteR80P1024U inp io (fst s) ;; Ok (h, u64 (snd s + 128))).
  set (g := fun (s : list Z * Z) b => (F512 (fst s) b, u64 (snd s + 128))).
  assert (Hf : forall s b o, I8 s -> bytes b -> (o + 128 <= length b)%nat -> f s b o = Ok (g s (slice b o 128)) /\ I8 (g s (slice b o 128))).
  { intros s b o H1 H2 H3. split; [unfold f; rewrite permute512_ok by auto; reflexivity|]. now apply compress512_len. }
  destruct (eager_blocks_ok 128 128 f g I8 ltac:(lia) Hf inp Hb len (iv, 0) io len) as (bs & rl & E & I & Hbs & R1 & R2 & D); auto.
  rewrite E. cbn [bind]. clear E.
  rewrite <- bind_assoc. rewrite copy_pad by lia. cbn [bind]. set (d := slice inp (io + (len - rl)) rl) in *.
  assert (Ld : length d = rl) by (apply length_slice; lia). cbv zeta.
  unfold g in *. rewrite fold_g1024 in *. cbn [fst snd]. set (t := if bs then 0 else _).
  set (m := slice inp io len) in *. assert (LM : length m = (length bs * 128 + rl)%nat) by (rewrite D, app_length, (concat_len 128) by auto; lia).
  assert (LL : length m = len) by (apply length_slice; lia).
  assert (ET : u64 (t + Z.of_nat rl) = Z.of_nat (length m)).
  { unfold t. destruct bs; cbn [length] in *; unfold u64; [rewrite Z.mod_small; lia|]. rewrite Z.add_mod_idemp_l by lia. rewrite Z.mod_small; lia. }
  rewrite ET. set (x := Z.of_nat (length m)) in *.
  set (h := fold_left F512 bs iv) in *. assert (Hh : length h = 8%nat) by exact I.
  assert (EX : be_bytes 8 0 ++ be_bytes 8 (wshl 64 x 3) = be_bytes 16 (8 * x)).
  { replace (8 * x) with (8 * x + 2 ^ 64 * (0 - x / 2 ^ 61)) by (rewrite Z.div_small by lia; lia). rewrite <- field_bytes. rewrite (Z.mod_small x) by lia. reflexivity. }
  assert (EM : merkle 128 16 F512 iv m = fold_left F512 (last_blocks 128 16 d (be_bytes 16 (8 * x))) h).
  { unfold merkle, sha2_pad. fold x. subst h. rewrite <- fold_left_app. f_equal. rewrite D at 1 2.
    apply pad_blocks; auto; try lia; apply length_be_bytes. }
  rewrite EM, <- EX. clear EM EX. set (b1 := be_bytes 8 0). set (b2 := be_bytes 8 (wshl _ _ _)).
  assert (L1 : length b1 = 8%nat) by apply length_be_bytes. assert (L2 : length b2 = 8%nat) by apply length_be_bytes.
  assert (B1 : bytes b1) by apply bytes_be_bytes. assert (B2 : bytes b2) by apply bytes_be_bytes.
  pose proof (two_stage 128 16 d b1 b2 ltac:(lia) ltac:(lia) ltac:(lia)) as TS. cbv zeta in TS. change (128 - 16)%nat with 112%nat in TS. rewrite L1 in TS.
  rewrite Ld in TS.
  set (b := d ++ [128] ++ zeros (128 - 1 - rl)) in *.
  assert (Lb : length b = 128%nat) by (subst b; rewrite !app_length, length_zeros; cbn [length]; lia).
  assert (Bb : bytes b) by (subst b; apply bytes_app; split; [subst d; now apply bytes_slice|]; apply bytes_app; split; [constructor; [unfold is_byte; lia|constructor]|apply bytes_zeros]).
  destruct (112 <? S rl)%nat; rewrite TS; clear TS.
  - rewrite permute512_ok by (auto; lia). cbn [bind]. rewrite slice_all by auto.
    rewrite Be64ToBytes_correct by (rewrite length_zeros; lia). cbn [bind]. fold b1. rewrite Be64ToBytes_correct by (rewrite length_splice; rewrite length_zeros; lia). cbn [bind]. fold b2.
    assert (H8 : length (F512 h b) = 8%nat) by now apply compress512_len.
    assert (L3 : length (splice (splice (zeros 128) 112 b1) 120 b2) = 128%nat) by (rewrite splice2_len; rewrite ?length_zeros; lia).
    rewrite permute512_ok by (auto using bytes_splice, bytes_zeros; lia). cbn [bind]. rewrite slice_all by auto.
    cbn [fold_left]. change (112 + 8)%nat with 120%nat. apply BeWords64_ok; auto. unfold F512 at 1. rewrite compress512_len; lia.
  - cbn [bind]. rewrite Be64ToBytes_correct by lia. cbn [bind]. fold b1. rewrite Be64ToBytes_correct by (rewrite length_splice; lia). cbn [bind]. fold b2.
    assert (L3 : length (splice (splice b 112 b1) 120 b2) = 128%nat) by (rewrite splice2_len; lia).
    rewrite permute512_ok by (auto using bytes_splice; lia). cbn [bind]. rewrite slice_all by auto.
    cbn [fold_left]. change (112 + 8)%nat with 120%nat. apply BeWords64_ok; auto. unfold F512 at 1. rewrite compress512_len; lia.
Qed.
Lemma H384_eq : SHA2384State = H384. Proof. vm_compute. reflexivity. Qed.
