(** SHA2256 and SHA2512 objects against FIPS 180-4. *)
From Verif Require Import BaseLemmas Spec_Common Spec_Feed Spec_SHA2 Model_IntegerTools Proofs_IntegerTools Proofs_Windows Proofs_Modes5
  Model_Modes Model_Straight Model_SHA2Gen Model_Absorb Proofs_Absorb Model_SHA2 Proofs_SHA2.
From Verif Require Proofs_SHA256 Proofs_SHA512.
Open Scope Z_scope.

(** * loads *)
Lemma chunks_windows (inp : list Z) size n : (0 < size)%nat -> forall io, (io + n * size <= length inp)%nat ->
  chunks size (slice inp io (n * size)) = map (fun k => slice inp (io + size * k) size) (seq 0 n).
Proof.
  intros Hs. induction n as [|n IH]; intros io H; [reflexivity|].
  cbn [Nat.mul]. rewrite slice_app, chunks_app; [|lia|apply length_slice; lia].
  rewrite IH by lia. cbn [seq map]. rewrite Nat.mul_0_r, Nat.add_0_r. f_equal. rewrite <- seq_shift, map_map. apply map_ext. intros k. f_equal. lia.
Qed.
Lemma load_be_ok size n inp io : (size = 4 \/ size = 8)%nat -> bytes inp -> (io + n * size <= length inp)%nat ->
  load_be size n inp io = Ok (be_words size (slice inp io (n * size))).
Proof.
  intros Hs Hb H. unfold load_be, be_words. rewrite chunks_windows by lia.
  destruct (for_up_inv (fun i ws => ws = map be_val (map (fun k => slice inp (io + size * k) size) (seq 0 i)))
    (fun i ws => x <- (if (size =? 4)%nat then BeBytesTo32 inp (io + size * i)%nat else BeBytesTo64 inp (io + size * i)%nat) ;; Ok (ws ++ [x])) 0 n []) as (ws & E & G).
  - reflexivity.
  - intros i ws Hi ->. exists (map be_val (map (fun k => slice inp (io + size * k) size) (seq 0 (S i)))). split; [|reflexivity].
    rewrite seq_S, !map_app. cbn [map Nat.add].
    assert (io + size * i + size <= length inp)%nat by nia.
    destruct Hs as [-> | ->]; cbn [Nat.eqb]; [rewrite BeBytesTo32_correct by auto|rewrite BeBytesTo64_correct by auto]; reflexivity.
  - rewrite E. f_equal. exact G.
Qed.
Lemma be_words_len size n b : (0 < size)%nat -> length b = (n * size)%nat -> length (be_words size b) = n.
Proof.
  intros Hs H. unfold be_words. rewrite map_length. rewrite <- (slice_all b (n * size)) by lia. rewrite chunks_windows by lia.
  now rewrite map_length, seq_length.
Qed.
Lemma compress256_len h m : length h = 8%nat -> length (compress256 h m) = 8%nat.
Proof. intros H. unfold compress256, sha2_compress. rewrite map_length, combine_length, fold_round_len; lia. Qed.
Lemma compress512_len h m : length h = 8%nat -> length (compress512 h m) = 8%nat.
Proof. intros H. unfold compress512, sha2_compress. rewrite map_length, combine_length, fold_round_len; lia. Qed.
Definition F256 (h b : list Z) : list Z := compress256 h (be_words 4 b).
Definition F512 (h b : list Z) : list Z := compress512 h (be_words 8 b).
Lemma permute256_ok inp io h : length h = 8%nat -> bytes inp -> (io + 64 <= length inp)%nat ->
  PermuteR64P512U inp io h = Ok (F256 h (slice inp io 64)).
Proof.
  intros H Hb Hl. unfold PermuteR64P512U. rewrite load_be_ok by (auto; lia). cbn [bind]. change (16 * 4)%nat with 64%nat. f_equal.
  apply Proofs_SHA256.sha256_U_ok; auto. apply be_words_len; [lia|]. rewrite length_slice; lia.
Qed.
Lemma permute512_ok inp io h : length h = 8%nat -> bytes inp -> (io + 128 <= length inp)%nat ->
  PermuteR80P1024U inp io h = Ok (F512 h (slice inp io 128)).
Proof.
  intros H Hb Hl. unfold PermuteR80P1024U. rewrite load_be_ok by (auto; lia). cbn [bind]. change (16 * 8)%nat with 128%nat. f_equal.
  apply Proofs_SHA512.sha512_U_ok; auto. apply be_words_len; [lia|]. rewrite length_slice; lia.
Qed.

(** * output *)
Lemma BeWords_ok size h out oo : (size = 4 \/ size = 8)%nat -> length h = 8%nat -> (oo + 8 * size <= length out)%nat ->
  BeWordsToBlock size h out oo = Ok (splice out oo (words_out size h)).
Proof.
  intros Hs Hh H. unfold BeWordsToBlock, words_out.
  destruct (for_up_inv (fun i o => o = splice out oo (concat (map (be_bytes size) (firstn i h))))
    (fun i o => x <- get h i ;; if (size =? 4)%nat then Be32ToBytes x o (oo + size * i)%nat else Be64ToBytes x o (oo + size * i)%nat) 0 8 out) as (o & E & G).
  - unfold splice. cbn [map firstn concat app length]. rewrite Nat.add_0_r. symmetry. apply firstn_skipn.
  - intros i o Hi ->. rewrite (get_ok h i 0) by lia. cbn [bind].
    assert (LL : length (concat (map (be_bytes size) (firstn i h))) = (size * i)%nat).
    { rewrite (concat_length_eq size).
      - rewrite map_length, firstn_length. lia.
      - intros b Hb. apply in_map_iff in Hb. destruct Hb as (x & <- & _). apply length_be_bytes. }
    exists (splice out oo (concat (map (be_bytes size) (firstn (S i) h)))). split; [|reflexivity].
    assert (FS : firstn (S i) h = firstn i h ++ [nth i h 0]).
    { rewrite <- (firstn_skipn i h) at 1. rewrite firstn_app, firstn_length, Nat.min_l by lia.
      rewrite firstn_all2 by (rewrite firstn_length; lia). f_equal. replace (S i - i)%nat with 1%nat by lia.
      change (firstn 1 (skipn i h)) with (slice h i 1). apply (list_ext 0); [now rewrite length_slice by lia|].
      intros k Hk. rewrite length_slice in Hk by lia. assert (k = 0)%nat by lia. subst. rewrite BaseLemmas.nth_slice by lia. now rewrite Nat.add_0_r. }
    rewrite FS, map_app, concat_app. cbn [map concat]. rewrite app_nil_r.
    assert (LO : length (splice out oo (concat (map (be_bytes size) (firstn i h)))) = length out) by (apply length_splice; nia).
    destruct Hs as [-> | ->]; cbn [Nat.eqb]; [rewrite Be32ToBytes_correct by lia|rewrite Be64ToBytes_correct by lia];
      f_equal; rewrite <- LL; apply splice_splice_next; rewrite length_be_bytes; lia.
  - rewrite E. f_equal. subst o. rewrite Nat.add_0_l. rewrite firstn_all2 by lia. reflexivity.
Qed.
Lemma words_out_len size h : length (words_out size h) = (length h * size)%nat.
Proof.
  unfold words_out. rewrite (concat_length_eq size); [now rewrite map_length|].
  intros b Hb. apply in_map_iff in Hb. destruct Hb as (x & <- & _). apply length_be_bytes.
Qed.

(** * padding *)
Lemma splice_mid {A} (a b b' c : list A) n : length b = length b' -> n = length a -> splice (a ++ b ++ c) n b' = a ++ b' ++ c.
Proof.
  intros H ->. unfold splice. rewrite firstn_app, firstn_all, Nat.sub_diag. cbn [firstn]. rewrite app_nil_r. f_equal. f_equal.
  rewrite skipn_app, skipn_all2 by lia. cbn [app]. rewrite skipn_app, skipn_all2 by lia. cbn [app].
  replace (length a + length b' - length a - length b)%nat with 0%nat by lia. reflexivity.
Qed.
Lemma fill_buf (R pos : nat) buf : length buf = R -> (pos < R)%nat ->
  (inp <- put buf (0 + pos) 128 ;; if (S pos <? R)%nat then wr inp (0 + S pos) (zeros (R - S pos)) else Ok inp)
  = Ok (slice buf 0 pos ++ [128] ++ zeros (R - 1 - pos)).
Proof.
  intros H1 H2. rewrite !Nat.add_0_l. rewrite put_ok by lia. cbn [bind].
  assert (E : upd buf pos 128 = slice buf 0 pos ++ [128] ++ skipn (S pos) buf).
  { rewrite upd_split by lia. unfold slice. rewrite skipn_O. reflexivity. }
  assert (L : length (slice buf 0 pos) = pos) by (apply length_slice; lia).
  destruct (Nat.ltb_spec (S pos) R).
  - rewrite wr_ok by (rewrite length_upd, length_zeros; lia). rewrite E. f_equal.
    rewrite app_assoc. rewrite <- (app_nil_r (skipn (S pos) buf)), splice_mid.
    + rewrite app_nil_r, <- app_assoc. do 3 f_equal. lia.
    + rewrite skipn_length, length_zeros. lia.
    + rewrite app_length. cbn [length]. lia.
  - rewrite E. do 3 f_equal. rewrite skipn_all2 by lia. replace (R - 1 - pos)%nat with 0%nat by lia. reflexivity.
Qed.
Lemma zeros_app a b : zeros (a + b) = zeros a ++ zeros b.
Proof. unfold zeros. apply repeat_app. Qed.
Lemma concat_len (R : nat) bs : Forall (Proofs_Absorb.blk R) bs -> length (concat bs) = (length bs * R)%nat.
Proof. intros H. apply concat_length_eq. intros b Hb. rewrite Forall_forall in H. now apply H. Qed.
Lemma chunks_concat (R : nat) bs l : (0 < R)%nat -> Forall (Proofs_Absorb.blk R) bs -> chunks R (concat bs ++ l) = bs ++ chunks R l.
Proof.
  intros HR H. induction H as [|b t (_ & Hb) Ht IH]; [reflexivity|]. cbn [concat]. rewrite <- app_assoc, chunks_app by auto. now rewrite IH.
Qed.
Lemma chunk1 {A} R (l : list A) : (0 < R)%nat -> length l = R -> chunks R l = [l].
Proof. intros H1 H2. rewrite <- (app_nil_r l) at 1. rewrite chunks_app by auto. now rewrite chunks_nil. Qed.
Definition last_blocks (R L : nat) (d len : list Z) : list (list Z) :=
  if (length d <? R - L)%nat then [d ++ [128] ++ zeros (R - L - 1 - length d) ++ len]
  else [d ++ [128] ++ zeros (R - 1 - length d); zeros (R - L) ++ len].
Lemma pad_blocks (R L : nat) bs d len : (0 < L < R)%nat -> (0 < R)%nat -> length len = L -> Forall (Proofs_Absorb.blk R) bs -> (length d < R)%nat ->
  chunks R ((concat bs ++ d) ++ [128] ++ zeros (pad_zeros R L (length (concat bs ++ d))) ++ len) = bs ++ last_blocks R L d len.
Proof.
  intros HL HR Hlen Hbs Hd. rewrite <- app_assoc, chunks_concat by auto. f_equal.
  assert (PZ : pad_zeros R L (length (concat bs ++ d)) = if (length d <? R - L)%nat then (R - L - 1 - length d)%nat else (R + (R - L) - 1 - length d)%nat).
  { unfold pad_zeros. rewrite app_length, (concat_len R) by auto.
    replace (length bs * R + length d + 1 + L)%nat with ((length d + 1 + L) + length bs * R)%nat by lia. rewrite Nat.mod_add by lia.
    destruct (Nat.ltb_spec (length d) (R - L)).
    - destruct (Nat.eq_dec (length d + 1 + L) R) as [E|].
      + rewrite E, Nat.mod_same, Nat.sub_0_r, Nat.mod_same by lia. lia.
      + rewrite (Nat.mod_small (length d + 1 + L)) by lia. rewrite Nat.mod_small by lia. lia.
    - replace (length d + 1 + L)%nat with ((length d + 1 + L - R) + 1 * R)%nat at 1 by lia. rewrite Nat.mod_add by lia.
      rewrite (Nat.mod_small (length d + 1 + L - R)) by lia. rewrite Nat.mod_small by lia. lia. }
  rewrite PZ. unfold last_blocks. destruct (Nat.ltb_spec (length d) (R - L)).
  - apply chunk1; auto. rewrite !app_length, length_zeros. cbn [length]. lia.
  - replace (R + (R - L) - 1 - length d)%nat with ((R - 1 - length d) + (R - L))%nat by lia.
    rewrite zeros_app.
    replace (d ++ [128] ++ (zeros (R - 1 - length d) ++ zeros (R - L)) ++ len) with ((d ++ [128] ++ zeros (R - 1 - length d)) ++ (zeros (R - L) ++ len)) by now rewrite <- !app_assoc.
    rewrite chunks_app.
    + f_equal. apply chunk1; auto. rewrite app_length, length_zeros. lia.
    + auto.
    + rewrite !app_length, length_zeros. cbn [length]. lia.
Qed.
Lemma be_bytes_split n m x : be_bytes (n + m) x = be_bytes n (x / 256 ^ Z.of_nat m) ++ be_bytes m x.
Proof.
  apply be_val_inj.
  - apply bytes_be_bytes.
  - apply bytes_app. split; apply bytes_be_bytes.
  - now rewrite app_length, !length_be_bytes.
  - rewrite be_val_app, !be_val_be_bytes, length_be_bytes, Nat2Z.inj_add, Z.pow_add_r by lia.
    rewrite (Z.mul_comm (256 ^ Z.of_nat n)), Z.rem_mul_r by (try (apply Z.pow_nonzero; lia); apply Z.pow_pos_nonneg; lia). lia.
Qed.

(** * HashFinal *)
Lemma Permute256_ok s b o : length (fst s) = 8%nat -> bytes b -> (o + 64 <= length b)%nat ->
  SHA2256_Permute s b o = Ok (F256 (fst s) (slice b o 64), u64 (snd s + 64)).
Proof. intros. unfold SHA2256_Permute. rewrite permute256_ok by auto. reflexivity. Qed.
Lemma Permute512_ok s b o : length (fst s) = 8%nat -> bytes b -> (o + 128 <= length b)%nat ->
  SHA2512_Permute s b o = Ok (F512 (fst s) (slice b o 128), s512_inc (snd s) 128).
Proof. intros. unfold SHA2512_Permute. rewrite permute512_ok by auto. reflexivity. Qed.

Lemma write_len R a b (x y : list Z) z : (length a + z + length x + length y = R)%nat ->
  b = a ++ zeros (z + length x + length y) ->
  splice (splice b (length a + z) x) (length a + z + length x) y = a ++ zeros z ++ x ++ y.
Proof.
  intros H ->. rewrite !zeros_app.
  replace (a ++ (zeros z ++ zeros (length x)) ++ zeros (length y)) with ((a ++ zeros z) ++ zeros (length x) ++ zeros (length y)) by now rewrite <- !app_assoc.
  rewrite splice_mid by (rewrite ?app_length, ?length_zeros; lia).
  replace ((a ++ zeros z) ++ x ++ zeros (length y)) with ((a ++ zeros z ++ x) ++ zeros (length y) ++ []) by now rewrite app_nil_r, <- !app_assoc.
  rewrite splice_mid by (rewrite ?app_length, ?length_zeros; lia).
  now rewrite app_nil_r, <- !app_assoc.
Qed.
Lemma bitlen_bytes x : be_bytes 4 (wshr (wshl 64 (u64 x) 3) 32) ++ be_bytes 4 (u32 (wshl 64 (u64 x) 3)) = be_bytes 8 (8 * x).
Proof.
  assert (E : wshl 64 (u64 x) 3 = (8 * x) mod 2 ^ 64).
  { unfold wshl, u64. rewrite Z.shiftl_mul_pow2 by lia. change (2 ^ 3) with 8. rewrite Z.mul_mod_idemp_l by lia. f_equal. lia. }
  rewrite E. unfold wshr, u32. rewrite Z.shiftr_div_pow2 by lia.
  transitivity (be_bytes (4 + 4) ((8 * x) mod 2 ^ 64)).
  - rewrite be_bytes_split. change (256 ^ Z.of_nat 4) with (2 ^ 32). f_equal. apply (be_bytes_mod 4).
  - apply (be_bytes_mod 8).
Qed.

Lemma HashFinal256_ok buf pos h t : length h = 8%nat -> bytes buf -> length buf = 64%nat -> (pos < 64)%nat ->
  exists t' buf', SHA2256_HashFinal SHA2256_Permute buf 0 pos (h, t)
    = Ok ((fold_left F256 (last_blocks 64 8 (slice buf 0 pos) (be_bytes 8 (8 * (t + Z.of_nat pos)))) h, t'), buf').
Proof.
  intros Hh Hb Hl Hp. unfold SHA2256_HashFinal. cbn [fst snd]. set (x := t + Z.of_nat pos).
  replace (pos =? 64)%nat with false by (symmetry; apply Nat.eqb_neq; lia). cbn [bind]. cbv zeta. cbn [fst snd].
  rewrite <- bind_assoc, fill_buf by auto. cbn [bind].
  assert (L : length (slice buf 0 pos) = pos) by (apply length_slice; lia).
  assert (Bd : bytes (slice buf 0 pos ++ [128] ++ zeros (64 - 1 - pos))).
  { apply bytes_app; split; [now apply bytes_slice|]. apply bytes_app; split; [|apply bytes_zeros]. constructor; [|constructor]. unfold is_byte; lia. }
  rewrite <- bitlen_bytes. set (b1 := be_bytes 4 _). set (b2 := be_bytes 4 (u32 _)).
  assert (L1 : length b1 = 4%nat) by apply length_be_bytes. assert (L2 : length b2 = 4%nat) by apply length_be_bytes.
  assert (B12 : bytes (b1 ++ b2)) by (apply bytes_app; split; apply bytes_be_bytes).
  unfold last_blocks. rewrite L. change (64 - 8)%nat with 56%nat.
  destruct (Nat.ltb_spec pos 56) as [P|P].
  - replace (56 <? S pos)%nat with false by (symmetry; apply Nat.ltb_ge; lia). cbn [bind].
    set (b := slice buf 0 pos ++ [128] ++ zeros (64 - 1 - pos)) in *.
    assert (Lb : length b = 64%nat) by (subst b; rewrite !app_length, length_zeros; cbn [length]; lia).
    rewrite Be32ToBytes_correct by lia. cbn [bind]. fold b1. rewrite Be32ToBytes_correct by (rewrite length_splice; lia). cbn [bind]. fold b2.
    replace (splice (splice b (0 + 56) b1) (0 + 60) b2) with (slice buf 0 pos ++ [128] ++ zeros (56 - 1 - pos) ++ b1 ++ b2).
    2:{ symmetry. replace (0 + 56)%nat with (length (slice buf 0 pos ++ [128%Z]) + (55 - pos))%nat by (rewrite app_length; cbn [length]; lia).
        replace (0 + 60)%nat with (length (slice buf 0 pos ++ [128%Z]) + (55 - pos) + length b1)%nat by (rewrite app_length; cbn [length]; lia).
        rewrite (write_len 64).
        - rewrite <- app_assoc. reflexivity.
        - rewrite app_length. cbn [length]. lia.
        - subst b. rewrite <- app_assoc. do 3 f_equal. lia. }
    set (bb := slice buf 0 pos ++ _).
    assert (Lbb : length bb = 64%nat) by (subst bb; rewrite !app_length, length_zeros; cbn [length]; lia).
    rewrite Permute256_ok; auto.
    + cbn [bind fst snd fold_left]. rewrite slice_all by auto. eauto.
    + subst bb. apply bytes_app in Bd. destruct Bd as (B1 & B2). apply bytes_app; split; auto. apply bytes_app in B2. destruct B2. apply bytes_app; split; auto. apply bytes_app; split; auto. apply bytes_zeros.
    + lia.
  - replace (56 <? S pos)%nat with true by (symmetry; apply Nat.ltb_lt; lia).
    set (b := slice buf 0 pos ++ [128] ++ zeros (64 - 1 - pos)) in *.
    assert (Lb : length b = 64%nat) by (subst b; rewrite !app_length, length_zeros; cbn [length]; lia).
    rewrite Permute256_ok by (auto; lia). cbn [bind fst snd]. rewrite slice_all by auto.
    rewrite wr_ok by (rewrite length_zeros; lia). cbn [bind]. rewrite splice_all by (rewrite length_zeros; lia).
    rewrite Be32ToBytes_correct by (rewrite length_zeros; lia). cbn [bind]. fold b1. rewrite Be32ToBytes_correct by (rewrite length_splice; rewrite length_zeros; lia). cbn [bind]. fold b2.
    replace (splice (splice (zeros 64) (0 + 56) b1) (0 + 60) b2) with (zeros 56 ++ b1 ++ b2).
    2:{ symmetry. pose proof (write_len 64 [] (zeros 64) b1 b2 56) as W. rewrite L1, L2 in W. apply W; reflexivity. }
    rewrite Permute256_ok.
    + cbn [bind fst snd fold_left]. rewrite slice_all by (rewrite !app_length, length_zeros; lia). eauto.
    + apply compress256_len; auto.
    + apply bytes_app; split; auto. apply bytes_zeros.
    + rewrite !app_length, length_zeros; lia.
Qed.

Definition T512 (n : Z) : Z * Z := (n mod 2 ^ 61, (n / 2 ^ 61) mod 2 ^ 64).
Lemma inc_T512 n k : 0 <= n -> 0 <= k <= 128 -> s512_inc (T512 n) k = T512 (n + k).
Proof.
  intros Hn Hk. unfold s512_inc, T512. cbn [fst snd]. unfold u64.
  pose proof (Z.mod_pos_bound n (2 ^ 61) ltac:(lia)) as Hm.
  rewrite !(Z.mod_small (n mod 2 ^ 61 + k) (2 ^ 64)) by lia.
  assert (D : n + k = (n mod 2 ^ 61 + k) + (n / 2 ^ 61) * 2 ^ 61) by (rewrite (Z.div_mod n (2 ^ 61)) at 1; lia).
  rewrite D. rewrite Z.mod_add, Z.div_add by lia. set (a := n mod 2 ^ 61 + k) in *. set (q := n / 2 ^ 61) in *.
  destruct (Z.ltb_spec 0x1FFFFFFFFFFFFFFF a).
  - change 0x1FFFFFFFFFFFFFFF with (Z.ones 61). rewrite Z.land_ones by lia. f_equal.
    unfold wshr. rewrite Z.shiftr_div_pow2 by lia. rewrite Z.add_mod_idemp_l by lia. f_equal. lia.
  - rewrite (Z.mod_small a), (Z.div_small a) by lia. reflexivity.
Qed.
(** the length field the code writes: the bit length, with the high word advanced by one block when the padding needs a second block *)
Definition field512 (n : Z) (pos : nat) : Z := if (pos <? 112)%nat then 8 * n else 8 * n + 2 ^ 64 * ((n + 128) / 2 ^ 61 - n / 2 ^ 61).
Lemma field_bytes n hi : be_bytes 8 (hi mod 2 ^ 64) ++ be_bytes 8 (wshl 64 (n mod 2 ^ 61) 3) = be_bytes 16 (8 * n + 2 ^ 64 * (hi - n / 2 ^ 61)).
Proof.
  transitivity (be_bytes (8 + 8) (8 * n + 2 ^ 64 * (hi - n / 2 ^ 61))); [|reflexivity].
  rewrite be_bytes_split. change (256 ^ Z.of_nat 8) with (2 ^ 64). f_equal.
  - rewrite (be_bytes_mod 8). f_equal. rewrite Z.mul_comm with (n := 2 ^ 64), Z.div_add by lia.
    change (2 ^ 64) with (8 * 2 ^ 61). rewrite Z.div_mul_cancel_l by lia. lia.
  - rewrite <- (be_bytes_mod 8 (8 * n + _)), <- (be_bytes_mod 8 (wshl _ _ _)). f_equal. change (2 ^ (8 * Z.of_nat 8)) with (2 ^ 64).
    rewrite (Z.mul_comm (2 ^ 64)), Z.mod_add by lia. unfold wshl. rewrite Z.shiftl_mul_pow2, Z.mod_mod by lia. change (2 ^ 3) with 8. clear. lia.
Qed.
Lemma HashFinal512_ok buf pos h t : length h = 8%nat -> bytes buf -> length buf = 128%nat -> (pos < 128)%nat -> 0 <= t ->
  exists t' buf', SHA2512_HashFinal SHA2512_Permute buf 0 pos (h, T512 t)
    = Ok ((fold_left F512 (last_blocks 128 16 (slice buf 0 pos) (be_bytes 16 (field512 (t + Z.of_nat pos) pos))) h, t'), buf').
Proof.
  intros Hh Hb Hl Hp Ht. unfold SHA2512_HashFinal. cbn [fst snd]. rewrite inc_T512 by lia. set (x := t + Z.of_nat pos).
  replace (pos =? 128)%nat with false by (symmetry; apply Nat.eqb_neq; lia). cbn [bind]. cbv zeta. cbn [fst snd].
  rewrite <- bind_assoc, fill_buf by auto. cbn [bind].
  assert (L : length (slice buf 0 pos) = pos) by (apply length_slice; lia).
  assert (Bd : bytes (slice buf 0 pos ++ [128] ++ zeros (128 - 1 - pos))).
  { apply bytes_app; split; [now apply bytes_slice|]. apply bytes_app; split; [|apply bytes_zeros]. constructor; [|constructor]. unfold is_byte; lia. }
  unfold last_blocks, field512. rewrite L. change (128 - 16)%nat with 112%nat.
  destruct (Nat.ltb_spec pos 112) as [P|P].
  - replace (112 <? S pos)%nat with false by (symmetry; apply Nat.ltb_ge; lia). cbn [bind]. cbn [fst snd].
    replace (8 * x) with (8 * x + 2 ^ 64 * (x / 2 ^ 61 - x / 2 ^ 61)) by lia. rewrite <- field_bytes.
    change (snd (T512 x)) with ((x / 2 ^ 61) mod 2 ^ 64). change (fst (T512 x)) with (x mod 2 ^ 61).
    set (b1 := be_bytes 8 _). set (b2 := be_bytes 8 (wshl _ _ _)).
    assert (L1 : length b1 = 8%nat) by apply length_be_bytes. assert (L2 : length b2 = 8%nat) by apply length_be_bytes.
    assert (B12 : bytes (b1 ++ b2)) by (apply bytes_app; split; apply bytes_be_bytes).
    set (b := slice buf 0 pos ++ [128] ++ zeros (128 - 1 - pos)) in *.
    assert (Lb : length b = 128%nat) by (subst b; rewrite !app_length, length_zeros; cbn [length]; lia).
    rewrite Be64ToBytes_correct by lia. cbn [bind]. fold b1. rewrite Be64ToBytes_correct by (rewrite length_splice; lia). cbn [bind]. fold b2.
    replace (splice (splice b (0 + 112) b1) (0 + 120) b2) with (slice buf 0 pos ++ [128] ++ zeros (112 - 1 - pos) ++ b1 ++ b2).
    2:{ symmetry. replace (0 + 112)%nat with (length (slice buf 0 pos ++ [128%Z]) + (111 - pos))%nat by (rewrite app_length; cbn [length]; lia).
        replace (0 + 120)%nat with (length (slice buf 0 pos ++ [128%Z]) + (111 - pos) + length b1)%nat by (rewrite app_length; cbn [length]; lia).
        rewrite (write_len 128).
        - rewrite <- app_assoc. reflexivity.
        - rewrite app_length. cbn [length]. lia.
        - subst b. rewrite <- app_assoc. do 3 f_equal. lia. }
    set (bb := slice buf 0 pos ++ _).
    assert (Lbb : length bb = 128%nat) by (subst bb; rewrite !app_length, length_zeros; cbn [length]; lia).
    rewrite Permute512_ok; auto.
    + cbn [bind fst snd fold_left]. rewrite slice_all by auto. eauto.
    + subst bb. apply bytes_app in Bd. destruct Bd as (B1 & B2). apply bytes_app; split; auto. apply bytes_app in B2. destruct B2. apply bytes_app; split; auto. apply bytes_app; split; auto. apply bytes_zeros.
    + lia.
  - replace (112 <? S pos)%nat with true by (symmetry; apply Nat.ltb_lt; lia).
    set (b := slice buf 0 pos ++ [128] ++ zeros (128 - 1 - pos)) in *.
    assert (Lb : length b = 128%nat) by (subst b; rewrite !app_length, length_zeros; cbn [length]; lia).
    rewrite Permute512_ok by (auto; lia). cbn [bind fst snd]. rewrite slice_all by auto. rewrite inc_T512 by lia.
    rewrite <- field_bytes.
    change (snd (T512 (x + 128))) with (((x + 128) / 2 ^ 61) mod 2 ^ 64). change (fst (T512 x)) with (x mod 2 ^ 61).
    set (b1 := be_bytes 8 _). set (b2 := be_bytes 8 (wshl _ _ _)).
    assert (L1 : length b1 = 8%nat) by apply length_be_bytes. assert (L2 : length b2 = 8%nat) by apply length_be_bytes.
    assert (B12 : bytes (b1 ++ b2)) by (apply bytes_app; split; apply bytes_be_bytes).
    rewrite wr_ok by (rewrite length_zeros; lia). cbn [bind]. rewrite splice_all by (rewrite length_zeros; lia). cbn [fst snd].
    change (snd (T512 (x + 128))) with (((x + 128) / 2 ^ 61) mod 2 ^ 64).
    rewrite Be64ToBytes_correct by (rewrite length_zeros; lia). cbn [bind]. fold b1. rewrite Be64ToBytes_correct by (rewrite length_splice; rewrite length_zeros; lia). cbn [bind]. fold b2.
    replace (splice (splice (zeros 128) (0 + 112) b1) (0 + 120) b2) with (zeros 112 ++ b1 ++ b2).
    2:{ symmetry. pose proof (write_len 128 [] (zeros 128) b1 b2 112) as W. rewrite L1, L2 in W. apply W; reflexivity. }
    rewrite Permute512_ok.
    + cbn [bind fst snd fold_left]. rewrite slice_all by (rewrite !app_length, length_zeros; lia). eauto.
    + apply compress512_len; auto.
    + apply bytes_app; split; auto. apply bytes_zeros.
    + rewrite !app_length, length_zeros; lia.
Qed.

(** * the objects *)
Definition I8 {A} (s : list Z * A) : Prop := length (fst s) = 8%nat.
Definition g256 (s : s256) (b : list Z) : s256 := (F256 (fst s) b, u64 (snd s + 64)).
Definition g512 (s : s512) (b : list Z) : s512 := (F512 (fst s) b, s512_inc (snd s) 128).
Lemma g256_ok (s : s256) b o : I8 s -> bytes b -> (o + 64 <= length b)%nat -> SHA2256_Permute s b o = Ok (g256 s (slice b o 64)) /\ I8 (g256 s (slice b o 64)).
Proof. intros H1 H2 H3. split; [now apply Permute256_ok|]. now apply compress256_len. Qed.
Lemma g512_ok (s : s512) b o : I8 s -> bytes b -> (o + 128 <= length b)%nat -> SHA2512_Permute s b o = Ok (g512 s (slice b o 128)) /\ I8 (g512 s (slice b o 128)).
Proof. intros H1 H2 H3. split; [now apply Permute512_ok|]. now apply compress512_len. Qed.
Lemma fold_g256 bs : forall h t, fold_left g256 bs (h, t) = (fold_left F256 bs h, if bs then t else u64 (t + 64 * Z.of_nat (length bs))).
Proof.
  induction bs as [|b bs IH]; intros h t; [reflexivity|]. cbn [fold_left]. unfold g256 at 2. cbn [fst snd]. rewrite IH. f_equal.
  destruct bs; cbn [length]; [f_equal; lia|]. unfold u64. rewrite Z.add_mod_idemp_l by lia. f_equal. lia.
Qed.
Lemma fold_g512 bs : forall h n, 0 <= n -> fold_left g512 bs (h, T512 n) = (fold_left F512 bs h, T512 (n + 128 * Z.of_nat (length bs))).
Proof.
  induction bs as [|b bs IH]; intros h n Hn; cbn [fold_left length].
  - do 2 f_equal. lia.
  - unfold g512 at 2. cbn [fst snd]. rewrite inc_T512 by lia. rewrite IH by lia. do 2 f_equal. lia.
Qed.
Definition after256 (o : sha256_obj) (m : list Z) : Prop := ainv 64 64 g256 I8 false s256_init m o.
Definition after512 (o : sha512_obj) (m : list Z) : Prop := ainv 128 128 g512 I8 false s512_init m o.
Lemma after256_new : after256 SHA2256_new [].
Proof. apply ainv_start; [lia|exact eq_refl|apply bytes_zeros|reflexivity]. Qed.
Lemma after512_new : after512 SHA2512_new [].
Proof. apply ainv_start; [lia|exact eq_refl|apply bytes_zeros|reflexivity]. Qed.
Lemma after256_feed o m ps : after256 o m -> Forall p_ok ps -> exists o', feed SHA2256_Update ps o = Ok o' /\ after256 o' (m ++ joined ps).
Proof. intros H1 H2. eapply eager_feed; eauto using g256_ok. lia. Qed.
Lemma after512_feed o m ps : after512 o m -> Forall p_ok ps -> exists o', feed SHA2512_Update ps o = Ok o' /\ after512 o' (m ++ joined ps).
Proof. intros H1 H2. eapply eager_feed; eauto using g512_ok. lia. Qed.

Lemma H256_eq : SHA2256State = H256. Proof. vm_compute. reflexivity. Qed.
Lemma H512_eq : SHA2512State = H512. Proof. vm_compute. reflexivity. Qed.

Lemma final256 o m out oo : after256 o m -> (oo + 32 <= length out)%nat ->
  SHA2256_Finalize o out oo = Ok (SHA2256_new, splice out oo (sha256 m)).
Proof.
  destruct o as ((s & buf) & pos). intros (I & Bb & Lb & P & bs & Hbs & Hm & Hs) H. unfold SHA2256_Finalize.
  replace ((oo <=? length out)%nat && (length out - oo <? 32)%nat) with false by (symmetry; apply Bool.andb_false_intro2; apply Nat.ltb_ge; lia).
  cbn [negb guard bind]. unfold s256_init in Hs. rewrite fold_g256 in Hs. subst s. set (t := if bs then 0 else _).
  destruct (HashFinal256_ok buf pos (fold_left F256 bs SHA2256State) t) as (t' & buf' & E); auto.
  rewrite E. cbn [bind fst].
  assert (EL : be_bytes 8 (8 * (t + Z.of_nat pos)) = be_bytes 8 (8 * Z.of_nat (length m))).
  { rewrite <- (be_bytes_mod 8 (8 * (t + _))), <- (be_bytes_mod 8 (8 * Z.of_nat (length m))). f_equal. change (2 ^ (8 * Z.of_nat 8)) with (2 ^ 64).
    rewrite Hm, app_length, (concat_len 64) by auto. rewrite length_slice by lia.
    rewrite <- (Z.mul_mod_idemp_r 8 (t + _)), <- (Z.mul_mod_idemp_r 8 (Z.of_nat _)) by lia. do 2 f_equal. unfold t.
    destruct bs; cbn [length]; [f_equal; lia|]. unfold u64. rewrite Z.add_mod_idemp_l by lia. f_equal. lia. }
  rewrite EL. clear EL t E.
  assert (EP : fold_left F256 (last_blocks 64 8 (slice buf 0 pos) (be_bytes 8 (8 * Z.of_nat (length m)))) (fold_left F256 bs SHA2256State)
    = merkle 64 8 F256 H256 m).
  { unfold merkle, sha2_pad. rewrite <- fold_left_app, H256_eq. f_equal. rewrite Hm at 2 3. symmetry. apply pad_blocks; auto; try lia; first [apply length_be_bytes | rewrite length_slice; lia]. }
  rewrite EP. rewrite BeWords_ok; auto.
  - rewrite <- EP. clear EP. assert (G : forall l h, length h = 8%nat -> length (fold_left F256 l h) = 8%nat).
    { induction l as [|b l IH]; intros hh Hh; cbn [fold_left]; auto. apply IH. now apply compress256_len. }
    apply G, G. reflexivity.
Qed.
Definition sha512_field (m : list Z) (field : Z) : list Z :=
  words_out 8 (fold_left F512 (chunks 128 (m ++ [128] ++ zeros (pad_zeros 128 16 (length m)) ++ be_bytes 16 field)) H512).
Lemma final512 o m out oo : after512 o m -> (oo + 64 <= length out)%nat ->
  SHA2512_Finalize o out oo = Ok (SHA2512_new, splice out oo (sha512_field m (field512 (Z.of_nat (length m)) (length m mod 128)))).
Proof.
  destruct o as ((s & buf) & pos). intros (I & Bb & Lb & P & bs & Hbs & Hm & Hs) H. unfold SHA2512_Finalize.
  replace ((oo <=? length out)%nat && (length out - oo <? 64)%nat) with false by (symmetry; apply Bool.andb_false_intro2; apply Nat.ltb_ge; lia).
  cbn [negb guard bind]. unfold s512_init in Hs. change (0, 0) with (T512 0) in Hs. rewrite fold_g512 in Hs by lia. subst s.
  destruct (HashFinal512_ok buf pos (fold_left F512 bs SHA2512State) (0 + 128 * Z.of_nat (length bs))) as (t' & buf' & E); auto; try lia.
  rewrite E. cbn [bind fst]. clear E.
  assert (LM : length m = (length bs * 128 + pos)%nat) by (rewrite Hm, app_length, (concat_len 128), length_slice; auto; lia).
  replace (0 + 128 * Z.of_nat (length bs) + Z.of_nat pos) with (Z.of_nat (length m)) by lia.
  replace (length m mod 128)%nat with pos by (rewrite LM, Nat.add_comm, Nat.mod_add, Nat.mod_small; lia).
  set (fld := be_bytes 16 _).
  assert (EP : fold_left F512 (last_blocks 128 16 (slice buf 0 pos) fld) (fold_left F512 bs SHA2512State)
    = fold_left F512 (chunks 128 (m ++ [128] ++ zeros (pad_zeros 128 16 (length m)) ++ fld)) H512).
  { rewrite <- fold_left_app, H512_eq. f_equal. rewrite Hm at 1 2. symmetry. apply pad_blocks; auto; try lia; first [apply length_be_bytes | rewrite length_slice; lia]. }
  rewrite EP. rewrite BeWords_ok; auto.
  - rewrite <- EP. clear EP. assert (G : forall l h, length h = 8%nat -> length (fold_left F512 l h) = 8%nat).
    { induction l as [|b l IH]; intros hh Hh; cbn [fold_left]; auto. apply IH. now apply compress512_len. }
    apply G, G. reflexivity.
Qed.
