(** Parallel SHA2-256 and SHA2-512: instances. *)
From Verif Require Import BaseLemmas Spec_Common Spec_Feed Spec_SHA2 Model_IntegerTools Proofs_IntegerTools Proofs_Windows Proofs_Modes5
  Model_Modes Model_Absorb Proofs_Absorb Model_SHA2 Proofs_SHA2obj Proofs_SHA2cmp Model_SHA2Par Proofs_SHA2Par.
Open Scope Z_scope.

Lemma slice_splice_in (l : list Z) o a d n : (o + n <= length l)%nat -> (a + length d <= n)%nat ->
  slice (splice l (o + a) d) o n = splice (slice l o n) a d.
Proof.
  intros H1 H2. apply (list_ext 0).
  - rewrite length_slice by (rewrite length_splice; lia). rewrite length_splice; rewrite length_slice; lia.
  - intros i Hi. rewrite length_slice in Hi by (rewrite length_splice; lia). rewrite BaseLemmas.nth_slice by lia.
    rewrite !nth_splice by (rewrite ?length_slice; lia). rewrite BaseLemmas.nth_slice by lia.
    destruct (Nat.ltb_spec (o + i) (o + a)), (Nat.ltb_spec i a); try lia; auto.
    destruct (Nat.ltb_spec (o + i) (o + a + length d)), (Nat.ltb_spec i (a + length d)); try lia; auto. f_equal. lia.
Qed.
Lemma upd_splice1 (l : list Z) i v : (i < length l)%nat -> upd l i v = splice l i [v].
Proof. intros H. rewrite upd_split by lia. unfold splice. cbn [length app]. now rewrite Nat.add_1_r. Qed.

(** the padding block at an offset *)
Lemma pad_window (R L : nat) buf io b1 b2 : (0 < L)%nat -> (L < R)%nat -> (io + R <= length buf)%nat -> (length b1 + length b2 = L)%nat ->
  let b := splice (splice (splice (upd buf io 128) (io + 1) (zeros (R - 1))) (io + (R - L)) b1) (io + (R - L + length b1)) b2 in
  length b = length buf /\ slice b io R = [128] ++ zeros (R - L - 1) ++ b1 ++ b2.
Proof.
  intros H1 H2 H3 H4 b. subst b. rewrite upd_splice1 by lia.
  assert (L1 : length (splice buf io [128]) = length buf) by (apply length_splice; cbn [length]; lia).
  assert (L2 : length (splice (splice buf io [128]) (io + 1) (zeros (R - 1))) = length buf) by (rewrite length_splice; rewrite ?length_zeros; lia).
  assert (L3 : length (splice (splice (splice buf io [128]) (io + 1) (zeros (R - 1))) (io + (R - L)) b1) = length buf) by (rewrite length_splice; lia).
  split; [rewrite length_splice; lia|].
  rewrite slice_splice_in by lia. rewrite slice_splice_in by lia. rewrite slice_splice_in by (rewrite ?length_zeros; lia).
  rewrite <- (Nat.add_0_r io) at 1. rewrite slice_splice_in by (cbn [length]; lia).
  assert (LS : length (slice buf io R) = R) by (apply length_slice; lia). set (x := slice buf io R) in *. clearbody x.
  destruct x as [|x0 x]; cbn [length] in LS; [lia|].
  replace (splice (x0 :: x) 0 [128]) with ([128] ++ x ++ []) by (unfold splice; cbn; now rewrite app_nil_r).
  rewrite splice_mid by (rewrite ?length_zeros; cbn [length]; lia). rewrite app_nil_r.
  change ((splice (splice ([128] ++ zeros (R - 1)) (R - L) b1) (R - L + length b1) b2) = [128] ++ zeros (R - L - 1) ++ b1 ++ b2).
  replace (R - L)%nat with (length [128%Z] + (R - L - 1))%nat at 1 2 by (cbn [length]; lia).
  apply (write_len R).
  - cbn [length]. lia.
  - do 2 f_equal. lia.
Qed.
Lemma HF256_zero buf io h t : length h = 8%nat -> bytes buf -> (io + 64 <= length buf)%nat ->
  exists t' buf', SHA2256_HashFinal SHA2256_Permute buf io 0 (h, t) = Ok ((F256 h ([128] ++ zeros 55 ++ be_bytes 8 (8 * t)), t'), buf').
Proof.
  intros Hh Hb Hl. unfold SHA2256_HashFinal. cbn [fst snd Nat.eqb bind]. cbv zeta. cbn [fst snd]. rewrite Nat.add_0_r, Z.add_0_r.
  rewrite put_ok by lia. cbn [bind]. change (1 <? 64)%nat with true. change (56 <? 1)%nat with false. cbv iota.
  rewrite wr_ok by (rewrite length_upd, length_zeros; lia). cbn [bind].
  assert (L1 : length (splice (upd buf io 128) (io + 1) (zeros (64 - 1))) = length buf) by (rewrite length_splice; rewrite ?length_upd, ?length_zeros; lia).
  rewrite Be32ToBytes_correct by lia. cbn [bind]. rewrite Be32ToBytes_correct by (rewrite length_splice; rewrite ?length_be_bytes; lia). cbn [bind].
  rewrite <- bitlen_bytes. set (b1 := be_bytes 4 _). set (b2 := be_bytes 4 (u32 _)).
  destruct (pad_window 64 8 buf io b1 b2) as (P1 & P2); try lia.
  { reflexivity. }
  change (64 - 8)%nat with 56%nat in *. change (56 + length b1)%nat with 60%nat in *.
  set (b := splice (splice (splice _ _ _) _ _) _ _) in *.
  rewrite Permute256_ok; auto; [|subst b|lia].
  - cbn [bind fst snd]. rewrite P2. change (56 - 1)%nat with 55%nat. eauto.
  - assert (is_byte 128) by (unfold is_byte; lia). repeat apply bytes_splice; auto using bytes_upd, bytes_zeros; apply bytes_be_bytes.
Qed.
Lemma HF256_full buf io h t : length h = 8%nat -> bytes buf -> (io + 64 <= length buf)%nat ->
  exists t' buf', SHA2256_HashFinal SHA2256_Permute buf io 64 (h, t) = Ok ((F256 (F256 h (slice buf io 64)) ([128] ++ zeros 55 ++ be_bytes 8 (8 * (t + 64))), t'), buf').
Proof.
  intros Hh Hb Hl. unfold SHA2256_HashFinal. cbn [fst snd Nat.eqb bind]. cbv zeta. rewrite Permute256_ok by auto. cbn [bind fst snd]. rewrite Nat.add_0_r.
  change (Z.of_nat 64) with 64.
  rewrite put_ok by lia. cbn [bind]. change (1 <? 64)%nat with true. change (56 <? 1)%nat with false. cbv iota.
  rewrite wr_ok by (rewrite length_upd, length_zeros; lia). cbn [bind].
  assert (L1 : length (splice (upd buf io 128) (io + 1) (zeros (64 - 1))) = length buf) by (rewrite length_splice; rewrite ?length_upd, ?length_zeros; lia).
  rewrite Be32ToBytes_correct by lia. cbn [bind]. rewrite Be32ToBytes_correct by (rewrite length_splice; rewrite ?length_be_bytes; lia). cbn [bind].
  rewrite <- bitlen_bytes. set (b1 := be_bytes 4 _). set (b2 := be_bytes 4 (u32 _)).
  destruct (pad_window 64 8 buf io b1 b2) as (P1 & P2); try lia.
  { reflexivity. }
  change (64 - 8)%nat with 56%nat in *. change (56 + length b1)%nat with 60%nat in *.
  set (b := splice (splice (splice _ _ _) _ _) _ _) in *.
  rewrite Permute256_ok; [|now apply compress256_len|subst b|lia].
  - cbn [bind fst snd]. rewrite P2. change (56 - 1)%nat with 55%nat. eauto.
  - assert (is_byte 128) by (unfold is_byte; lia). repeat apply bytes_splice; auto using bytes_upd, bytes_zeros; apply bytes_be_bytes.
Qed.
Lemma HF512_zero buf io h t : length h = 8%nat -> bytes buf -> (io + 128 <= length buf)%nat -> 0 <= t ->
  exists t' buf', SHA2512_HashFinal SHA2512_Permute buf io 0 (h, T512 t) = Ok ((F512 h ([128] ++ zeros 111 ++ be_bytes 16 (8 * t)), t'), buf').
Proof.
  intros Hh Hb Hl Ht. unfold SHA2512_HashFinal. cbn [fst snd Nat.eqb bind]. change (Z.of_nat 0) with 0. rewrite inc_T512, Z.add_0_r by lia. cbv zeta. cbn [fst snd]. rewrite Nat.add_0_r.
  rewrite put_ok by lia. cbn [bind]. change (1 <? 128)%nat with true. change (112 <? 1)%nat with false. cbv iota.
  rewrite wr_ok by (rewrite length_upd, length_zeros; lia). cbn [bind]. cbn [fst snd].
  assert (L1 : length (splice (upd buf io 128) (io + 1) (zeros (128 - 1))) = length buf) by (rewrite length_splice; rewrite ?length_upd, ?length_zeros; lia).
  rewrite Be64ToBytes_correct by lia. cbn [bind]. rewrite Be64ToBytes_correct by (rewrite length_splice; rewrite ?length_be_bytes; lia). cbn [bind].
  replace (8 * t) with (8 * t + 2 ^ 64 * (t / 2 ^ 61 - t / 2 ^ 61)) by lia. rewrite <- field_bytes.
  change (snd (T512 t)) with ((t / 2 ^ 61) mod 2 ^ 64). change (fst (T512 t)) with (t mod 2 ^ 61).
  set (b1 := be_bytes 8 _). set (b2 := be_bytes 8 (wshl _ _ _)).
  destruct (pad_window 128 16 buf io b1 b2) as (P1 & P2); try lia.
  { reflexivity. }
  change (128 - 16)%nat with 112%nat in *. change (112 + length b1)%nat with 120%nat in *.
  set (b := splice (splice (splice _ _ _) _ _) _ _) in *.
  rewrite Permute512_ok; auto; [|subst b|lia].
  - cbn [bind fst snd]. rewrite P2. change (112 - 1)%nat with 111%nat. eauto.
  - assert (is_byte 128) by (unfold is_byte; lia). repeat apply bytes_splice; auto using bytes_upd, bytes_zeros; apply bytes_be_bytes.
Qed.

Definition w256 (s : s256) : list Z := words_out 4 (fst s).
Definition w512 (s : s512) : list Z := words_out 8 (fst s).
Lemma words_out_bytes n h : bytes (words_out n h).
Proof. unfold words_out. induction h; cbn [map concat]; [constructor|]. apply bytes_app. split; [apply bytes_be_bytes|auto]. Qed.
Lemma w256_len s : I8 s -> length (w256 s) = 32%nat /\ bytes (w256 s).
Proof. intros H. split; [|apply words_out_bytes]. unfold w256. rewrite words_out_len. unfold I8 in H. lia. Qed.
Lemma w512_len s : I8 s -> length (w512 s) = 64%nat /\ bytes (w512 s).
Proof. intros H. split; [|apply words_out_bytes]. unfold w512. rewrite words_out_len. unfold I8 in H. lia. Qed.
Lemma st256 (s : s256) out oo : I8 s -> (oo + 32 <= length out)%nat -> BeWordsToBlock 4 (fst s) out oo = Ok (splice out oo (w256 s)).
Proof. intros H1 H2. apply BeWords_ok; auto. Qed.
Lemma st512 (s : s512) out oo : I8 s -> (oo + 64 <= length out)%nat -> BeWordsToBlock 8 (fst s) out oo = Ok (splice out oo (w512 s)).
Proof. intros H1 H2. apply BeWords_ok; auto. Qed.
Lemma bytes_concat (R : nat) bs : Forall (Proofs_Absorb.blk R) bs -> bytes (concat bs).
Proof. intros F. induction F as [|b t (Hb & _) _ IH]; [constructor|]. cbn [concat]. apply bytes_app. auto. Qed.
Lemma fold_F256_len l : forall h, length h = 8%nat -> length (fold_left F256 l h) = 8%nat.
Proof. induction l as [|b l IH]; intros hh Hh; cbn [fold_left]; auto. apply IH. now apply compress256_len. Qed.
Lemma fold_F512_len l : forall h, length h = 8%nat -> length (fold_left F512 l h) = 8%nat.
Proof. induction l as [|b l IH]; intros hh Hh; cbn [fold_left]; auto. apply IH. now apply compress512_len. Qed.
Lemma sha256_blocks bs t : Forall (Proofs_Absorb.blk 64) bs -> t mod 2 ^ 64 = (64 * Z.of_nat (length bs)) mod 2 ^ 64 ->
  words_out 4 (F256 (fold_left F256 bs SHA2256State) ([128] ++ zeros 55 ++ be_bytes 8 (8 * t))) = sha256 (concat bs).
Proof.
  intros F Ht. unfold sha256, merkle, sha2_pad. f_equal. change (fun h b => compress256 h (be_words 4 b)) with F256.
  pose proof (pad_blocks 64 8 bs [] (be_bytes 8 (8 * Z.of_nat (length (concat bs))))) as P. rewrite app_nil_r in P. rewrite P; auto; try lia; [|cbn; lia].
  unfold last_blocks. change (length []) with 0%nat. change (0 <? 64 - 8)%nat with true. cbv iota. rewrite fold_left_app. cbn [fold_left app].
  rewrite H256_eq. do 3 f_equal. rewrite (concat_len 64) by auto.
  rewrite <- (be_bytes_mod 8 (8 * t)), <- (be_bytes_mod 8 (8 * Z.of_nat _)). f_equal. change (256 ^ Z.of_nat 8) with (2 ^ 64).
  rewrite <- (Z.mul_mod_idemp_r 8 t (2 ^ 64)) by lia. rewrite Ht. rewrite Z.mul_mod_idemp_r by lia. f_equal. lia.
Qed.
Lemma sha512_blocks bs : Forall (Proofs_Absorb.blk 128) bs ->
  words_out 8 (F512 (fold_left F512 bs SHA2512State) ([128] ++ zeros 111 ++ be_bytes 16 (8 * (128 * Z.of_nat (length bs))))) = sha512 (concat bs).
Proof.
  intros F. unfold sha512, merkle, sha2_pad. f_equal. change (fun h b => compress512 h (be_words 8 b)) with F512.
  pose proof (pad_blocks 128 16 bs [] (be_bytes 16 (8 * Z.of_nat (length (concat bs))))) as P. rewrite app_nil_r in P. rewrite P; auto; try lia; [|cbn; lia].
  unfold last_blocks. change (length []) with 0%nat. change (0 <? 128 - 16)%nat with true. cbv iota. rewrite fold_left_app. cbn [fold_left app].
  rewrite H512_eq. do 3 f_equal. rewrite (concat_len 128) by auto. f_equal. lia.
Qed.
Lemma fold_left_1 {A B} (f : A -> B -> A) x b : fold_left f [b] x = f x b.
Proof. reflexivity. Qed.
Lemma even_half d : (0 < d)%nat -> Nat.even d = true -> exists e, d = (2 * e)%nat /\ (d / 2 = e)%nat /\ (0 < e)%nat.
Proof. intros H E. apply Nat.even_spec in E. destruct E as (e & ->). exists e. split; [auto|]. rewrite Nat.mul_comm, Nat.div_mul by lia. lia. Qed.
Lemma root256 d bs rest : (0 < d)%nat -> Nat.even d = true -> Forall (Proofs_Absorb.blk 64) bs -> bytes rest -> (length rest = d / 2 * 64)%nat -> length bs = (d / 2)%nat ->
  exists s buf', (r <- (if (64 <? d * 32)%nat then
          let blk := (d * 32 - (d * 32) mod 64)%nat in
          s <- for_up 0 (blk / 64) (fun i s => SHA2256_Permute s (concat bs ++ rest) (i * 64)) s256_init ;; Ok (s, blk, (d * 32 - blk)%nat)
        else Ok (s256_init, 0%nat, (d * 32)%nat)) ;;
     let '(s, off, n) := r in SHA2256_HashFinal SHA2256_Permute (concat bs ++ rest) off n s) = Ok (s, buf') /\ I8 s /\ w256 s = sha256 (concat bs).
Proof.
  intros Hd He F Hr Lr Lb. destruct (even_half d Hd He) as (e & -> & E2 & E0). rewrite E2 in *.
  assert (BC : bytes (concat bs ++ rest)) by (apply bytes_app; split; [eapply bytes_concat; eauto|auto]).
  assert (LC : length (concat bs ++ rest) = (e * 64 + e * 64)%nat) by (rewrite app_length, (concat_len 64) by auto; lia).
  replace (2 * e * 32)%nat with (e * 64)%nat by lia. cbv zeta. rewrite Nat.mod_mul, Nat.sub_0_r, Nat.div_mul, Nat.sub_diag by lia.
  destruct (Nat.ltb_spec 64 (e * 64)).
  - assert (RA : for_up 0 e (fun i s => SHA2256_Permute s (concat bs ++ rest) (i * 64)) s256_init = Ok (fold_left g256 bs s256_init)).
    { rewrite <- Lb. eapply (root_absorb 64 32 SHA2256_Permute g256 I8 (fun _ _ _ _ => UB) (fun s out oo => BeWordsToBlock 4 (fst s) out oo) s256_init (fun _ => zeros 64) 1 ltac:(lia) ltac:(lia) g256_ok eq_refl (fun _ => conj (bytes_zeros 64) (length_zeros 64)) w256 eq_refl st256 w256_len bs rest F Hr). }
    rewrite RA. cbn [bind]. unfold s256_init. rewrite fold_g256.
    destruct (HF256_zero (concat bs ++ rest) (e * 64) (fold_left F256 bs SHA2256State) (if bs then 0 else u64 (0 + 64 * Z.of_nat (length bs)))) as (t' & b' & E); auto; [now apply fold_F256_len|lia|].
    rewrite E. eexists _, _. split; [reflexivity|]. split; [apply compress256_len; now apply fold_F256_len|].
    unfold w256. cbn [fst]. apply sha256_blocks; auto. destruct bs; [reflexivity|]. unfold u64. now rewrite Z.mod_mod, Z.add_0_l by lia.
  - assert (e = 1)%nat by lia. rewrite H0 in *. clear H0. cbn [bind]. destruct bs as [|b [|]]; try discriminate Lb. unfold s256_init.
    destruct (HF256_full (concat [b] ++ rest) 0 SHA2256State 0) as (t' & b' & E); auto; [lia|]. change (1 * 64)%nat with 64%nat. rewrite E. 
    apply Forall_inv in F as (Bb & Lb'). eexists _, _. split; [reflexivity|]. split; [apply compress256_len; now apply compress256_len|].
    unfold w256. cbn [fst]. assert (SL : slice (concat [b] ++ rest) 0 64 = b). { cbn [concat]. rewrite app_nil_r. unfold slice. cbn [skipn]. rewrite <- Lb'. rewrite firstn_app, firstn_all, Nat.sub_diag. cbn [firstn]. apply app_nil_r. }
    rewrite SL. pose proof (sha256_blocks [b] (0 + 64)) as P. rewrite fold_left_1 in P. apply P; [|reflexivity]. repeat constructor; auto.
Qed.
Lemma root512 d bs rest : (0 < d)%nat -> Nat.even d = true -> Forall (Proofs_Absorb.blk 128) bs -> bytes rest -> (length rest = d / 2 * 128)%nat -> length bs = (d / 2)%nat ->
  exists s buf', (r <- (if (128 <=? d * 64)%nat then
          let blk := (d * 64 - (d * 64) mod 128)%nat in
          s <- for_up 0 (blk / 128) (fun i s => SHA2512_Permute s (concat bs ++ rest) (i * 128)) s512_init ;; Ok (s, blk, (d * 64 - blk)%nat)
        else Ok (s512_init, 0%nat, (d * 64)%nat)) ;;
     let '(s, off, n) := r in SHA2512_HashFinal SHA2512_Permute (concat bs ++ rest) off n s) = Ok (s, buf') /\ I8 s /\ w512 s = sha512 (concat bs).
Proof.
  intros Hd He F Hr Lr Lb. destruct (even_half d Hd He) as (e & -> & E2 & E0). rewrite E2 in *.
  assert (BC : bytes (concat bs ++ rest)) by (apply bytes_app; split; [eapply bytes_concat; eauto|auto]).
  assert (LC : length (concat bs ++ rest) = (e * 128 + e * 128)%nat) by (rewrite app_length, (concat_len 128) by auto; lia).
  replace (2 * e * 64)%nat with (e * 128)%nat by lia. cbv zeta. rewrite Nat.mod_mul, Nat.sub_0_r, Nat.div_mul, Nat.sub_diag by lia.
  replace (128 <=? e * 128)%nat with true by (symmetry; apply Nat.leb_le; lia).
  assert (RA : for_up 0 e (fun i s => SHA2512_Permute s (concat bs ++ rest) (i * 128)) s512_init = Ok (fold_left g512 bs s512_init)).
  { rewrite <- Lb. eapply (root_absorb 128 64 SHA2512_Permute g512 I8 (fun _ _ _ _ => UB) (fun s out oo => BeWordsToBlock 8 (fst s) out oo) s512_init (fun _ => zeros 128) 1 ltac:(lia) ltac:(lia) g512_ok eq_refl (fun _ => conj (bytes_zeros 128) (length_zeros 128)) w512 eq_refl st512 w512_len bs rest F Hr). }
  rewrite RA. cbn [bind]. unfold s512_init. change (0, 0) with (T512 0). rewrite fold_g512 by lia. rewrite Z.add_0_l.
  destruct (HF512_zero (concat bs ++ rest) (e * 128) (fold_left F512 bs SHA2512State) (128 * Z.of_nat (length bs))) as (t' & b' & E); auto; [now apply fold_F512_len|lia|lia|].
  rewrite E. eexists _, _. split; [reflexivity|]. split; [apply compress512_len; now apply fold_F512_len|].
  unfold w512. cbn [fst]. now apply sha512_blocks.
Qed.
(** HashFinal never leaves its buffer *)
Lemma HF256_total buf io n (s : s256) : I8 s -> bytes buf -> (io + 64 <= length buf)%nat -> (n <= 64)%nat ->
  exists s' buf', SHA2256_HashFinal SHA2256_Permute buf io n s = Ok (s', buf') /\ I8 s' /\ bytes buf' /\ length buf' = length buf.
Proof.
  intros Hs Hb Hl Hn. unfold SHA2256_HashFinal. cbv zeta. set (t := u64 _). clearbody t. assert (is_byte 128) by (unfold is_byte; lia).
  assert (R : exists s1 len, (if (n =? 64)%nat then s0 <- SHA2256_Permute (fst s, t) buf io;; Ok (s0, 0%nat) else Ok ((fst s, t), n)) = Ok (s1, len) /\ I8 s1 /\ (len < 64)%nat).
  { destruct (Nat.eqb_spec n 64).
    - destruct (g256_ok (fst s, t) buf io) as (-> & G); auto. cbn [bind]. eexists _, _. split; [reflexivity|]. split; [exact G|lia].
    - eexists _, _. split; [reflexivity|]. split; [exact Hs|lia]. }
  destruct R as (s1 & len & -> & I1 & Hlen). cbn [bind]. rewrite put_ok by lia. cbn [bind]. clear Hs s n Hn.
  assert (R : exists b, (if (S len <? 64)%nat then wr (upd buf (io + len) 128) (io + S len) (zeros (64 - S len)) else Ok (upd buf (io + len) 128)) = Ok b /\ bytes b /\ length b = length buf).
  { destruct (Nat.ltb_spec (S len) 64).
    - rewrite wr_ok by (rewrite length_zeros, length_upd; lia). eexists. split; [reflexivity|]. split; [auto using bytes_splice, bytes_upd, bytes_zeros|]. rewrite length_splice; rewrite ?length_zeros, length_upd; lia.
    - eexists. split; [reflexivity|]. rewrite length_upd. auto using bytes_upd. }
  destruct R as (b & -> & Bb & Lb). cbn [bind].
  assert (R : exists s2 b2, (if (56 <? S len)%nat then s0 <- SHA2256_Permute s1 b io;; inp <- wr b 0 (zeros 64);; Ok (s0, inp) else Ok (s1, b)) = Ok (s2, b2) /\ I8 s2 /\ bytes b2 /\ length b2 = length buf).
  { destruct (56 <? S len)%nat.
    - destruct (g256_ok s1 b io) as (-> & G); auto; [lia|]. cbn [bind]. rewrite wr_ok by (rewrite length_zeros; lia). cbn [bind]. eexists _, _. split; [reflexivity|]. split; [exact G|]. split; [auto using bytes_splice, bytes_zeros|]. rewrite length_splice; rewrite ?length_zeros; lia.
    - eauto 8. }
  destruct R as (s2 & b2 & -> & I2 & B2 & L2). cbn [bind].
  rewrite Be32ToBytes_correct by lia. cbn [bind]. rewrite Be32ToBytes_correct by (rewrite length_splice; rewrite ?length_be_bytes; lia). cbn [bind].
  match goal with |- context [SHA2256_Permute s2 ?x io] => set (b3 := x) end.
  assert (P : bytes b3 /\ length b3 = length buf).
  { subst b3. split; [repeat apply bytes_splice; auto using bytes_be_bytes|]. rewrite !length_splice; rewrite ?length_splice; rewrite ?length_be_bytes; lia. }
  destruct P as (P1 & P2). destruct (g256_ok s2 b3 io) as (-> & G); auto; [lia|]. cbn [bind]. eauto 8.
Qed.
Lemma HF512_total buf io n (s : s512) : I8 s -> bytes buf -> (io + 128 <= length buf)%nat -> (n <= 128)%nat ->
  exists s' buf', SHA2512_HashFinal SHA2512_Permute buf io n s = Ok (s', buf') /\ I8 s' /\ bytes buf' /\ length buf' = length buf.
Proof.
  intros Hs Hb Hl Hn. unfold SHA2512_HashFinal. cbv zeta. set (t := s512_inc _ _). clearbody t. assert (is_byte 128) by (unfold is_byte; lia).
  assert (R : exists s1 len, (if (n =? 128)%nat then s0 <- SHA2512_Permute (fst s, t) buf io;; Ok (s0, 0%nat) else Ok ((fst s, t), n)) = Ok (s1, len) /\ I8 s1 /\ (len < 128)%nat).
  { destruct (Nat.eqb_spec n 128).
    - destruct (g512_ok (fst s, t) buf io) as (-> & G); auto. cbn [bind]. eexists _, _. split; [reflexivity|]. split; [exact G|lia].
    - eexists _, _. split; [reflexivity|]. split; [exact Hs|lia]. }
  destruct R as (s1 & len & -> & I1 & Hlen). cbn [bind]. rewrite put_ok by lia. cbn [bind]. clear Hs s n Hn.
  assert (R : exists b, (if (S len <? 128)%nat then wr (upd buf (io + len) 128) (io + S len) (zeros (128 - S len)) else Ok (upd buf (io + len) 128)) = Ok b /\ bytes b /\ length b = length buf).
  { destruct (Nat.ltb_spec (S len) 128).
    - rewrite wr_ok by (rewrite length_zeros, length_upd; lia). eexists. split; [reflexivity|]. split; [auto using bytes_splice, bytes_upd, bytes_zeros|]. rewrite length_splice; rewrite ?length_zeros, length_upd; lia.
    - eexists. split; [reflexivity|]. rewrite length_upd. auto using bytes_upd. }
  destruct R as (b & -> & Bb & Lb). cbn [bind].
  assert (R : exists s2 b2, (if (112 <? S len)%nat then s0 <- SHA2512_Permute s1 b io;; inp <- wr b io (zeros 128);; Ok (s0, inp) else Ok (s1, b)) = Ok (s2, b2) /\ I8 s2 /\ bytes b2 /\ length b2 = length buf).
  { destruct (112 <? S len)%nat.
    - destruct (g512_ok s1 b io) as (-> & G); auto; [lia|]. cbn [bind]. rewrite wr_ok by (rewrite length_zeros; lia). cbn [bind]. eexists _, _. split; [reflexivity|]. split; [exact G|]. split; [auto using bytes_splice, bytes_zeros|]. rewrite length_splice; rewrite ?length_zeros; lia.
    - eauto 8. }
  destruct R as (s2 & b2 & -> & I2 & B2 & L2). cbn [bind].
  rewrite Be64ToBytes_correct by lia. cbn [bind]. rewrite Be64ToBytes_correct by (rewrite length_splice; rewrite ?length_be_bytes; lia). cbn [bind].
  match goal with |- context [SHA2512_Permute s2 ?x io] => set (b3 := x) end.
  assert (P : bytes b3 /\ length b3 = length buf).
  { subst b3. split; [repeat apply bytes_splice; auto using bytes_be_bytes|]. rewrite !length_splice; rewrite ?length_splice; rewrite ?length_be_bytes; lia. }
  destruct P as (P1 & P2). destruct (g512_ok s2 b3 io) as (-> & G); auto; [lia|]. cbn [bind]. eauto 8.
Qed.
