(** Serpent: block functions on bytes and the key schedule of SHX. *)
From Verif Require Import Base BaseLemmas Spec_Serpent Model_IntegerTools Model_Modes Model_Straight Model_SerpentGen Model_KDF Model_Serpent Proofs_IntegerTools Proofs_Windows Proofs_SHA2obj Proofs_KDF Proofs_Serpent Proofs_Serpent2.
Open Scope Z_scope.

(** ** blocks *)
Lemma le4_word l : length l = 4%nat -> bytes l -> is_word 32 (le_val l).
Proof. intros L B. pose proof (le_val_range l B) as H. rewrite L in H. exact H. Qed.
Lemma chunks16 (l : list Z) : length l = 16%nat -> chunks 4 l = [slice l 0 4; slice l 4 4; slice l 8 4; slice l 12 4].
Proof. intros L. do 16 (destruct l as [|? l]; [discriminate L|]). destruct l; [reflexivity|discriminate L]. Qed.
Lemma slice_slice (l : list Z) o n i k : (i + k <= n)%nat -> slice (slice l o n) i k = slice l (o + i) k.
Proof.
  intros H. unfold slice. rewrite skipn_firstn_comm, firstn_firstn, skipn_skipn. f_equal; [lia|]. f_equal. lia.
Qed.
Lemma load4_ok s io : (io + 16 <= length s)%nat -> load4 s io = Ok (map le_val (chunks 4 (slice s io 16))).
Proof.
  intros L. unfold load4, LeBytesTo32. do 4 (rewrite LeBytesTo_correct by lia; cbn [bind]). rewrite chunks16 by (rewrite length_slice; lia). cbn [map]. rewrite !slice_slice by lia. rewrite Nat.add_0_r. reflexivity.
Qed.
Lemma block_words l : length l = 16%nat -> bytes l -> words4 (map le_val (chunks 4 l)).
Proof. intros L B. rewrite chunks16 by exact L. cbn [map]. apply words4_mk; (apply le4_word; [rewrite length_slice; lia|now apply bytes_slice]). Qed.
Lemma store_all (r out : list Z) oo : length r = 4%nat -> (oo + 16 <= length out)%nat ->
  splice (splice (splice (splice out oo (le_bytes 4 (nth 0 r 0))) (oo + 4) (le_bytes 4 (nth 1 r 0))) (oo + 8) (le_bytes 4 (nth 2 r 0))) (oo + 12) (le_bytes 4 (nth 3 r 0)) = splice out oo (concat (map (le_bytes 4) r)).
Proof.
  intros L H. do 4 (destruct r as [|? r]; [discriminate L|]). destruct r; [|discriminate L]. cbn [nth map concat]. rewrite app_nil_r.
  set (b0 := le_bytes 4 z). set (b1 := le_bytes 4 z0). set (b2 := le_bytes 4 z1). set (b3 := le_bytes 4 z2).
  assert (L0 : length b0 = 4%nat) by apply length_le_bytes. assert (L1 : length b1 = 4%nat) by apply length_le_bytes. assert (L2 : length b2 = 4%nat) by apply length_le_bytes. assert (L3 : length b3 = 4%nat) by apply length_le_bytes.
  replace (oo + 4)%nat with (oo + length b0)%nat by lia. rewrite splice_splice_next by lia. replace (oo + 8)%nat with (oo + length (b0 ++ b1))%nat by (rewrite app_length; lia). rewrite splice_splice_next by (rewrite app_length; lia).
  replace (oo + 12)%nat with (oo + length ((b0 ++ b1) ++ b2))%nat by (rewrite !app_length; lia). rewrite splice_splice_next by (rewrite !app_length; lia). rewrite <- !app_assoc. reflexivity.
Qed.
Lemma splice_swap (l a b : list Z) i j : (i + length a <= j)%nat -> (j + length b <= length l)%nat -> splice (splice l j b) i a = splice (splice l i a) j b.
Proof.
  intros H1 H2. assert (LB : length (splice l j b) = length l) by (apply length_splice; lia). assert (LA : length (splice l i a) = length l) by (apply length_splice; lia).
  apply (list_ext 0); [rewrite !length_splice; lia|]. intros k Hk. rewrite !nth_splice by lia.
  destruct (Nat.ltb_spec k i), (Nat.ltb_spec k (i + length a)), (Nat.ltb_spec k j), (Nat.ltb_spec k (j + length b)); try reflexivity; lia.
Qed.
Lemma store4_ok r out oo : length r = 4%nat -> (oo + 16 <= length out)%nat -> store4 r out oo = Ok (splice out oo (concat (map (le_bytes 4) r))).
Proof.
  intros L H. rewrite <- store_all by assumption. unfold store4. set (b0 := le_bytes 4 (nth 0 r 0)). set (b1 := le_bytes 4 (nth 1 r 0)). set (b2 := le_bytes 4 (nth 2 r 0)). set (b3 := le_bytes 4 (nth 3 r 0)).
  assert (L0 : length b0 = 4%nat) by apply length_le_bytes. assert (L1 : length b1 = 4%nat) by apply length_le_bytes. assert (L2 : length b2 = 4%nat) by apply length_le_bytes. assert (L3 : length b3 = 4%nat) by apply length_le_bytes.
  unfold Le32ToBytes. rewrite LeToBytes_correct by lia. cbn [bind]. fold b0. assert (S0 : length (splice out oo b0) = length out) by (apply length_splice; lia).
  rewrite LeToBytes_correct by lia. cbn [bind]. fold b1. assert (S1 : length (splice (splice out oo b0) (oo + 4) b1) = length out) by (rewrite length_splice; lia).
  rewrite LeToBytes_correct by lia. cbn [bind]. fold b2. assert (S2 : length (splice (splice (splice out oo b0) (oo + 4) b1) (oo + 8) b2) = length out) by (rewrite length_splice; lia).
  rewrite LeToBytes_correct by lia. reflexivity.
Qed.
Lemma store4_down_ok r out oo : length r = 4%nat -> (oo + 16 <= length out)%nat ->
  (out <- Le32ToBytes (nth 3 r 0) out (oo + 12) ;; out <- Le32ToBytes (nth 2 r 0) out (oo + 8) ;; out <- Le32ToBytes (nth 1 r 0) out (oo + 4) ;; Le32ToBytes (nth 0 r 0) out oo) = Ok (splice out oo (concat (map (le_bytes 4) r))).
Proof.
  intros L H. rewrite <- store_all by assumption. set (b0 := le_bytes 4 (nth 0 r 0)). set (b1 := le_bytes 4 (nth 1 r 0)). set (b2 := le_bytes 4 (nth 2 r 0)). set (b3 := le_bytes 4 (nth 3 r 0)).
  assert (L0 : length b0 = 4%nat) by apply length_le_bytes. assert (L1 : length b1 = 4%nat) by apply length_le_bytes. assert (L2 : length b2 = 4%nat) by apply length_le_bytes. assert (L3 : length b3 = 4%nat) by apply length_le_bytes.
  unfold Le32ToBytes. rewrite LeToBytes_correct by lia. cbn [bind]. fold b3. assert (S3 : length (splice out (oo + 12) b3) = length out) by (apply length_splice; lia).
  rewrite LeToBytes_correct by lia. cbn [bind]. fold b2. assert (S2 : length (splice (splice out (oo + 12) b3) (oo + 8) b2) = length out) by (rewrite length_splice; lia).
  rewrite LeToBytes_correct by lia. cbn [bind]. fold b1. assert (S1 : length (splice (splice (splice out (oo + 12) b3) (oo + 8) b2) (oo + 4) b1) = length out) by (rewrite length_splice; lia).
  rewrite LeToBytes_correct by lia. fold b0. f_equal.
  rewrite (splice_swap out b2 b3) by lia. assert (T2 : length (splice out (oo + 8) b2) = length out) by (apply length_splice; lia).
  rewrite (splice_swap (splice out (oo + 8) b2) b1 b3) by lia. rewrite (splice_swap out b1 b2) by lia. assert (T1 : length (splice out (oo + 4) b1) = length out) by (apply length_splice; lia). assert (T12 : length (splice (splice out (oo + 4) b1) (oo + 8) b2) = length out) by (rewrite length_splice; lia).
  rewrite (splice_swap _ b0 b3) by lia. rewrite (splice_swap _ b0 b2) by lia. rewrite (splice_swap _ b0 b1) by lia. reflexivity.
Qed.
Section blocks.
  Variables (rk : list Z) (m : nat).
  Hypothesis HK : keys_are rk m.
  Lemma two_keys : (2 <= length (chunks 4 rk))%nat. Proof. rewrite (ks_len rk m HK). destruct HK. lia. Qed.
  Lemma last_key : (length (chunks 4 rk) - 2 = 8 * m - 1)%nat. Proof. rewrite (ks_len rk m HK). destruct HK. lia. Qed.
  Lemma shx_encrypt inp io out oo : (io + 16 <= length (src inp out))%nat -> (oo + 16 <= length out)%nat -> bytes (src inp out) ->
    SHX_Encrypt128 rk inp io out oo = Ok (splice out oo (serpent (chunks 4 rk) (slice (src inp out) io 16))).
  Proof.
    intros L1 L2 B. unfold SHX_Encrypt128. rewrite load4_ok by exact L1. cbn [bind]. set (x := map le_val _). assert (W : words4 x) by (apply block_words; [rewrite length_slice; lia|now apply bytes_slice]).
    assert (M : (1 <= m)%nat) by (destruct HK; tauto). assert (LK : length rk = (32 * m + 4)%nat) by (destruct HK; tauto).
    replace (enc_blocks (length rk) rk 0 x) with (enc_blocks (length rk) rk (32 * 0) x) by reflexivity. rewrite (enc_blocks_ok rk m HK (m - 1) 0) by (try assumption; lia). cbn [bind fst snd].
    rewrite (key_in_ok rk m HK (8 * m)) by lia. cbn [bind].
    assert (E : xorl (substituted (chunks 4 rk) (8 * m - 1) (fold_left (fun x i => LT (substituted (chunks 4 rk) i x)) (seq (8 * 0) (8 * S (m - 1) - 1)) x)) (nth (8 * m) (chunks 4 rk) []) = serpent_words (chunks 4 rk) x).
    { unfold serpent_words. cbv zeta. rewrite last_key. replace (8 * m - 1 + 1)%nat with (8 * m)%nat by lia. replace (8 * S (m - 1) - 1)%nat with (8 * m - 1)%nat by lia. reflexivity. }
    rewrite E. apply store4_ok; [|exact L2]. apply (words_back _ (ks_words rk m HK) two_keys x W).
  Qed.
  Lemma shx_decrypt inp io out oo : (io + 16 <= length (src inp out))%nat -> (oo + 16 <= length out)%nat -> bytes (src inp out) ->
    SHX_Decrypt128 rk inp io out oo = Ok (splice out oo (inv_serpent (chunks 4 rk) (slice (src inp out) io 16))).
  Proof.
    intros L1 L2 B. unfold SHX_Decrypt128. rewrite load4_ok by exact L1. cbn [bind]. set (x := map le_val _). assert (W : words4 x) by (apply block_words; [rewrite length_slice; lia|now apply bytes_slice]).
    assert (M : (1 <= m)%nat) by (destruct HK; tauto). assert (LK : length rk = (32 * m + 4)%nat) by (destruct HK; tauto).
    rewrite (key_out_ok rk m HK (8 * m)) by lia. cbn [bind]. set (y := xorl x _). assert (Wy : words4 y) by (apply xorl_words4; [exact W|apply key4; [exact (ks_words rk m HK)|rewrite (ks_len rk m HK); lia]]).
    destruct (dec_blocks_ok rk m HK (m - 1) (length rk) y) as (z & E & EZ); [lia|lia|exact Wy|]. replace (length rk - 4)%nat with (32 * S (m - 1))%nat by lia. rewrite E. cbn [bind fst snd].
    rewrite (key_out_ok rk m HK 0) by lia. cbn [bind]. rewrite EZ.
    assert (ED : down rk (S (m - 1)) y = inv_serpent_words (chunks 4 rk) x).
    { unfold down, inv_serpent_words. cbv zeta. rewrite last_key. replace (8 * m - 1 + 1)%nat with (8 * m)%nat by lia. replace (8 * S (m - 1) - 1)%nat with (8 * m - 1)%nat by lia. reflexivity. }
    rewrite ED. apply store4_down_ok; [|exact L2]. apply (words_forth _ (ks_words rk m HK) two_keys x W).
  Qed.
End blocks.
(** bytes to words and back *)
Lemma chunks_of_words r : words4 r -> map le_val (chunks 4 (concat (map (le_bytes 4) r))) = r.
Proof.
  intros W. destruct (words4_cases r W) as (a & b & c & d & -> & Ha & Hb & Hc & Hd). cbn [map concat]. rewrite app_nil_r. do 3 (rewrite chunks_app by (try lia; apply length_le_bytes)). rewrite chunk1 by (try lia; apply length_le_bytes). cbn [map].
  rewrite !le_val_le_bytes. unfold is_word in *. rewrite !Z.mod_small by assumption. reflexivity.
Qed.
Lemma words_of_chunks b : length b = 16%nat -> bytes b -> concat (map (le_bytes 4) (map le_val (chunks 4 b))) = b.
Proof.
  intros L B. rewrite chunks16 by exact L. assert (R : forall i, (i + 4 <= 16)%nat -> le_bytes 4 (le_val (slice b i 4)) = slice b i 4).
  { intros i Hi. rewrite <- (length_slice b i 4) at 1 by lia. apply le_bytes_le_val. now apply bytes_slice. }
  cbn [map concat]. rewrite !R by lia. rewrite app_nil_r. do 16 (destruct b as [|? b]; [discriminate L|]). destruct b; [reflexivity|discriminate L].
Qed.
Definition good_keys (ks : list (list Z)) : Prop := (2 <= length ks)%nat /\ Forall words4 ks.
Lemma keys_good rk m : keys_are rk m -> good_keys (chunks 4 rk). Proof. intros HK. split; [now apply (two_keys rk m)|now apply (ks_words rk m)]. Qed.
Lemma word_bytes4 r : words4 r -> length (concat (map (le_bytes 4) r)) = 16%nat /\ bytes (concat (map (le_bytes 4) r)).
Proof.
  intros W. destruct (words4_cases r W) as (a & b & c & d & -> & _). cbn [map concat]. split; [rewrite !app_length, !length_le_bytes; reflexivity|]. repeat (apply Forall_app; split); try apply bytes_le_bytes. constructor.
Qed.
Lemma serpent_16 ks b : good_keys ks -> length b = 16%nat -> bytes b ->
  ((length (serpent ks b) = 16%nat /\ bytes (serpent ks b)) /\ length (inv_serpent ks b) = 16%nat /\ bytes (inv_serpent ks b)) /\
  inv_serpent ks (serpent ks b) = b /\ serpent ks (inv_serpent ks b) = b.
Proof.
  intros (L2 & F) L B. unfold serpent, inv_serpent, on_bytes. pose proof (block_words b L B) as W. destruct (words_back ks F L2 _ W) as [W1 E1], (words_forth ks F L2 _ W) as [W2 E2].
  split; [split; now apply word_bytes4|]. rewrite !chunks_of_words by assumption. rewrite E1, E2. split; now apply words_of_chunks.
Qed.

(** ** the prekeys *)
Lemma fold_xor_base l b : fold_right Z.lxor b l = Z.lxor (fold_right Z.lxor 0 l) b.
Proof. induction l as [|a l IH]; [reflexivity|]. cbn [fold_right]. now rewrite IH, Z.lxor_assoc. Qed.
Lemma fold_xor_word l b : is_word 32 b -> Forall (is_word 32) l -> is_word 32 (fold_right Z.lxor b l).
Proof. intros Hb. induction 1 as [|a l Ha Hl IH]; [exact Hb|]. cbn [fold_right]. apply lxor_range; [lia|assumption|assumption]. Qed.
Definition fresh (taps : list nat) (W : list Z) (i : nat) : Z := rotl32 (fold_right Z.lxor (Z.lxor phi (Z.of_nat i)) (map (fun t => nth (length W - t) W 0) taps)) 11.
Lemma nth_word l i : Forall (is_word 32) l -> is_word 32 (nth i l 0).
Proof. intros F. destruct (Nat.lt_ge_cases i (length l)); [apply (proj1 (Forall_forall _ _) F); now apply nth_In|]. rewrite nth_overflow by lia. red. lia. Qed.
Lemma arg_word taps W i : Forall (is_word 32) W -> Z.of_nat i < 2 ^ 32 -> is_word 32 (fold_right Z.lxor (Z.lxor phi (Z.of_nat i)) (map (fun t => nth (length W - t) W 0) taps)).
Proof.
  intros F Hi. apply fold_xor_word; [apply lxor_range; [lia|unfold phi; lia|lia]|]. apply Forall_map, Forall_forall. intros t _. now apply nth_word.
Qed.
Lemma mixed_ok taps w W i n : Forall (is_word 32) W -> Z.of_nat n < 2 ^ 32 -> (forall t, In t taps -> (i - t < length w)%nat /\ nth (i - t) w 0 = nth (length W - t) W 0) ->
  mixed taps w i n = Ok (fresh taps W n).
Proof.
  intros F Hn HT. unfold mixed.
  assert (E : forall taps acc, (forall t, In t taps -> (i - t < length w)%nat /\ nth (i - t) w 0 = nth (length W - t) W 0) ->
    fold_left (fun x t => x <- x ;; a <- get w (i - t) ;; Ok (Z.lxor x a)) taps (Ok acc) = Ok (Z.lxor acc (fold_right Z.lxor 0 (map (fun t => nth (length W - t) W 0) taps)))).
  { clear. induction taps as [|t taps IH]; intros acc H; [cbn; now rewrite Z.lxor_0_r|]. cbn [fold_left map fold_right bind]. destruct (H t (or_introl eq_refl)) as [H1 H2]. rewrite (get_ok _ _ 0) by exact H1. cbn [bind]. rewrite IH by (intros u Hu; apply H; right; exact Hu). rewrite H2, Z.lxor_assoc. reflexivity. }
  rewrite E by exact HT. cbn [bind]. rewrite Z.lxor_0_l. unfold fresh. pose proof (arg_word taps W n F Hn) as AW. rewrite (fold_xor_base _ (Z.lxor phi (Z.of_nat n))) in AW |- *. rewrite Z.lxor_assoc. change PHI with phi. f_equal.
  assert (U : u32 (Z.lxor (fold_right Z.lxor 0 (map (fun t => nth (length W - t) W 0) taps)) (Z.lxor phi (Z.of_nat n))) = Z.lxor (fold_right Z.lxor 0 (map (fun t => nth (length W - t) W 0) taps)) (Z.lxor phi (Z.of_nat n))) by (unfold u32; apply Z.mod_small; exact AW).
  rewrite U. apply wrotl_rotl; [exact AW|lia].
Qed.
Section pre.
  Variables (taps : list nat) (T : nat) (ws0 : list Z).
  Hypothesis HT : forall t, In t taps -> (1 <= t <= T)%nat.
  Hypothesis HL : length ws0 = T.
  Hypothesis HW : Forall (is_word 32) ws0.
  Notation E n := (fold_left (next_prekey taps) (seq 0 n) ws0).
  Lemma E_S n : E (S n) = E n ++ [fresh taps (E n) n]. Proof. rewrite seq_S, fold_left_app. reflexivity. Qed.
  Lemma E_len n : length (E n) = (T + n)%nat. Proof. induction n as [|n IH]; [cbn; lia|]. rewrite E_S, app_length, IH. cbn. lia. Qed.
  Lemma E_words n : Z.of_nat n <= 2 ^ 32 -> Forall (is_word 32) (E n).
  Proof. induction n as [|n IH]; intros H; [exact HW|]. rewrite E_S. apply Forall_app. split; [apply IH; lia|]. constructor; [|constructor]. apply rotl32_range; [|lia]. apply arg_word; [apply IH; lia|lia]. Qed.
  Lemma firstn_upd l i v : (i < length l)%nat -> firstn (S i) (upd l i v) = firstn i l ++ [v].
  Proof.
    clear. revert l. induction i as [|i IH]; intros [|a l] H; cbn [length] in H; try lia; [reflexivity|]. cbn [upd firstn app]. f_equal. apply IH. lia.
  Qed.
  Lemma nth_firstn_lt (l : list Z) i k : (k < i)%nat -> nth k (firstn i l) 0 = nth k l 0.
  Proof. clear. revert i l. induction k as [|k IH]; intros [|i] [|a l] H; try lia; try reflexivity. cbn [firstn nth]. apply IH. lia. Qed.
  Lemma loop1 n w : length w = (T + n)%nat -> firstn T w = ws0 -> Z.of_nat n <= 2 ^ 32 ->
    for_up T n (fun i w => x <- mixed taps w i (i - T) ;; put w i x) w = Ok (E n).
  Proof.
    intros L F HN. destruct (for_up_inv (fun i w => length w = (T + n)%nat /\ firstn i w = E (i - T)) (fun i w => x <- mixed taps w i (i - T) ;; put w i x) T n w) as (w' & EW & L' & F').
    - split; [exact L|]. rewrite Nat.sub_diag. exact F.
    - intros i s Hi (Ls & Fs). assert (LE : length (E (i - T)) = i) by (rewrite E_len; lia). rewrite (mixed_ok taps s (E (i - T)) i (i - T)).
      + cbn [bind]. rewrite put_ok by lia. eexists. split; [reflexivity|]. split; [rewrite length_upd; exact Ls|]. rewrite firstn_upd by lia. rewrite Fs. replace (S i - T)%nat with (S (i - T)) by lia. now rewrite E_S.
      + apply E_words. lia.
      + lia.
      + intros t Ht. pose proof (HT t Ht). split; [lia|]. rewrite LE. rewrite <- Fs. rewrite nth_firstn_lt by lia. reflexivity.
    - rewrite EW. f_equal. rewrite <- (firstn_all w'), L'. rewrite F'. f_equal. f_equal. lia.
  Qed.
  Lemma loop2 klen rk : length rk = klen -> (T <= klen)%nat -> Z.of_nat klen <= 2 ^ 32 -> firstn T rk = skipn T (E T) ->
    for_up T (klen - T) (fun i rk => x <- mixed taps rk i i ;; put rk i x) rk = Ok (prekeys taps klen ws0).
  Proof.
    intros L H HN F. destruct (for_up_inv (fun i rk => length rk = klen /\ firstn i rk = skipn T (E i)) (fun i rk => x <- mixed taps rk i i ;; put rk i x) T (klen - T) rk) as (r' & ER & L' & F').
    - auto.
    - intros i s Hi (Ls & Fs). assert (LE : length (E i) = (T + i)%nat) by apply E_len. rewrite (mixed_ok taps s (E i) i i).
      + cbn [bind]. rewrite put_ok by lia. eexists. split; [reflexivity|]. split; [rewrite length_upd; exact Ls|]. rewrite firstn_upd by lia. rewrite Fs, E_S, skipn_app. replace (T - length (E i))%nat with 0%nat by lia. reflexivity.
      + apply E_words. lia.
      + lia.
      + intros t Ht. pose proof (HT t Ht). split; [lia|]. rewrite LE. rewrite <- (nth_firstn_lt s i) by lia. rewrite Fs. rewrite <- (firstn_skipn T (E i)) at 2. rewrite app_nth2 by (rewrite firstn_length; lia). f_equal. rewrite firstn_length. lia.
    - rewrite ER. f_equal. rewrite <- (firstn_all r'), L'. replace (T + (klen - T))%nat with klen in F' by lia. rewrite F'. unfold prekeys. now rewrite HL.
  Qed.
  Lemma pre_len n : length (prekeys taps n ws0) = n. Proof. unfold prekeys. rewrite skipn_length, E_len. lia. Qed.
  Lemma pre_words n : Z.of_nat n <= 2 ^ 32 -> Forall (is_word 32) (prekeys taps n ws0). Proof. intros H. apply Forall_skipn. now apply E_words. Qed.
  Lemma expand_ok klen old w : length w = (T + T)%nat -> firstn T w = ws0 -> (T <= klen)%nat -> Z.of_nat klen <= 2 ^ 32 ->
    (tmpw <- for_up T T (fun i w => x <- mixed taps w i (i - T) ;; put w i x) w ;;
     rk <- wcopy tmpw T (resized old klen) 0 T ;;
     for_up T (klen - T) (fun i rk => x <- mixed taps rk i i ;; put rk i x) rk) = Ok (prekeys taps klen ws0).
  Proof.
    intros L F HK HN. rewrite loop1 by (try assumption; lia). cbn [bind]. pose proof (E_len T) as LE. rewrite wcopy_ok by (rewrite ?resized_len; lia). cbn [bind].
    assert (LS : length (slice (E T) T T) = T) by (rewrite length_slice; lia).
    apply loop2; [rewrite length_splice; rewrite resized_len; lia|exact HK|exact HN|]. unfold splice. cbn [firstn app Nat.add]. rewrite LS. rewrite firstn_app, LS, Nat.sub_diag, firstn_O, app_nil_r. rewrite firstn_all2 by lia.
    unfold slice. apply firstn_all2. rewrite skipn_length. lia.
  Qed.
End pre.

(** ** the working keys *)
Lemma sched_S n w : scheduled (S n) w = scheduled n w ++ [side_by_side (S_box ((3 + 7 * n) mod 8)) (slice w (4 * n) 4)].
Proof. unfold scheduled. rewrite seq_S, map_app. reflexivity. Qed.
Lemma sched_words n w : Forall words4 (scheduled n w). Proof. unfold scheduled. apply Forall_map, Forall_forall. intros i _. apply side_words. Qed.
Lemma words4_concat l : Forall words4 l -> length (concat l) = (4 * length l)%nat /\ Forall (is_word 32) (concat l).
Proof. induction 1 as [|a l (La & Fa) Hl (IH1 & IH2)]; [split; [reflexivity|constructor]|]. cbn [concat length]. rewrite app_length, IH1. split; [lia|]. apply Forall_app. auto. Qed.
Lemma sched_len n w : length (scheduled n w) = n. Proof. unfold scheduled. rewrite map_length, seq_length. reflexivity. Qed.
Definition partly (i : nat) (w : list Z) : list Z := concat (scheduled i w) ++ skipn (4 * i) w.
Lemma partly_len i w : (4 * i <= length w)%nat -> length (partly i w) = length w.
Proof. intros H. unfold partly. rewrite app_length, (proj1 (words4_concat _ (sched_words i w))), sched_len, skipn_length. lia. Qed.
Lemma box_mod t c : ((3 + 7 * (8 * t + c)) mod 8 = (3 + 7 * c) mod 8)%nat.
Proof. replace (3 + 7 * (8 * t + c))%nat with (3 + 7 * c + (7 * t) * 8)%nat by lia. apply Nat.mod_add. lia. Qed.
Lemma sbox_at_ok k i kctr w : Forall (is_word 32) w -> k = ((3 + 7 * i) mod 8)%nat -> kctr = (4 * i)%nat -> (4 * i + 4 <= length w)%nat -> sbox_at k (partly i w) kctr = Ok (partly (S i) w).
Proof.
  intros F -> -> H. unfold sbox_at. pose proof (partly_len i w ltac:(lia)) as LP. rewrite rd_ok by lia. cbn [bind].
  assert (LC : length (concat (scheduled i w)) = (4 * i)%nat) by (rewrite (proj1 (words4_concat _ (sched_words i w))), sched_len; reflexivity).
  assert (ES : slice (partly i w) (4 * i) 4 = slice w (4 * i) 4).
  { unfold slice, partly. rewrite skipn_app, LC, Nat.sub_diag. rewrite skipn_all2 by lia. reflexivity. }
  rewrite ES. assert (M8 : ((3 + 7 * i) mod 8 < 8)%nat) by (apply Nat.mod_upper_bound; lia). rewrite Sb_ok by first [exact M8|apply slice_words4; [lia|exact F]].
  set (b := side_by_side _ _). rewrite wr_ok by (rewrite LP; unfold b; rewrite side_len; lia). f_equal. unfold splice. change (length b) with 4%nat.
  unfold partly. rewrite firstn_app, LC, Nat.sub_diag, firstn_O, app_nil_r. rewrite firstn_all2 by lia. rewrite sched_S, concat_app. cbn [concat]. rewrite app_nil_r, <- app_assoc. fold b. f_equal. f_equal.
  rewrite skipn_app, skipn_all2 by lia. cbn [app]. rewrite LC, skipn_skipn. f_equal. lia.
Qed.
Lemma working_ok w m : Forall (is_word 32) w -> length w = (32 * m + 4)%nat -> forall d t fuel, (t + d = m)%nat -> (d < fuel)%nat -> working_keys fuel (partly (8 * t) w) (32 * t) = Ok (partly (8 * m) w, (32 * m)%nat).
Proof.
  intros F L. induction d as [|d IH]; intros t fuel Ht Hf; (destruct fuel as [|fuel]; [lia|]); cbn [working_keys]; rewrite partly_len by lia.
  - destruct (Nat.ltb_spec (32 * t) (length w - 4)); [lia|]. replace t with m by lia. reflexivity.
  - destruct (Nat.ltb_spec (32 * t) (length w - 4)); [|lia].
    assert (BX : forall c, ((3 + 7 * (8 * t + c)) mod 8 = (3 + 7 * c) mod 8)%nat) by (intros c; apply box_mod).
    replace (8 * t)%nat with (8 * t + 0)%nat by lia. rewrite (sbox_at_ok 3 (8 * t + 0)) by (try assumption; try (rewrite BX; reflexivity); lia). cbn [bind].
    replace (S (8 * t + 0)) with (8 * t + 1)%nat by lia. rewrite (sbox_at_ok 2 (8 * t + 1)) by (try assumption; try (rewrite BX; reflexivity); lia). cbn [bind].
    replace (S (8 * t + 1)) with (8 * t + 2)%nat by lia. rewrite (sbox_at_ok 1 (8 * t + 2)) by (try assumption; try (rewrite BX; reflexivity); lia). cbn [bind].
    replace (S (8 * t + 2)) with (8 * t + 3)%nat by lia. rewrite (sbox_at_ok 0 (8 * t + 3)) by (try assumption; try (rewrite BX; reflexivity); lia). cbn [bind].
    replace (S (8 * t + 3)) with (8 * t + 4)%nat by lia. rewrite (sbox_at_ok 7 (8 * t + 4)) by (try assumption; try (rewrite BX; reflexivity); lia). cbn [bind].
    replace (S (8 * t + 4)) with (8 * t + 5)%nat by lia. rewrite (sbox_at_ok 6 (8 * t + 5)) by (try assumption; try (rewrite BX; reflexivity); lia). cbn [bind].
    replace (S (8 * t + 5)) with (8 * t + 6)%nat by lia. rewrite (sbox_at_ok 5 (8 * t + 6)) by (try assumption; try (rewrite BX; reflexivity); lia). cbn [bind].
    replace (S (8 * t + 6)) with (8 * t + 7)%nat by lia. rewrite (sbox_at_ok 4 (8 * t + 7)) by (try assumption; try (rewrite BX; reflexivity); lia). cbn [bind].
    replace (S (8 * t + 7)) with (8 * (t + 1))%nat by lia. replace (32 * t + 32)%nat with (32 * (t + 1))%nat by lia. apply IH; lia.
Qed.
Lemma work_ok w m : Forall (is_word 32) w -> length w = (32 * m + 4)%nat ->
  (r <- working_keys (length w) w 0 ;; sbox_at 3 (fst r) (snd r)) = Ok (concat (scheduled (8 * m + 1) w)).
Proof.
  intros F L. assert (E : working_keys (length w) w 0 = Ok (partly (8 * m) w, (32 * m)%nat)) by (exact (working_ok w m F L m 0 (length w) ltac:(lia) ltac:(lia))).
  rewrite E. cbn [bind fst snd]. rewrite (sbox_at_ok 3 (8 * m)).
  - f_equal. unfold partly. rewrite skipn_all2 by lia. rewrite app_nil_r. f_equal. f_equal. lia.
  - exact F.
  - replace (8 * m)%nat with (8 * m + 0)%nat by lia. rewrite box_mod. reflexivity.
  - lia.
  - lia.
Qed.
Lemma sched_keys w m : (1 <= m)%nat -> keys_are (concat (scheduled (8 * m + 1) w)) m /\ chunks 4 (concat (scheduled (8 * m + 1) w)) = scheduled (8 * m + 1) w.
Proof.
  intros M. destruct (words4_concat _ (sched_words (8 * m + 1) w)) as [L F]. rewrite sched_len in L. split; [split; [lia|split; assumption]|]. generalize (sched_words (8 * m + 1) w). generalize (scheduled (8 * m + 1) w). clear. induction 1 as [|a l (La & _) Hl IH]; [reflexivity|]. cbn [concat]. rewrite chunks_app by (try lia; exact La). now rewrite IH.
Qed.
