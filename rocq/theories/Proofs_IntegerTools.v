(** Proofs about Model_IntegerTools. *)
From Verif Require Import BaseLemmas Model_IntegerTools.
Open Scope Z_scope.

(** ** splice as iterated upd *)
Lemma splice_nil {A} (l : list A) o : splice l o [] = l.
Proof. unfold splice; cbn. rewrite Nat.add_0_r. apply firstn_skipn. Qed.

Lemma splice_cons l o x d : (o + S (length d) <= length l)%nat ->
  splice l o (x :: d) = upd (splice l (S o) d) o x.
Proof.
  intros H. apply (list_ext 0).
  - rewrite length_upd, !length_splice; cbn [length] in *; lia.
  - intros i Hi. rewrite length_splice in Hi by (cbn; lia).
    rewrite nth_splice by (cbn; lia).
    destruct (Nat.eq_dec o i) as [->|Hne].
    + rewrite nth_upd_same by (rewrite length_splice; lia).
      rewrite Nat.ltb_irrefl, Nat.sub_diag. cbn [length nth].
      destruct (Nat.ltb_spec i (i + S (length d))); [reflexivity|lia].
    + rewrite nth_upd_other by assumption. rewrite nth_splice by lia. cbn [length].
      destruct (Nat.ltb_spec i o), (Nat.ltb_spec i (S o)); try lia; auto.
      replace (o + S (length d))%nat with (S o + length d)%nat by lia.
      destruct (Nat.ltb_spec i (S o + length d)); auto.
      replace (i - o)%nat with (S (i - S o)) by lia. reflexivity.
Qed.

(** ** conversions *)
Lemma u8_shift v k : u8 (wshr v (8 * Z.of_nat k)) = (v / 256 ^ Z.of_nat k) mod 256.
Proof.
  unfold u8, wshr. rewrite Z.shiftr_div_pow2 by lia.
  rewrite Z.pow_mul_r by lia. reflexivity.
Qed.

Lemma be_bytes_S n x : be_bytes (S n) x = be_bytes n (x / 256) ++ [x mod 256].
Proof. reflexivity. Qed.

Lemma be_bytes_head n x :
  be_bytes (S n) x = (x / 256 ^ Z.of_nat n) mod 256 :: be_bytes n x.
Proof.
  revert x; induction n as [|n IH]; intros x.
  - cbn. now rewrite Z.div_1_r.
  - rewrite be_bytes_S, IH, <- app_comm_cons, <- be_bytes_S. f_equal.
    rewrite Z.div_div by (try apply Z.pow_pos_nonneg; lia).
    rewrite Nat2Z.inj_succ, Z.pow_succ_r by lia. reflexivity.
Qed.

Ltac idx := repeat match goal with |- context[(?o + 0)%nat] => rewrite (Nat.add_0_r o) end;
            repeat rewrite Nat.add_succ_r; rewrite ?Nat.add_0_r.

Lemma Be16ToBytes_correct v out o : (o + 2 <= length out)%nat ->
  Be16ToBytes v out o = Ok (splice out o (be_bytes 2 v)).
Proof.
  intros H. unfold Be16ToBytes.
  rewrite put_ok by lia. cbn [bind]. rewrite put_ok by (rewrite length_upd; lia).
  rewrite 2 be_bytes_head. change (be_bytes 0 v) with (@nil Z).
  rewrite 2 splice_cons by (cbn; lia). rewrite splice_nil.
  rewrite <- !u8_shift. cbn [Z.of_nat Z.mul Pos.mul Pos.of_succ_nat Pos.succ]. idx.
  change (wshr v 0) with (Z.shiftr v 0). rewrite Z.shiftr_0_r. reflexivity.
Qed.

Lemma Be32ToBytes_correct v out o : (o + 4 <= length out)%nat ->
  Be32ToBytes v out o = Ok (splice out o (be_bytes 4 v)).
Proof.
  intros H. unfold Be32ToBytes.
  repeat (rewrite put_ok by (rewrite ?length_upd; lia); cbn [bind]).
  rewrite 4 be_bytes_head. change (be_bytes 0 v) with (@nil Z).
  rewrite 4 splice_cons by (cbn; lia). rewrite splice_nil.
  rewrite <- !u8_shift. cbn [Z.of_nat Z.mul Pos.mul Pos.of_succ_nat Pos.succ]. idx.
  change (wshr v 0) with (Z.shiftr v 0). rewrite Z.shiftr_0_r. reflexivity.
Qed.

Lemma Be64ToBytes_correct v out o : (o + 8 <= length out)%nat ->
  Be64ToBytes v out o = Ok (splice out o (be_bytes 8 v)).
Proof.
  intros H. unfold Be64ToBytes.
  repeat (rewrite put_ok by (rewrite ?length_upd; lia); cbn [bind]).
  rewrite 8 be_bytes_head. change (be_bytes 0 v) with (@nil Z).
  rewrite 8 splice_cons by (cbn; lia). rewrite splice_nil.
  rewrite <- !u8_shift. cbn [Z.of_nat Z.mul Pos.mul Pos.of_succ_nat Pos.succ]. idx.
  change (wshr v 0) with (Z.shiftr v 0). rewrite Z.shiftr_0_r. reflexivity.
Qed.

Lemma slice_cons {A} (d : A) (l : list A) o n : (o < length l)%nat ->
  slice l o (S n) = nth o l d :: slice l (S o) n.
Proof.
  intros H. unfold slice. revert l H; induction o as [|o IH]; intros [|x l] H; cbn in H; try lia.
  - reflexivity.
  - cbn [skipn nth]. rewrite IH by lia. reflexivity.
Qed.

Lemma lor_mul_add a b n : 0 <= n -> 0 <= b < 2 ^ n -> Z.lor (a * 2 ^ n) b = a * 2 ^ n + b.
Proof.
  intros. rewrite Z.lor_comm, <- Z.shiftl_mul_pow2 by lia.
  rewrite lor_shiftl_add by lia. rewrite Z.shiftl_mul_pow2 by lia. ring.
Qed.

Lemma wshl_byte w b n : 0 <= n -> n + 8 <= w -> is_byte b -> wshl w b n = b * 2 ^ n.
Proof.
  intros Hn Hw Hb. unfold wshl. rewrite Z.shiftl_mul_pow2 by lia.
  apply Z.mod_small. red in Hb. assert (0 < 2 ^ n) by (apply Z.pow_pos_nonneg; lia).
  split; [nia|]. apply Z.lt_le_trans with (2 ^ (n + 8)).
  - rewrite Z.pow_add_r by lia. change (2^8) with 256. nia.
  - apply Z.pow_le_mono_r; lia.
Qed.

Lemma BeBytesTo16_correct inp o : bytes inp -> (o + 2 <= length inp)%nat ->
  BeBytesTo16 inp o = Ok (be_val (slice inp o 2)).
Proof.
  intros Hb H. unfold BeBytesTo16.
  repeat (rewrite (get_ok _ _ 0) by lia; cbn [bind]). f_equal.
  do 2 rewrite (slice_cons 0) by lia. change (slice inp (S (S o)) 0) with (@nil Z).
  rewrite !be_val_cons. cbn [length be_val le_val rev app Z.of_nat].
  rewrite !Nat.add_succ_r, Nat.add_0_r.
  pose proof (bytes_nth inp o Hb) as B0. pose proof (bytes_nth inp (S o) Hb) as B1.
  unfold is_byte in *. rewrite Z.shiftl_mul_pow2 by lia. rewrite lor_mul_add by lia.
  unfold u16. rewrite Z.mod_small by lia. change (be_val []) with 0. lia.
Qed.

Lemma BeBytesTo32_correct inp o : bytes inp -> (o + 4 <= length inp)%nat ->
  BeBytesTo32 inp o = Ok (be_val (slice inp o 4)).
Proof.
  intros Hb H. unfold BeBytesTo32.
  repeat (rewrite (get_ok _ _ 0) by lia; cbn [bind]). f_equal.
  do 4 rewrite (slice_cons 0) by lia. unfold slice; cbn [firstn].
  rewrite !be_val_cons. cbn [length]. change (be_val []) with 0.
  rewrite !Nat.add_succ_r, Nat.add_0_r.
  pose proof (bytes_nth inp o Hb) as B0. pose proof (bytes_nth inp (S o) Hb) as B1.
  pose proof (bytes_nth inp (S (S o)) Hb) as B2. pose proof (bytes_nth inp (S (S (S o))) Hb) as B3.
  rewrite !wshl_byte by (assumption || lia). unfold is_byte in *.
  set (b0 := nth o inp 0) in *. set (b1 := nth (S o) inp 0) in *.
  set (b2 := nth (S (S o)) inp 0) in *. set (b3 := nth (S (S (S o))) inp 0) in *.
  rewrite lor_mul_add by lia.
  replace (b0 * 2 ^ 24 + b1 * 2 ^ 16) with ((b0 * 2 ^ 8 + b1) * 2 ^ 16) by lia.
  rewrite lor_mul_add by lia.
  replace ((b0 * 2 ^ 8 + b1) * 2 ^ 16 + b2 * 2 ^ 8) with ((b0 * 2 ^ 16 + b1 * 2 ^ 8 + b2) * 2 ^ 8) by lia.
  rewrite lor_mul_add by lia. cbn [Z.of_nat Pos.of_succ_nat Pos.succ]. lia.
Qed.

Lemma BeBytesTo64_correct inp o : bytes inp -> (o + 8 <= length inp)%nat ->
  BeBytesTo64 inp o = Ok (be_val (slice inp o 8)).
Proof.
  intros Hb H. unfold BeBytesTo64.
  repeat (rewrite (get_ok _ _ 0) by lia; cbn [bind]). f_equal.
  do 8 rewrite (slice_cons 0) by lia. unfold slice; cbn [firstn].
  rewrite !be_val_cons. cbn [length]. change (be_val []) with 0.
  rewrite !Nat.add_succ_r, Nat.add_0_r.
  pose proof (bytes_nth inp o Hb) as B0. pose proof (bytes_nth inp (S o) Hb) as B1.
  pose proof (bytes_nth inp (S (S o)) Hb) as B2. pose proof (bytes_nth inp (S (S (S o))) Hb) as B3.
  pose proof (bytes_nth inp (S (S (S (S o)))) Hb) as B4. pose proof (bytes_nth inp (S (S (S (S (S o))))) Hb) as B5.
  pose proof (bytes_nth inp (S (S (S (S (S (S o)))))) Hb) as B6.
  pose proof (bytes_nth inp (S (S (S (S (S (S (S o))))))) Hb) as B7.
  rewrite !wshl_byte by (assumption || lia). unfold is_byte in *.
  generalize dependent (nth o inp 0); intros b0 B0.
  generalize dependent (nth (S o) inp 0); intros b1 B1.
  generalize dependent (nth (S (S o)) inp 0); intros b2 B2.
  generalize dependent (nth (S (S (S o))) inp 0); intros b3 B3.
  generalize dependent (nth (S (S (S (S o)))) inp 0); intros b4 B4.
  generalize dependent (nth (S (S (S (S (S o))))) inp 0); intros b5 B5.
  generalize dependent (nth (S (S (S (S (S (S o)))))) inp 0); intros b6 B6.
  generalize dependent (nth (S (S (S (S (S (S (S o))))))) inp 0); intros b7 B7.
  rewrite lor_mul_add by lia.
  replace (b0 * 2 ^ 56 + b1 * 2 ^ 48) with ((b0 * 2 ^ 8 + b1) * 2 ^ 48) by lia.
  rewrite lor_mul_add by lia.
  replace ((b0 * 2 ^ 8 + b1) * 2 ^ 48 + b2 * 2 ^ 40) with ((b0 * 2 ^ 16 + b1 * 2 ^ 8 + b2) * 2 ^ 40) by lia.
  rewrite lor_mul_add by lia.
  replace ((b0 * 2 ^ 16 + b1 * 2 ^ 8 + b2) * 2 ^ 40 + b3 * 2 ^ 32)
    with ((b0 * 2 ^ 24 + b1 * 2 ^ 16 + b2 * 2 ^ 8 + b3) * 2 ^ 32) by lia.
  rewrite lor_mul_add by lia.
  replace ((b0 * 2 ^ 24 + b1 * 2 ^ 16 + b2 * 2 ^ 8 + b3) * 2 ^ 32 + b4 * 2 ^ 24)
    with ((b0 * 2 ^ 32 + b1 * 2 ^ 24 + b2 * 2 ^ 16 + b3 * 2 ^ 8 + b4) * 2 ^ 24) by lia.
  rewrite lor_mul_add by lia.
  replace ((b0 * 2 ^ 32 + b1 * 2 ^ 24 + b2 * 2 ^ 16 + b3 * 2 ^ 8 + b4) * 2 ^ 24 + b5 * 2 ^ 16)
    with ((b0 * 2 ^ 40 + b1 * 2 ^ 32 + b2 * 2 ^ 24 + b3 * 2 ^ 16 + b4 * 2 ^ 8 + b5) * 2 ^ 16) by lia.
  rewrite lor_mul_add by lia.
  replace ((b0 * 2 ^ 40 + b1 * 2 ^ 32 + b2 * 2 ^ 24 + b3 * 2 ^ 16 + b4 * 2 ^ 8 + b5) * 2 ^ 16 + b6 * 2 ^ 8)
    with ((b0 * 2 ^ 48 + b1 * 2 ^ 40 + b2 * 2 ^ 32 + b3 * 2 ^ 24 + b4 * 2 ^ 16 + b5 * 2 ^ 8 + b6) * 2 ^ 8) by lia.
  rewrite lor_mul_add by lia. cbn [Z.of_nat Pos.of_succ_nat Pos.succ]. lia.
Qed.

Lemma LeToBytes_correct n v out o : (o + n <= length out)%nat ->
  LeToBytes n v out o = Ok (splice out o (le_bytes n v)).
Proof. intros H. apply wr_ok. rewrite length_le_bytes. lia. Qed.

Lemma LeBytesTo_correct n inp o : (o + n <= length inp)%nat ->
  LeBytesTo n inp o = Ok (le_val (slice inp o n)).
Proof. intros H. unfold LeBytesTo. rewrite rd_ok by lia. reflexivity. Qed.

(** round trips *)
Lemma be_val_splice n v out o : (o + n <= length out)%nat ->
  be_val (slice (splice out o (be_bytes n v)) o n) = v mod 256 ^ Z.of_nat n.
Proof.
  intros H. replace n with (length (be_bytes n v)) at 2 by apply length_be_bytes.
  rewrite slice_splice_same by (rewrite length_be_bytes; lia). apply be_val_be_bytes.
Qed.
Lemma le_val_splice n v out o : (o + n <= length out)%nat ->
  le_val (slice (splice out o (le_bytes n v)) o n) = v mod 256 ^ Z.of_nat n.
Proof.
  intros H. replace n with (length (le_bytes n v)) at 2 by apply length_le_bytes.
  rewrite slice_splice_same by (rewrite length_le_bytes; lia). apply le_val_le_bytes.
Qed.

(** LeBytesToLen *)
Lemma LeBytesToLen_correct w inp o len : bytes inp -> (0 < len)%nat -> (o + len <= length inp)%nat ->
  8 * Z.of_nat len <= w ->
  LeBytesToLen w inp o len = Ok (le_val (slice inp o len)).
Proof.
  intros Hb Hl Ho Hw. unfold LeBytesToLen. rewrite (get_ok _ _ 0) by lia. cbn [bind].
  destruct (for_up_inv (fun i r => r = le_val (slice inp o i))
    (fun i r => b <- get inp (o + i) ;; _ <- safe (8 * Z.of_nat i <? w) ;;
                Ok (Z.lor r (wshl w b (8 * Z.of_nat i)))) 1 (len - 1) (nth o inp 0)) as (r & E & Hr).
  - rewrite (slice_cons 0) by lia. unfold slice; cbn. lia.
  - intros j s Hj ->. rewrite (get_ok _ _ 0) by lia. cbn [bind].
    unfold safe. destruct (Z.ltb_spec (8 * Z.of_nat j) w); [|lia]. cbn [bind].
    eexists; split; [reflexivity|].
    pose proof (bytes_nth inp (o + j) Hb).
    rewrite wshl_byte by (assumption || lia).
    rewrite <- Z.shiftl_mul_pow2 by lia.
    replace (2 ^ (8 * Z.of_nat j)) with (256 ^ Z.of_nat j) by (rewrite Z.pow_mul_r by lia; reflexivity).
    assert (R : 0 <= le_val (slice inp o j) < 2 ^ (8 * Z.of_nat j)).
    { rewrite Z.pow_mul_r by lia. change (2 ^ 8) with 256.
      pose proof (le_val_range (slice inp o j) (bytes_slice _ _ _ Hb)) as R.
      rewrite length_slice in R by lia. exact R. }
    rewrite lor_shiftl_add by lia.
    replace (S j) with (j + 1)%nat by lia. rewrite slice_app, le_val_app, length_slice by lia.
    rewrite (slice_cons 0) by lia. unfold slice at 3. cbn [firstn le_val].
    rewrite Z.pow_mul_r by lia. change (2^8) with 256. lia.
  - rewrite E, Hr. do 3 f_equal. lia.
Qed.

(** ** increments *)
Lemma slice_splice_disj (l : list Z) o d o' n : (o + length d <= length l)%nat ->
  (o' + n <= o \/ o + length d <= o')%nat -> slice (splice l o d) o' n = slice l o' n.
Proof.
  intros H Hd.
  destruct (Nat.le_gt_cases (o' + n) (length l)).
  - apply (list_ext 0).
    + rewrite !length_slice; rewrite ?length_splice; lia.
    + intros i Hi. rewrite length_slice in Hi by (rewrite length_splice; lia).
      rewrite !nth_slice, nth_splice by lia.
      destruct (Nat.ltb_spec (o' + i) o); auto. destruct (Nat.ltb_spec (o'+i) (o + length d)); auto. lia.
  - unfold slice, splice.
    assert (o + length d <= o')%nat by lia.
    rewrite app_assoc, skipn_app, app_length, firstn_length, Nat.min_l by lia.
    rewrite skipn_all2 by (rewrite app_length, firstn_length; lia). cbn [app].
    rewrite skipn_skipn. do 2 f_equal. lia.
Qed.

Lemma splice_slice_id {A} (l : list A) o n : (o + n <= length l)%nat -> splice l o (slice l o n) = l.
Proof.
  intros H. unfold splice. rewrite length_slice by lia. unfold slice.
  rewrite Nat.add_comm, <- skipn_skipn, firstn_skipn. apply firstn_skipn.
Qed.

(** writing one byte after the range [o, o+m) *)
Lemma upd_as_splice l i v : (i < length l)%nat -> upd l i v = splice l i [v].
Proof. intros. rewrite splice_cons by (cbn; lia). now rewrite splice_nil. Qed.

Lemma splice_snoc l o d v : (o + length d < length l)%nat ->
  splice (upd l (o + length d) v) o d = splice l o (d ++ [v]).
Proof.
  intros H. apply (list_ext 0).
  - rewrite !length_splice; rewrite ?length_upd, ?app_length; cbn; lia.
  - intros i Hi. rewrite length_splice in Hi by (rewrite length_upd; lia). rewrite length_upd in Hi.
    rewrite !nth_splice by (rewrite ?length_upd, ?app_length; cbn; lia).
    rewrite app_length. cbn [length].
    destruct (Nat.ltb_spec i o).
    + rewrite nth_upd_other by lia. reflexivity.
    + destruct (Nat.ltb_spec i (o + length d)).
      * destruct (Nat.ltb_spec i (o + (length d + 1))); [|lia]. rewrite app_nth1 by lia. reflexivity.
      * destruct (Nat.eq_dec i (o + length d)) as [->|].
        -- rewrite nth_upd_same by lia.
           destruct (Nat.ltb_spec (o + length d) (o + (length d + 1))); [|lia].
           rewrite app_nth2 by lia. replace (o + length d - o - length d)%nat with 0%nat by lia. reflexivity.
        -- rewrite nth_upd_other by lia. destruct (Nat.ltb_spec i (o + (length d + 1))); [lia|]. reflexivity.
Qed.

Lemma be_inc_loop_correct k out o : bytes out -> (o + k <= length out)%nat ->
  be_inc_loop k out o = Ok (splice out o (be_bytes k (be_val (slice out o k) + 1))).
Proof.
  revert out; induction k as [|k IH]; intros out Hb H.
  - cbn. now rewrite splice_nil.
  - cbn [be_inc_loop]. rewrite (get_ok _ _ 0) by lia. cbn [bind]. rewrite put_ok by lia. cbn [bind].
    pose proof (bytes_nth out (o + k) Hb) as B. red in B.
    replace (slice out o (S k)) with (slice out o k ++ [nth (o + k) out 0]).
    2:{ replace (S k) with (k + 1)%nat by lia. rewrite slice_app. f_equal.
        rewrite (slice_cons 0) by lia. reflexivity. }
    rewrite be_val_app. cbn [length].
    change (256 ^ Z.of_nat 1) with 256.
    set (b := nth (o + k) out 0) in *. change (be_val [b]) with (b + 256 * 0).
    rewrite be_bytes_S.
    destruct (Z.eqb_spec (u8 (b + 1)) 0) as [E|E]; unfold u8 in *.
    + assert (b = 255) by lia.
      rewrite IH by (try apply bytes_upd; rewrite ?length_upd; auto; unfold is_byte; lia).
      rewrite upd_as_splice by lia. rewrite slice_splice_disj by (cbn; lia).
      f_equal. rewrite <- upd_as_splice by lia.
      replace (o + k)%nat with (o + length (be_bytes k (be_val (slice out o k) + 1)))%nat
        by (rewrite length_be_bytes; lia).
      rewrite splice_snoc by (rewrite length_be_bytes; lia).
      f_equal. f_equal; [f_equal; lia|]. f_equal. lia.
    + f_equal.
      rewrite <- (splice_slice_id (upd out (o + k) ((b + 1) mod 2 ^ 8)) o k) by (rewrite length_upd; lia).
      rewrite upd_as_splice at 2 by lia. rewrite slice_splice_disj by (cbn; lia).
      replace (o + k)%nat with (o + length (slice out o k))%nat by (rewrite length_slice; lia).
      rewrite splice_snoc by (rewrite length_slice; lia).
      f_equal. f_equal; [|f_equal; lia].
      replace ((b + 256 * 0 + 256 * be_val (slice out o k) + 1) / 256) with (be_val (slice out o k)) by lia.
      pose proof (be_bytes_be_val (slice out o k) (bytes_slice _ _ _ Hb)) as Q.
      rewrite length_slice in Q by lia. now symmetry.
Qed.

Lemma BeIncrement8_range_correct out o len : bytes out -> (0 < len)%nat -> (o + len <= length out)%nat ->
  BeIncrement8_range out o len = Ok (splice out o (be_bytes len (be_val (slice out o len) + 1))).
Proof. intros. unfold BeIncrement8_range. destruct len; [lia|]. now apply be_inc_loop_correct. Qed.

Lemma BeIncrement8_correct out : bytes out -> out <> [] ->
  BeIncrement8 out = Ok (be_bytes (length out) (be_val out + 1)).
Proof.
  intros Hb Hn. unfold BeIncrement8.
  assert (0 < length out)%nat by (destruct out; [congruence|cbn; lia]).
  rewrite BeIncrement8_range_correct by (auto; lia).
  rewrite slice_all by reflexivity. rewrite splice_all by apply length_be_bytes. reflexivity.
Qed.

Lemma le_inc_loop_correct k i out : bytes out -> (i + k <= length out)%nat ->
  le_inc_loop k i out = Ok (splice out i (le_bytes k (le_val (slice out i k) + 1))).
Proof.
  revert i out; induction k as [|k IH]; intros i out Hb H.
  - cbn. now rewrite splice_nil.
  - cbn [le_inc_loop]. rewrite (get_ok _ _ 0) by lia. cbn [bind]. rewrite put_ok by lia. cbn [bind].
    pose proof (bytes_nth out i Hb) as B. red in B.
    rewrite (slice_cons 0) by lia. cbn [le_val le_bytes].
    set (b := nth i out 0) in *.
    destruct (Z.eqb_spec (u8 (b + 1)) 0) as [E|E]; unfold u8 in *.
    + assert (b = 255) by lia.
      rewrite IH by (try apply bytes_upd; rewrite ?length_upd; auto; unfold is_byte; lia).
      rewrite upd_as_splice by lia. rewrite slice_splice_disj by (cbn; lia).
      f_equal. rewrite <- upd_as_splice by lia.
      rewrite splice_cons by (rewrite length_le_bytes; lia).
      replace ((b + 256 * le_val (slice out (S i) k) + 1) / 256) with (le_val (slice out (S i) k) + 1) by lia.
      apply (list_ext 0).
      * len.
      * intros j Hj. len_in Hj.
        rewrite nth_splice by (rewrite length_upd, length_le_bytes; lia).
        rewrite length_le_bytes.
        destruct (Nat.eq_dec i j) as [->|].
        -- destruct (Nat.ltb_spec j (S j)); [|lia].
           rewrite !nth_upd_same by (rewrite ?length_splice; rewrite ?length_le_bytes; lia). lia.
        -- rewrite !nth_upd_other by lia. rewrite nth_splice by (rewrite length_le_bytes; lia).
           rewrite length_le_bytes. reflexivity.
    + f_equal. rewrite splice_cons by (rewrite length_le_bytes; lia).
      replace ((b + 256 * le_val (slice out (S i) k) + 1) / 256) with (le_val (slice out (S i) k)) by lia.
      replace (le_bytes k (le_val (slice out (S i) k))) with (slice out (S i) k).
      * rewrite splice_slice_id by lia. f_equal. lia.
      * pose proof (le_bytes_le_val (slice out (S i) k) (bytes_slice _ _ _ Hb)) as Q.
        rewrite length_slice in Q by lia. now symmetry.
Qed.

Lemma LeIncrement_len_correct out len : bytes out -> (len <= length out)%nat ->
  LeIncrement_len out len = Ok (splice out 0 (le_bytes len (le_val (slice out 0 len) + 1))).
Proof. intros. unfold LeIncrement_len. apply le_inc_loop_correct; auto. Qed.

Lemma LeIncrement_correct out : bytes out ->
  LeIncrement out = Ok (le_bytes (length out) (le_val out + 1)).
Proof.
  intros Hb. unfold LeIncrement. rewrite LeIncrement_len_correct by auto.
  rewrite slice_all by reflexivity. rewrite splice_all by apply length_le_bytes. reflexivity.
Qed.

Lemma LeIncrementW_correct w a b : 0 < w -> 0 <= a < 2 ^ w -> 0 <= b < 2 ^ w ->
  exists a' b', LeIncrementW w [a; b] = Ok [a'; b'] /\
    0 <= a' < 2 ^ w /\ 0 <= b' < 2 ^ w /\
    a' + 2 ^ w * b' = (a + 2 ^ w * b + 1) mod 2 ^ (2 * w).
Proof.
  intros Hw Ha Hb. assert (P : 0 < 2 ^ w) by (apply Z.pow_pos_nonneg; lia).
  unfold LeIncrementW. cbn [get nth_error bind put length Nat.ltb Nat.leb upd].
  replace (2 ^ (2 * w)) with (2 ^ w * 2 ^ w) by (rewrite <- Z.pow_add_r by lia; f_equal; lia).
  set (M := 2 ^ w) in *.
  destruct (Z.eqb_spec ((a + 1) mod M) 0) as [E|E].
  - assert (a = M - 1).
    { destruct (Z.eq_dec a (M-1)); auto. rewrite Z.mod_small in E by lia. lia. }
    cbn [get nth_error bind put length Nat.ltb Nat.leb upd].
    do 2 eexists; split; [reflexivity|]. subst a.
    assert (0 <= (b + 1) mod M < M) by (apply Z.mod_pos_bound; lia).
    replace ((M - 1 + 1) mod M) with 0 by lia.
    split; [lia|]. split; [lia|].
    replace (M - 1 + M * b + 1) with (M * (b + 1)) by ring.
    rewrite Z.mul_mod_distr_l by lia. ring.
  - do 2 eexists; split; [reflexivity|].
    assert (a + 1 < M).
    { destruct (Z.eq_dec (a+1) M) as [Q|]; [|lia]. rewrite Q, Z.mod_same in E by lia. lia. }
    rewrite !(Z.mod_small (a + 1)) by lia.
    split; [lia|]. split; [lia|]. rewrite Z.mod_small by nia. lia.
Qed.

Lemma LeIncreaseW_correct w a b out n : 0 < w -> 0 <= a < 2 ^ w -> 0 <= b < 2 ^ w ->
  length out = 2%nat -> 0 <= n < 2 ^ w ->
  exists a' b', LeIncreaseW w [a; b] out n = Ok [a'; b'] /\
    0 <= a' < 2 ^ w /\ 0 <= b' < 2 ^ w /\
    a' + 2 ^ w * b' = (a + 2 ^ w * b + n) mod 2 ^ (2 * w).
Proof.
  intros Hw Ha Hb Hl Hn. assert (P : 0 < 2 ^ w) by (apply Z.pow_pos_nonneg; lia).
  unfold LeIncreaseW. rewrite wr_ok by (cbn; lia). cbn [bind].
  rewrite splice_all by (cbn; lia).
  cbn [get nth_error bind put length Nat.ltb Nat.leb upd].
  replace (2 ^ (2 * w)) with (2 ^ w * 2 ^ w) by (rewrite <- Z.pow_add_r by lia; f_equal; lia).
  set (M := 2 ^ w) in *. rewrite (Z.mod_small n) by lia.
  destruct (Z.lt_ge_cases (a + n) M).
  - rewrite (Z.mod_small (a + n)) by lia. destruct (Z.ltb_spec (a + n) a); [lia|].
    do 2 eexists; split; [reflexivity|]. split; [lia|]. split; [lia|]. rewrite Z.mod_small by nia. lia.
  - assert (E : (a + n) mod M = a + n - M).
    { replace (a + n) with (a + n - M + 1 * M) at 1 by ring. rewrite Z.mod_add, Z.mod_small by lia. lia. }
    rewrite E. destruct (Z.ltb_spec (a + n - M) a); [|lia].
    cbn [get nth_error bind put length Nat.ltb Nat.leb upd].
    do 2 eexists; split; [reflexivity|].
    assert (0 <= (b + 1) mod M < M) by (apply Z.mod_pos_bound; lia).
    split; [lia|]. split; [lia|].
    replace (a + M * b + n) with (a + n - M + (b + 1) * M) by ring.
    rewrite Z.rem_mul_r by lia. rewrite Z.mod_add, (Z.mod_small (a + n - M)) by lia.
    rewrite Z.div_add, Z.div_small by lia. reflexivity.
Qed.
