(** Lemmas about the modelling language of Base.v. *)
From Verif Require Export Base.
From Coq Require Export ZifyBool ZifyNat.
Open Scope Z_scope.
Ltac Zify.zify_post_hook ::= Z.div_mod_to_equations.

(** ** Results *)
Lemma bind_ok {A B} (m : res A) (k : A -> res B) b :
  bind m k = Ok b -> exists a, m = Ok a /\ k a = Ok b.
Proof. destruct m; cbn; intros H; try discriminate; eauto. Qed.

Lemma bind_assoc {A B C} (m : res A) (f : A -> res B) (g : B -> res C) :
  bind (bind m f) g = bind m (fun a => bind (f a) g).
Proof. destruct m; reflexivity. Qed.

(** ** Lists *)
Lemma skipn_skipn {A} (x y : nat) (l : list A) : skipn x (skipn y l) = skipn (x + y) l.
Proof.
  revert l; induction y as [|y IH]; intros l.
  - now rewrite Nat.add_0_r.
  - rewrite Nat.add_succ_r. destruct l; cbn [skipn]; [apply skipn_nil|apply IH].
Qed.

Lemma length_upd l i v : length (upd l i v) = length l.
Proof. revert i; induction l as [|x l IH]; intros [|i]; cbn; auto. Qed.

Lemma nth_upd_same l i v d : (i < length l)%nat -> nth i (upd l i v) d = v.
Proof. revert i; induction l as [|x l IH]; intros [|i]; cbn; intros; try lia; auto. apply IH; lia. Qed.

Lemma nth_upd_other l i j v d : i <> j -> nth j (upd l i v) d = nth j l d.
Proof. revert i j; induction l as [|x l IH]; intros [|i] [|j]; cbn; intros; try lia; auto. Qed.

Lemma upd_app_r a b i v : upd (a ++ b) (length a + i) v = a ++ upd b i v.
Proof. induction a; cbn; [reflexivity|]. now rewrite IHa. Qed.

Lemma upd_app_l a b i v : (i < length a)%nat -> upd (a ++ b) i v = upd a i v ++ b.
Proof. revert i; induction a as [|x a IH]; intros [|i]; cbn; intros; try lia; auto. rewrite IH by lia. reflexivity. Qed.

Lemma upd_split l i v : (i < length l)%nat ->
  upd l i v = firstn i l ++ v :: skipn (S i) l.
Proof.
  revert i; induction l as [|x l IH]; intros [|i]; cbn; intros; try lia; auto.
  rewrite IH by lia. reflexivity.
Qed.

Lemma length_slice {A} (l : list A) o n : (o + n <= length l)%nat -> length (slice l o n) = n.
Proof. intros; unfold slice; rewrite firstn_length, skipn_length; lia. Qed.

Lemma length_splice {A} (l : list A) o d : (o + length d <= length l)%nat ->
  length (splice l o d) = length l.
Proof. intros; unfold splice; rewrite !app_length, firstn_length, skipn_length; lia. Qed.

Lemma nth_slice {A} (l : list A) o n i d : (i < n)%nat -> nth i (slice l o n) d = nth (o + i) l d.
Proof.
  intros H. unfold slice. revert n i H.
  induction o as [|o IH] in l |- *; intros n i H.
  - cbn [skipn Nat.add]. revert i n H; induction l as [|x l IHl]; intros i n H.
    + rewrite firstn_nil. reflexivity.
    + destruct n; [lia|]. destruct i; cbn; auto. apply IHl; lia.
  - destruct l as [|x l]; cbn [skipn Nat.add nth].
    + rewrite firstn_nil. destruct i; reflexivity.
    + apply IH; assumption.
Qed.

Lemma nth_splice {A} (l : list A) o dl i d : (o + length dl <= length l)%nat ->
  nth i (splice l o dl) d =
  if (i <? o)%nat then nth i l d
  else if (i <? o + length dl)%nat then nth (i - o) dl d else nth i l d.
Proof.
  intros H. unfold splice.
  destruct (Nat.ltb_spec i o).
  - rewrite app_nth1 by (rewrite firstn_length; lia).
    rewrite <- (firstn_skipn o l) at 2. rewrite app_nth1 by (rewrite firstn_length; lia). reflexivity.
  - rewrite app_nth2 by (rewrite firstn_length; lia).
    rewrite firstn_length, Nat.min_l by lia.
    destruct (Nat.ltb_spec i (o + length dl)).
    + rewrite app_nth1 by lia. reflexivity.
    + rewrite app_nth2 by lia.
      rewrite <- (firstn_skipn (o + length dl) l) at 2.
      rewrite app_nth2 by (rewrite firstn_length; lia).
      rewrite firstn_length, Nat.min_l by lia. f_equal; lia.
Qed.

Lemma slice_splice_same {A} (l : list A) o d : (o + length d <= length l)%nat ->
  slice (splice l o d) o (length d) = d.
Proof.
  intros H; unfold slice, splice.
  rewrite skipn_app, firstn_length, Nat.min_l by lia.
  rewrite skipn_all2 by (rewrite firstn_length; lia).
  rewrite Nat.sub_diag. cbn [app skipn].
  rewrite firstn_app, firstn_all, Nat.sub_diag. cbn. apply app_nil_r.
Qed.

Lemma splice_all {A} (l d : list A) : length d = length l -> splice l 0 d = d.
Proof. intros H; unfold splice; cbn. rewrite H, skipn_all, app_nil_r. reflexivity. Qed.

Lemma slice_all {A} (l : list A) n : n = length l -> slice l 0 n = l.
Proof. intros ->; unfold slice; cbn. apply firstn_all. Qed.

Lemma slice_app {A} (l : list A) o n m : slice l o (n + m) = slice l o n ++ slice l (o + n) m.
Proof.
  unfold slice. rewrite Nat.add_comm with (n := o), <- skipn_skipn.
  generalize (skipn o l); clear l; intros l.
  revert l; induction n as [|n IH]; intros l; cbn; [reflexivity|].
  destruct l; cbn; [now rewrite firstn_nil|]. now rewrite IH.
Qed.

Lemma splice_splice_next {A} (l : list A) o a b : (o + length a + length b <= length l)%nat ->
  splice (splice l o a) (o + length a) b = splice l o (a ++ b).
Proof.
  intros H. unfold splice.
  rewrite firstn_app, firstn_length, Nat.min_l by lia.
  rewrite firstn_firstn, Nat.min_r by lia.
  replace (o + length a - o)%nat with (length a) by lia.
  rewrite firstn_app, firstn_all, Nat.sub_diag. cbn [firstn].
  rewrite app_nil_r, <- !app_assoc. f_equal. f_equal. f_equal.
  rewrite skipn_app, firstn_length, Nat.min_l by lia.
  rewrite skipn_all2 by (rewrite firstn_length; lia). cbn [app].
  rewrite skipn_app. rewrite skipn_all2 by lia. cbn [app].
  rewrite skipn_skipn, app_length. f_equal. lia.
Qed.

Lemma get_ok l i d : (i < length l)%nat -> get l i = Ok (nth i l d).
Proof.
  intros H; unfold get. destruct (nth_error l i) eqn:E.
  - erewrite nth_error_nth by eassumption. reflexivity.
  - apply nth_error_None in E. lia.
Qed.

Lemma get_ub l i : (length l <= i)%nat -> get l i = UB.
Proof. intros H; unfold get. apply nth_error_None in H. now rewrite H. Qed.

Lemma put_ok l i v : (i < length l)%nat -> put l i v = Ok (upd l i v).
Proof. intros; unfold put. destruct (Nat.ltb_spec i (length l)); [reflexivity|lia]. Qed.

Lemma rd_ok l o n : (o + n <= length l)%nat -> rd l o n = Ok (slice l o n).
Proof. intros; unfold rd. destruct (Nat.leb_spec (o+n) (length l)); [reflexivity|lia]. Qed.

Lemma wr_ok l o d : (o + length d <= length l)%nat -> wr l o d = Ok (splice l o d).
Proof. intros; unfold wr. destruct (Nat.leb_spec (o+length d) (length l)); [reflexivity|lia]. Qed.

Lemma list_ext {A} (d : A) (a b : list A) : length a = length b ->
  (forall i, (i < length a)%nat -> nth i a d = nth i b d) -> a = b.
Proof.
  revert b; induction a as [|x a IH]; intros [|y b]; cbn; intros HL H; try discriminate; auto.
  f_equal. { apply (H 0%nat); lia. }
  apply IH; [lia|]. intros i Hi. apply (H (S i)); lia.
Qed.

(** ** bytes *)
Lemma bytes_app a b : bytes (a ++ b) <-> bytes a /\ bytes b.
Proof. apply Forall_app. Qed.
Lemma bytes_firstn n l : bytes l -> bytes (firstn n l).
Proof. intros H. rewrite <- (firstn_skipn n l) in H. apply bytes_app in H. tauto. Qed.
Lemma bytes_skipn n l : bytes l -> bytes (skipn n l).
Proof. intros H. rewrite <- (firstn_skipn n l) in H. apply bytes_app in H. tauto. Qed.
Lemma bytes_slice o n l : bytes l -> bytes (slice l o n).
Proof. intros; unfold slice. now apply bytes_firstn, bytes_skipn. Qed.
Lemma bytes_splice o d l : bytes l -> bytes d -> bytes (splice l o d).
Proof. intros; unfold splice. rewrite !bytes_app. auto using bytes_firstn, bytes_skipn. Qed.
Lemma bytes_nth l i : bytes l -> is_byte (nth i l 0).
Proof.
  intros H. destruct (Nat.lt_ge_cases i (length l)).
  - eapply Forall_forall in H; [exact H|]. now apply nth_In.
  - rewrite nth_overflow by lia. red; lia.
Qed.
Lemma bytes_zeros n : bytes (zeros n).
Proof. induction n; constructor; auto. red; lia. Qed.
Lemma length_zeros n : length (zeros n) = n.
Proof. apply repeat_length. Qed.
Lemma bytes_upd l i v : bytes l -> is_byte v -> bytes (upd l i v).
Proof.
  revert i; induction l as [|x l IH]; intros [|i] H Hv; cbn; auto; inversion H; subst; constructor; auto.
  now apply IH.
Qed.
Lemma bytes_rev l : bytes l -> bytes (rev l).
Proof. apply Forall_rev. Qed.

(** ** bit-level facts *)
Lemma testbit_high w x n : 0 <= x < 2 ^ w -> w <= n -> Z.testbit x n = false.
Proof.
  intros Hx Hn. destruct (Z.eq_dec x 0) as [->|]; [apply Z.bits_0|].
  apply Z.bits_above_log2; [lia|].
  apply Z.log2_lt_pow2; [lia|].
  assert (0 <= w) by (destruct (Z.neg_nonneg_cases w); [rewrite Z.pow_neg_r in Hx by lia; lia|lia]).
  apply Z.lt_le_trans with (2 ^ w); [lia|]. apply Z.pow_le_mono_r; lia.
Qed.

Lemma word_of_bits w x : 0 <= w -> 0 <= x -> (forall n, w <= n -> Z.testbit x n = false) -> x < 2 ^ w.
Proof.
  intros Hw Hx H. destruct (Z.eq_dec x 0) as [->|]; [apply Z.pow_pos_nonneg; lia|].
  apply Z.log2_lt_pow2; [lia|].
  destruct (Z.lt_ge_cases (Z.log2 x) w) as [|Hge]; [assumption|].
  specialize (H (Z.log2 x) Hge). rewrite Z.bit_log2 in H by lia. discriminate.
Qed.

Lemma lxor_range w a b : 0 <= w -> 0 <= a < 2^w -> 0 <= b < 2^w -> 0 <= Z.lxor a b < 2^w.
Proof.
  intros Hw Ha Hb. split; [apply Z.lxor_nonneg; lia|].
  apply word_of_bits; [lia|apply Z.lxor_nonneg; lia|].
  intros n Hn. rewrite Z.lxor_spec, (testbit_high w a), (testbit_high w b) by (assumption||lia). reflexivity.
Qed.
Lemma lor_range w a b : 0 <= w -> 0 <= a < 2^w -> 0 <= b < 2^w -> 0 <= Z.lor a b < 2^w.
Proof.
  intros Hw Ha Hb. split; [apply Z.lor_nonneg; lia|].
  apply word_of_bits; [lia|apply Z.lor_nonneg; lia|].
  intros n Hn. rewrite Z.lor_spec, (testbit_high w a), (testbit_high w b) by (assumption||lia). reflexivity.
Qed.
Lemma land_range w a b : 0 <= w -> 0 <= a < 2^w -> 0 <= b -> 0 <= Z.land a b < 2^w.
Proof.
  intros Hw Ha Hb. split; [apply Z.land_nonneg; lia|].
  apply word_of_bits; [lia|apply Z.land_nonneg; lia|].
  intros n Hn. rewrite Z.land_spec, (testbit_high w a) by (assumption||lia). reflexivity.
Qed.
Lemma lxor_byte a b : is_byte a -> is_byte b -> is_byte (Z.lxor a b).
Proof. intros; apply (lxor_range 8); auto; lia. Qed.

Lemma bits_ext w a b : 0 <= w -> 0 <= a < 2^w -> 0 <= b < 2^w ->
  (forall n, 0 <= n < w -> Z.testbit a n = Z.testbit b n) -> a = b.
Proof.
  intros Hw Ha Hb H. apply Z.bits_inj'. intros n Hn.
  destruct (Z.lt_ge_cases n w); [apply H; lia|].
  rewrite (testbit_high w a), (testbit_high w b); auto; lia.
Qed.

Lemma testbit_mod w x n : 0 <= w -> 0 <= n ->
  Z.testbit (x mod 2 ^ w) n = (n <? w) && Z.testbit x n.
Proof.
  intros Hw Hn. destruct (Z.ltb_spec n w).
  - rewrite Z.mod_pow2_bits_low by lia. reflexivity.
  - rewrite Z.mod_pow2_bits_high by lia. reflexivity.
Qed.

Lemma lor_add_disjoint a b : Z.land a b = 0 -> Z.lor a b = a + b.
Proof. intros H. rewrite Z.add_nocarry_lxor by assumption. symmetry. now apply Z.lxor_lor. Qed.

Lemma lor_shiftl_add a b n : 0 <= n -> 0 <= a < 2 ^ n -> Z.lor a (Z.shiftl b n) = a + 2 ^ n * b.
Proof.
  intros Hn Ha. rewrite lor_add_disjoint.
  - rewrite Z.shiftl_mul_pow2 by lia. ring.
  - apply Z.bits_inj'. intros k Hk. rewrite Z.land_spec, Z.bits_0.
    destruct (Z.lt_ge_cases k n).
    + rewrite Z.shiftl_spec_low by lia. apply andb_false_r.
    + rewrite (testbit_high n a) by (assumption||lia). reflexivity.
Qed.

(** ** xor of byte lists *)
Lemma length_xorl a b : length (xorl a b) = Nat.min (length a) (length b).
Proof. revert b; induction a as [|x a IH]; intros [|y b]; cbn; auto. Qed.
Lemma nth_xorl a b i : length a = length b -> nth i (xorl a b) 0 = Z.lxor (nth i a 0) (nth i b 0).
Proof.
  revert b i; induction a as [|x a IH]; intros [|y b] [|i] H; cbn in *; try discriminate; auto.
Qed.
Lemma xorl_comm a b : xorl a b = xorl b a.
Proof. revert b; induction a as [|x a IH]; intros [|y b]; cbn; auto. now rewrite IH, Z.lxor_comm. Qed.
Lemma xorl_assoc a b c : xorl (xorl a b) c = xorl a (xorl b c).
Proof.
  revert b c; induction a as [|x a IH]; intros [|y b] [|z c]; cbn; auto.
  now rewrite IH, Z.lxor_assoc.
Qed.
Lemma xorl_cancel_r a b : (length a <= length b)%nat -> xorl (xorl a b) b = a.
Proof.
  revert b; induction a as [|x a IH]; intros [|y b] H; cbn in *; auto; try lia.
  rewrite IH by lia. rewrite Z.lxor_assoc, Z.lxor_nilpotent, Z.lxor_0_r. reflexivity.
Qed.
Lemma xorl_cancel_l a b : (length a <= length b)%nat -> xorl b (xorl b a) = a.
Proof. intros. rewrite (xorl_comm b a), xorl_comm. now apply xorl_cancel_r. Qed.
Lemma xorl_zeros a n : (length a <= n)%nat -> xorl a (zeros n) = a.
Proof.
  revert n; induction a as [|x a IH]; intros [|n] H; cbn in *; auto; try lia.
  rewrite Z.lxor_0_r. f_equal. apply IH; lia.
Qed.
Lemma xorl_self a : xorl a a = zeros (length a).
Proof. induction a; cbn; auto. rewrite Z.lxor_nilpotent, IHa. reflexivity. Qed.
Lemma xorl_app a b c d : length a = length c -> xorl (a ++ b) (c ++ d) = xorl a c ++ xorl b d.
Proof.
  revert c; induction a as [|x a IH]; intros [|z c] H; cbn in *; try discriminate; auto.
  rewrite IH by lia. reflexivity.
Qed.
Lemma bytes_xorl a b : bytes a -> bytes b -> bytes (xorl a b).
Proof.
  revert b; induction a as [|x a IH]; intros [|y b] Ha Hb; cbn; try constructor;
  inversion Ha; inversion Hb; subst.
  - now apply lxor_byte.
  - now apply IH.
Qed.
Lemma firstn_xorl n a b : firstn n (xorl a b) = xorl (firstn n a) (firstn n b).
Proof. revert a b; induction n; intros [|x a] [|y b]; cbn; auto. now rewrite IHn. Qed.
Lemma skipn_xorl n a b : skipn n (xorl a b) = xorl (skipn n a) (skipn n b).
Proof.
  revert a b; induction n; intros [|x a] [|y b]; cbn; auto.
  destruct (skipn n a); reflexivity.
Qed.

(** ** positional values *)
Lemma le_val_app a b : le_val (a ++ b) = le_val a + 256 ^ Z.of_nat (length a) * le_val b.
Proof.
  induction a as [|x a IH]; [cbn [app le_val length Z.of_nat]; rewrite Z.pow_0_r; ring|].
  cbn [app le_val length]. rewrite IH, Nat2Z.inj_succ, Z.pow_succ_r by lia. ring.
Qed.
Lemma le_val_range l : bytes l -> 0 <= le_val l < 256 ^ Z.of_nat (length l).
Proof.
  induction 1 as [|x l Hx Hl IH]; [cbn; lia|].
  cbn [le_val length]. rewrite Nat2Z.inj_succ, Z.pow_succ_r by lia. red in Hx. lia.
Qed.
Lemma be_val_app a b : be_val (a ++ b) = be_val b + 256 ^ Z.of_nat (length b) * be_val a.
Proof. unfold be_val. rewrite rev_app_distr, le_val_app, rev_length. reflexivity. Qed.
Lemma be_val_cons x l : be_val (x :: l) = be_val l + 256 ^ Z.of_nat (length l) * x.
Proof. change (x :: l) with ([x] ++ l). rewrite be_val_app. cbn. lia. Qed.
Lemma be_val_range l : bytes l -> 0 <= be_val l < 256 ^ Z.of_nat (length l).
Proof.
  intros H. unfold be_val. rewrite <- (rev_length l). apply le_val_range. now apply bytes_rev.
Qed.
Lemma length_le_bytes n x : length (le_bytes n x) = n.
Proof. revert x; induction n; intros; cbn; auto. Qed.
Lemma length_be_bytes n x : length (be_bytes n x) = n.
Proof. unfold be_bytes. now rewrite rev_length, length_le_bytes. Qed.
Lemma bytes_le_bytes n x : bytes (le_bytes n x).
Proof. revert x; induction n; intros; constructor; [red; apply Z.mod_pos_bound; lia|apply IHn]. Qed.
Lemma bytes_be_bytes n x : bytes (be_bytes n x).
Proof. apply bytes_rev, bytes_le_bytes. Qed.
Lemma le_val_le_bytes n x : le_val (le_bytes n x) = x mod 256 ^ Z.of_nat n.
Proof.
  revert x; induction n as [|n IH]; intros x.
  - cbn. now rewrite Z.mod_1_r.
  - cbn [le_bytes le_val]. rewrite IH, Nat2Z.inj_succ, Z.pow_succ_r by lia.
    rewrite Z.rem_mul_r by (try apply Z.pow_pos_nonneg; lia). ring.
Qed.
Lemma be_val_be_bytes n x : be_val (be_bytes n x) = x mod 256 ^ Z.of_nat n.
Proof. unfold be_val, be_bytes. rewrite rev_involutive. apply le_val_le_bytes. Qed.
Lemma le_bytes_le_val l : bytes l -> le_bytes (length l) (le_val l) = l.
Proof.
  induction 1 as [|x l Hx Hl IH]; [reflexivity|]. red in Hx.
  cbn [length le_bytes le_val].
  replace ((x + 256 * le_val l) mod 256) with x by lia.
  replace ((x + 256 * le_val l) / 256) with (le_val l) by lia.
  now rewrite IH.
Qed.
Lemma be_bytes_be_val l : bytes l -> be_bytes (length l) (be_val l) = l.
Proof.
  intros H. unfold be_bytes, be_val. rewrite <- (rev_length l), le_bytes_le_val by now apply bytes_rev.
  apply rev_involutive.
Qed.
Lemma le_val_inj a b : bytes a -> bytes b -> length a = length b -> le_val a = le_val b -> a = b.
Proof. intros Ha Hb HL H. rewrite <- (le_bytes_le_val a), <- (le_bytes_le_val b), HL, H by assumption. reflexivity. Qed.
Lemma be_val_inj a b : bytes a -> bytes b -> length a = length b -> be_val a = be_val b -> a = b.
Proof. intros Ha Hb HL H. rewrite <- (be_bytes_be_val a), <- (be_bytes_be_val b), HL, H by assumption. reflexivity. Qed.
Lemma le_val_zeros n : le_val (zeros n) = 0.
Proof. induction n; cbn [zeros repeat le_val]; auto. fold (zeros n). lia. Qed.

(** ** loops *)
Lemma for_up_inv {S} (I : nat -> S -> Prop) f a n s :
  I a s ->
  (forall j s, (a <= j < a + n)%nat -> I j s -> exists s', f j s = Ok s' /\ I (Datatypes.S j) s') ->
  exists s', for_up a n f s = Ok s' /\ I (a + n)%nat s'.
Proof.
  revert a s; induction n as [|n IH]; intros a s H0 Hs; cbn [for_up].
  - exists s. rewrite Nat.add_0_r. auto.
  - destruct (Hs a s) as (s1 & E & H1); [lia|assumption|]. rewrite E. cbn [bind].
    destruct (IH (Datatypes.S a) s1 H1) as (s2 & E2 & H2).
    + intros; apply Hs; auto; lia.
    + exists s2. split; auto. replace (a + Datatypes.S n)%nat with (Datatypes.S a + n)%nat by lia. auto.
Qed.

Lemma for_up_split {S} a n m f (s : S) :
  for_up a (n + m) f s = bind (for_up a n f s) (for_up (a + n) m f).
Proof.
  revert a s; induction n as [|n IH]; intros a s; cbn [for_up Nat.add bind].
  - now rewrite Nat.add_0_r.
  - destruct (f a s); cbn [bind]; auto. rewrite IH.
    replace (a + Datatypes.S n)%nat with (Datatypes.S a + n)%nat by lia. reflexivity.
Qed.

Lemma for_up_ext {S} a n f g (s : S) :
  (forall i x, (a <= i < a + n)%nat -> f i x = g i x) -> for_up a n f s = for_up a n g s.
Proof.
  revert a s; induction n as [|n IH]; intros a s H; cbn; auto.
  rewrite H by lia. destruct (g a s); cbn; auto. apply IH. intros; apply H; lia.
Qed.

(** ** chunks *)
Lemma chunks_fuel_ge {A} n (l : list A) f g : (0 < n)%nat -> (length l <= f)%nat -> (length l <= g)%nat ->
  chunks_fuel f n l = chunks_fuel g n l.
Proof.
  intros Hn. revert l g; induction f as [|f IH]; intros l g Hf Hg.
  - destruct l; [|cbn in Hf; lia]. destruct g; reflexivity.
  - destruct l as [|x l]; [destruct g; reflexivity|]. destruct g as [|g]; [cbn in Hg; lia|].
    cbn [chunks_fuel]. f_equal. apply IH; rewrite skipn_length; cbn [length] in *; lia.
Qed.
Lemma chunks_nil {A} n : @chunks A n [] = [].
Proof. reflexivity. Qed.
Lemma chunks_cons {A} n (l : list A) : (0 < n)%nat -> l <> [] ->
  chunks n l = firstn n l :: chunks n (skipn n l).
Proof.
  intros Hn Hl. unfold chunks. destruct l as [|x l]; [congruence|].
  cbn [length chunks_fuel]. f_equal. apply chunks_fuel_ge; auto; rewrite skipn_length; cbn [length]; lia.
Qed.
Lemma chunks_app {A} n (a l : list A) : (0 < n)%nat -> length a = n -> chunks n (a ++ l) = a :: chunks n l.
Proof.
  intros Hn Ha. rewrite chunks_cons; auto.
  - rewrite <- Ha, firstn_app, Nat.sub_diag, firstn_all, skipn_app, Nat.sub_diag, skipn_all. cbn.
    now rewrite app_nil_r.
  - destruct a; cbn in *; [lia|discriminate].
Qed.
Lemma concat_chunks {A} n (l : list A) : (0 < n)%nat -> concat (chunks n l) = l.
Proof.
  intros Hn. remember (length l) as k eqn:Hk. revert l Hk.
  induction k as [k IH] using lt_wf_ind; intros l Hk.
  destruct l as [|x l]; [reflexivity|].
  rewrite chunks_cons by (auto; discriminate). cbn [concat].
  rewrite (IH (length (skipn n (x :: l)))); auto.
  - apply firstn_skipn.
  - rewrite skipn_length. cbn [length] in *. lia.
Qed.

(** length bookkeeping *)
Ltac len_rw :=
  repeat first
    [ rewrite app_length | rewrite length_upd | rewrite length_le_bytes | rewrite length_be_bytes
    | rewrite length_zeros | rewrite length_xorl | rewrite rev_length | rewrite map_length
    | rewrite repeat_length | rewrite firstn_length | rewrite skipn_length | progress cbn [length] ];
  try rewrite length_splice by len_solve; try rewrite length_slice by len_solve
with len_solve := solve [ repeat (progress len_rw); lia ].
Ltac len := len_solve.
Ltac len_in H :=
  repeat first
    [ rewrite app_length in H | rewrite length_upd in H | rewrite length_le_bytes in H | rewrite length_be_bytes in H
    | rewrite length_zeros in H | rewrite length_xorl in H | rewrite rev_length in H | rewrite map_length in H
    | rewrite repeat_length in H | rewrite firstn_length in H | rewrite skipn_length in H | progress cbn [length] in H
    | rewrite length_splice in H by len_solve | rewrite length_slice in H by len_solve ].
Ltac solve_bytes := unfold bytes; repeat (apply Forall_cons; [unfold is_byte, is_word; lia|]); apply Forall_nil.
