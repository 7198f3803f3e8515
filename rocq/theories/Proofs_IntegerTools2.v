(** Proofs about Model_IntegerTools: counter increase by a value, constant-time helpers,
    comparison, rotations, hex text. *)
From Verif Require Import BaseLemmas Model_IntegerTools Proofs_IntegerTools.
Open Scope Z_scope.

(** ** Increase by a value *)
Fixpoint incd (l src : list Z) (c : Z) : list Z :=
  match l, src with
  | o :: t, s :: src' => let '(n, c') := inc8_digit o s c in n :: incd t src' c'
  | _, _ => []
  end.

Fixpoint lostb (l src : list Z) (c : Z) : bool :=
  match l, src with
  | o :: t, s :: src' =>
    match t with
    | [] => false
    | _ => ((s =? 255) && (c =? 1)) || lostb t src' ((o + s + c) / 256)
    end
  | _, _ => false
  end.

Lemma length_incd l src c : length src = length l -> length (incd l src c) = length l.
Proof.
  revert src c; induction l as [|o l IH]; intros [|s src] c H; cbn in H; try lia; auto.
  cbn [incd]. destruct (inc8_digit o s c). cbn [length]. rewrite IH; lia.
Qed.

Lemma bytes_incd l src c : bytes (incd l src c).
Proof.
  revert src c; induction l as [|o l IH]; intros [|s src] c; try constructor.
  all: unfold inc8_digit, u8; try apply IH.
  all: try (cbn; unfold is_byte; lia).
Qed.

Lemma carry_ok o s c : is_byte o -> is_byte s -> 0 <= c <= 1 -> ~ (s = 255 /\ c = 1) ->
  snd (inc8_digit o s c) = (o + s + c) / 256.
Proof.
  unfold is_byte, inc8_digit, u8; intros; cbn [snd].
  destruct (Z.ltb_spec ((o + s + c) mod 2 ^ 8) o); lia.
Qed.

Lemma mod_split x y k : 0 <= k ->
  (x + 256 * y) mod 256 ^ (k + 1) = x mod 256 + 256 * ((y + x / 256) mod 256 ^ k).
Proof.
  intros Hk. rewrite Z.pow_add_r by lia. change (256 ^ 1) with 256. rewrite Z.mul_comm.
  assert (0 < 256 ^ k) by (apply Z.pow_pos_nonneg; lia).
  rewrite Z.mul_comm, (Z.mul_comm (256 ^ k)), Z.rem_mul_r by lia.
  f_equal; [lia|]. do 2 f_equal. lia.
Qed.

Lemma incd_exact l src c : bytes l -> bytes src -> length src = length l -> 0 <= c <= 1 ->
  (le_val (incd l src c) = (le_val l + le_val src + c) mod 256 ^ Z.of_nat (length l)
   <-> lostb l src c = false).
Proof.
  revert src c; induction l as [|o l IH]; intros [|s src] c Hl Hs Hlen Hc; cbn [length] in Hlen; try lia.
  - cbn [incd lostb le_val length Z.of_nat]. rewrite Z.pow_0_r, Z.mod_1_r. tauto.
  - inversion Hl; inversion Hs; subst. unfold is_byte in *.
    cbn [length]. rewrite Nat2Z.inj_succ. unfold Z.succ.
    cbn [le_val]. replace (o + 256 * le_val l + (s + 256 * le_val src) + c)
      with ((o + s + c) + 256 * (le_val l + le_val src)) by ring.
    rewrite mod_split by lia. cbn [incd lostb].
    unfold inc8_digit at 1. cbn [le_val]. unfold u8. change (2 ^ 8) with 256.
    destruct l as [|o2 l].
    + destruct src; [|cbn in Hlen; lia]. cbn [incd le_val length Z.of_nat]. rewrite Z.pow_0_r, Z.mod_1_r. tauto.
    + destruct src as [|s2 src]; [cbn in Hlen; lia|].
      assert (E : (s =? 255) && (c =? 1) = true \/ ~ (s = 255 /\ c = 1)).
      { destruct (Z.eqb_spec s 255), (Z.eqb_spec c 1); cbn; auto; right; lia. }
      destruct E as [E|E].
      * rewrite E. cbn [orb]. apply andb_prop in E. destruct E as [E1 E2].
        apply Z.eqb_eq in E1, E2. subst s c.
        split; [|discriminate]. intros Q. exfalso.
        inversion H2; inversion H6; subst. unfold is_byte in *.
        cbn [incd] in Q. cbn [length] in Q. rewrite Nat2Z.inj_succ in Q. unfold Z.succ in Q.
        cbn [le_val] in Q. replace (o + 255 + 1) with (o + 1 * 256) in Q by ring.
        rewrite Z.mod_add, Z.div_add, (Z.mod_small o), (Z.div_small o) in Q by lia.
        rewrite Z.ltb_irrefl in Q. unfold inc8_digit, u8 in Q. cbn [le_val] in Q.
        replace (o2 + 256 * le_val l + (s2 + 256 * le_val src) + (0 + 1))
          with ((o2 + s2 + 1) + 256 * (le_val l + le_val src)) in Q by ring.
        rewrite mod_split in Q by lia.
        match type of Q with context[256 * ?t + _] => idtac | _ => idtac end.
        assert ((o2 + s2 + 0) mod 256 = (o2 + s2 + 1) mod 256); [|lia].
        change (2 ^ 8) with 256 in Q.
        generalize dependent ((le_val l + le_val src + (o2 + s2 + 1) / 256) mod 256 ^ Z.of_nat (length l)).
        generalize (le_val (incd l src (if (o2 + s2 + 0) mod 256 <? o2 then 1 else 0))).
        intros. assert (0 <= (o2 + s2 + 0) mod 256 < 256) by (apply Z.mod_pos_bound; lia).
        assert (0 <= (o2 + s2 + 1) mod 256 < 256) by (apply Z.mod_pos_bound; lia). lia.
      * replace ((s =? 255) && (c =? 1)) with false
          by (destruct (Z.eqb_spec s 255), (Z.eqb_spec c 1); cbn; auto; lia).
        cbn [orb].
        pose proof (carry_ok o s c ltac:(unfold is_byte; lia) ltac:(unfold is_byte; lia) Hc E) as K.
        unfold inc8_digit, u8 in K. cbn [snd] in K. change (2 ^ 8) with 256 in K. rewrite K.
        rewrite <- IH by (auto; try lia).
        set (A := le_val (incd _ _ _)). set (B := (_ + _) mod 256 ^ Z.of_nat _).
        lia.
Qed.

Lemma lostb_spec l src c : bytes l -> bytes src -> length src = length l -> 0 <= c <= 1 ->
  (lostb l src c = true <->
   exists j, (S j < length l)%nat /\ nth j src 0 = 255 /\
     256 ^ Z.of_nat j <= le_val (firstn j l) + le_val (firstn j src) + c).
Proof.
  revert src c; induction l as [|o l IH]; intros [|s src] c Hl Hs Hlen Hc; cbn [length] in Hlen; try lia.
  - cbn. split; [discriminate|]. intros (j & Q & _). lia.
  - inversion Hl; inversion Hs; subst. unfold is_byte in *. cbn [lostb].
    destruct l as [|o2 l].
    + split; [discriminate|]. intros (j & Q & _). cbn in Q. lia.
    + rewrite orb_true_iff, andb_true_iff, !Z.eqb_eq, IH by (auto; lia). split.
      * intros [[-> ->]|(j & Q1 & Q2 & Q3)].
        -- exists 0%nat. cbn. lia.
        -- exists (S j). split; [cbn [length] in *; lia|]. split; [exact Q2|].
           cbn [firstn le_val]. rewrite Nat2Z.inj_succ, Z.pow_succ_r by lia. lia.
      * intros (j & Q1 & Q2 & Q3). destruct j as [|j].
        -- left. cbn in Q2, Q3. lia.
        -- right. exists j. split; [cbn [length] in *; lia|]. split; [exact Q2|].
           cbn [firstn le_val] in Q3. rewrite Nat2Z.inj_succ, Z.pow_succ_r in Q3 by lia. lia.
Qed.

(** the digits the code adds are the little-endian digits of the value *)
Definition incsrc (tsize : nat) (v : Z) (n : nat) : list Z := le_bytes n (v mod 256 ^ Z.of_nat tsize).

Lemma nth_le_bytes n x j : (j < n)%nat -> nth j (le_bytes n x) 0 = (x / 256 ^ Z.of_nat j) mod 256.
Proof.
  revert x j; induction n as [|n IH]; intros x [|j] H; try lia; cbn [le_bytes nth].
  - rewrite Z.pow_0_r, Z.div_1_r. reflexivity.
  - rewrite IH by lia. rewrite Z.div_div by (try apply Z.pow_pos_nonneg; lia).
    rewrite Nat2Z.inj_succ, Z.pow_succ_r by lia. reflexivity.
Qed.

Lemma div_pow_mod v j t : 0 <= j < t -> ((v mod 256 ^ t) / 256 ^ j) mod 256 = (v / 256 ^ j) mod 256.
Proof.
  intros H. replace t with (j + (t - j)) by ring.
  assert (0 < 256 ^ j) by (apply Z.pow_pos_nonneg; lia).
  assert (0 < 256 ^ (t - j)) by (apply Z.pow_pos_nonneg; lia).
  rewrite Z.pow_add_r, Z.rem_mul_r by lia.
  rewrite Z.mul_comm, Z.div_add, Z.div_small by (try apply Z.mod_pos_bound; lia). rewrite Z.add_0_l.
  replace (t - j) with (1 + (t - j - 1)) by ring. rewrite Z.pow_add_r by lia.
  assert (0 < 256 ^ (t - j - 1)) by (apply Z.pow_pos_nonneg; lia).
  change (256 ^ 1) with 256. rewrite Z.rem_mul_r by lia.
  rewrite Z.mul_comm, Z.mod_add, Z.mod_mod by lia. reflexivity.
Qed.

Lemma cinc_digit tsize v n j : (j < n)%nat -> cinc tsize v j = nth j (incsrc tsize v n) 0.
Proof.
  intros H. unfold incsrc. rewrite nth_le_bytes by lia. unfold cinc.
  destruct (Nat.ltb_spec j tsize).
  - rewrite u8_shift, div_pow_mod by lia. reflexivity.
  - assert (0 <= v mod 256 ^ Z.of_nat tsize < 256 ^ Z.of_nat j).
    { assert (P : 0 < 256 ^ Z.of_nat tsize) by (apply Z.pow_pos_nonneg; lia).
      pose proof (Z.mod_pos_bound v _ P).
      assert (256 ^ Z.of_nat tsize <= 256 ^ Z.of_nat j) by (apply Z.pow_le_mono_r; lia). lia. }
    rewrite Z.div_small by lia. reflexivity.
Qed.

(** the loops produce [incd] *)
Lemma le_increase_loop tsize v : forall k j pre l carry, (length pre = j)%nat -> length l = k ->
  exists c, for_up j k (fun j st =>
      let '(out, carry) := st in
      odst <- get out j ;;
      let '(ndst, carry') := inc8_digit odst (cinc tsize v j) carry in
      out <- put out j ndst ;;
      Ok (out, carry')) (pre ++ l, carry)
  = Ok (pre ++ incd l (map (cinc tsize v) (seq j k)) carry, c).
Proof.
  induction k as [|k IH]; intros j pre l carry Hp Hl.
  - destruct l; [|discriminate]. exists carry. reflexivity.
  - destruct l as [|o l]; [discriminate|]. cbn [for_up].
    rewrite (get_ok _ _ 0) by len. cbn [bind].
    rewrite app_nth2 by lia. replace (j - length pre)%nat with 0%nat by lia. cbn [nth].
    destruct (inc8_digit o (cinc tsize v j) carry) as [nd c'] eqn:E.
    rewrite put_ok by len. cbn [bind].
    replace (upd (pre ++ o :: l) j nd) with ((pre ++ [nd]) ++ l).
    2:{ rewrite <- app_assoc. cbn [app]. replace j with (length pre + 0)%nat by lia.
        rewrite upd_app_r. reflexivity. }
    destruct (IH (S j) (pre ++ [nd]) l c' ltac:(len) ltac:(cbn in Hl; lia)) as [c Hc].
    exists c. rewrite Hc. cbn [seq map incd]. rewrite E, <- app_assoc. reflexivity.
Qed.

Lemma map_cinc tsize v n : map (cinc tsize v) (seq 0 n) = incsrc tsize v n.
Proof.
  apply (list_ext 0).
  - rewrite map_length, seq_length. unfold incsrc. len.
  - intros i Hi. rewrite map_length, seq_length in Hi.
    rewrite (nth_indep _ 0 (cinc tsize v 0)) by (rewrite map_length, seq_length; lia).
    rewrite map_nth, seq_nth by lia. apply cinc_digit. lia.
Qed.

Lemma LeIncrease8_incd tsize inp out v : length out = length inp -> inp <> [] ->
  LeIncrease8 tsize inp out v = Ok (incd inp (incsrc tsize v (length inp)) 0).
Proof.
  intros Hl Hn. unfold LeIncrease8. destruct (length inp) eqn:E; [destruct inp; [congruence|discriminate]|].
  rewrite <- E. rewrite wr_ok by lia. cbn [bind]. rewrite splice_all by lia.
  destruct (le_increase_loop tsize v (length inp) 0 [] inp 0 eq_refl eq_refl) as [c L].
  cbn [app] in L. rewrite L. cbn [bind fst]. now rewrite map_cinc.
Qed.

Lemma rev_upd (l : list Z) i v : (i < length l)%nat -> upd l (length l - 1 - i) v = rev (upd (rev l) i v).
Proof.
  intros H. apply (list_ext 0); [len|]. intros j Hj. len_in Hj.
  rewrite rev_nth by len. rewrite length_upd, rev_length.
  destruct (Nat.eq_dec (length l - 1 - i) j) as [<-|N].
  - rewrite nth_upd_same by len.
    replace (length l - S (length l - 1 - i))%nat with i by lia. now rewrite nth_upd_same by len.
  - rewrite nth_upd_other by lia. rewrite nth_upd_other by lia. rewrite rev_nth by lia. f_equal. lia.
Qed.

Lemma BeIncrease8_incd tsize inp out v : length out = length inp -> inp <> [] ->
  BeIncrease8 tsize inp out v = Ok (rev (incd (rev inp) (incsrc tsize v (length inp)) 0)).
Proof.
  intros Hl Hn. unfold BeIncrease8. destruct (length inp) eqn:E; [destruct inp; [congruence|discriminate]|].
  rewrite <- E. rewrite wr_ok by lia. cbn [bind]. rewrite splice_all by lia.
  set (N := length inp).
  assert (G : forall k j l c, length l = N -> (j + k <= N)%nat ->
    for_up j k (fun j st =>
      let '(out, carry) := st in
      odst <- get out (N - 1 - j) ;;
      let '(ndst, carry') := inc8_digit odst (cinc tsize v j) carry in
      out <- put out (N - 1 - j) ndst ;;
      Ok (out, carry')) (rev l, c)
    = (r <- for_up j k (fun j st =>
      let '(out, carry) := st in
      odst <- get out j ;;
      let '(ndst, carry') := inc8_digit odst (cinc tsize v j) carry in
      out <- put out j ndst ;;
      Ok (out, carry')) (l, c) ;; Ok (rev (fst r), snd r))).
  { induction k as [|k IH]; intros j l c Hlen Hk; [reflexivity|]. cbn [for_up].
    rewrite (get_ok _ _ 0) by len. rewrite (get_ok l j 0) by lia. cbn [bind].
    rewrite rev_nth by lia. replace (length l - S (N - 1 - j))%nat with j by lia.
    destruct (inc8_digit (nth j l 0) (cinc tsize v j) c) as [nd c'].
    rewrite put_ok by len. rewrite put_ok by lia. cbn [bind].
    replace (N - 1 - j)%nat with (length (rev l) - 1 - j)%nat by len.
    rewrite rev_upd by len. rewrite rev_involutive. apply IH; len. }
  pose proof (G N 0%nat (rev inp) 0 ltac:(rewrite rev_length; reflexivity) ltac:(lia)) as G0.
  rewrite rev_involutive in G0. rewrite G0.
  destruct (le_increase_loop tsize v N 0 [] (rev inp) 0 eq_refl ltac:(rewrite rev_length; reflexivity)) as [c L].
  cbn [app] in L. rewrite L. cbn [bind fst]. rewrite map_cinc. reflexivity.
Qed.

Lemma le_bytes_firstn n x j : (j <= n)%nat -> firstn j (le_bytes n x) = le_bytes j x.
Proof.
  revert x j; induction n as [|n IH]; intros x [|j] H; try lia; auto. cbn. f_equal. apply IH. lia.
Qed.

Lemma le_val_firstn j l : bytes l -> le_val (firstn j l) = le_val l mod 256 ^ Z.of_nat j.
Proof.
  intros Hb. destruct (Nat.le_gt_cases j (length l)).
  - rewrite <- (firstn_skipn j l) at 2. rewrite le_val_app, firstn_length, Nat.min_l by lia.
    pose proof (le_val_range _ (bytes_firstn j l Hb)) as R. rewrite firstn_length, Nat.min_l in R by lia.
    rewrite Z.mul_comm, Z.mod_add, Z.mod_small by lia. reflexivity.
  - rewrite firstn_all2 by lia. pose proof (le_val_range _ Hb).
    assert (256 ^ Z.of_nat (length l) <= 256 ^ Z.of_nat j) by (apply Z.pow_le_mono_r; lia).
    rewrite Z.mod_small by lia. reflexivity.
Qed.

(** the carry condition, on numbers *)
Definition lost_carry (n : nat) (x v : Z) : Prop :=
  exists j : nat, (S j < n)%nat /\ (v / 256 ^ Z.of_nat j) mod 256 = 255 /\
    256 ^ Z.of_nat j <= x mod 256 ^ Z.of_nat j + v mod 256 ^ Z.of_nat j.

Lemma incd_number tsize inp v : bytes inp ->
  let n := length inp in let v' := v mod 256 ^ Z.of_nat tsize in
  (le_val (incd inp (incsrc tsize v n) 0) = (le_val inp + v') mod 256 ^ Z.of_nat n
   <-> ~ lost_carry n (le_val inp) v').
Proof.
  intros Hb n v'.
  assert (Hs : bytes (incsrc tsize v n)) by apply bytes_le_bytes.
  assert (Hlen : length (incsrc tsize v n) = n) by apply length_le_bytes.
  pose proof (incd_exact inp (incsrc tsize v n) 0 Hb Hs Hlen ltac:(lia)) as E.
  pose proof (lostb_spec inp (incsrc tsize v n) 0 Hb Hs Hlen ltac:(lia)) as L.
  assert (M : (le_val inp + le_val (incsrc tsize v n) + 0) mod 256 ^ Z.of_nat n
              = (le_val inp + v') mod 256 ^ Z.of_nat n).
  { unfold incsrc. rewrite le_val_le_bytes, Z.add_0_r. fold v'.
    rewrite Z.add_mod_idemp_r; [reflexivity|]. apply Z.pow_nonzero; lia. }
  rewrite <- M. fold n in E, L. rewrite E.
  rewrite <- not_true_iff_false, L.
  assert (Q : (exists j, (S j < n)%nat /\ nth j (incsrc tsize v n) 0 = 255 /\
     256 ^ Z.of_nat j <= le_val (firstn j inp) + le_val (firstn j (incsrc tsize v n)) + 0)
     <-> lost_carry n (le_val inp) v').
  { unfold lost_carry. split; intros (j & Q1 & Q2 & Q3); exists j; (split; [exact Q1|]);
      unfold incsrc in *; fold v' in Q2, Q3 |- *.
    - rewrite nth_le_bytes in Q2 by lia. split; [exact Q2|].
      rewrite le_bytes_firstn, le_val_firstn, le_val_le_bytes, Z.add_0_r in Q3 by (auto; lia). exact Q3.
    - rewrite nth_le_bytes by lia. split; [exact Q2|].
      rewrite le_bytes_firstn, le_val_firstn, le_val_le_bytes, Z.add_0_r by (auto; lia). exact Q3. }
  rewrite Q. tauto.
Qed.

Lemma no_ff_no_lost n x v : (forall j : nat, (S j < n)%nat -> (v / 256 ^ Z.of_nat j) mod 256 <> 255) ->
  ~ lost_carry n x v.
Proof. intros H (j & Hj & E & _). exact (H j Hj E). Qed.

Lemma LeIncrease8_spec tsize inp out v : bytes inp -> inp <> [] -> length out = length inp ->
  exists r, LeIncrease8 tsize inp out v = Ok r /\ bytes r /\ length r = length inp /\
    (le_val r = (le_val inp + v mod 256 ^ Z.of_nat tsize) mod 256 ^ Z.of_nat (length inp)
     <-> ~ lost_carry (length inp) (le_val inp) (v mod 256 ^ Z.of_nat tsize)).
Proof.
  intros Hb Hn Hl. rewrite LeIncrease8_incd by auto. eexists; split; [reflexivity|].
  split; [apply bytes_incd|]. split; [apply length_incd; unfold incsrc; len|].
  apply incd_number, Hb.
Qed.

Lemma BeIncrease8_spec tsize inp out v : bytes inp -> inp <> [] -> length out = length inp ->
  exists r, BeIncrease8 tsize inp out v = Ok r /\ bytes r /\ length r = length inp /\
    (be_val r = (be_val inp + v mod 256 ^ Z.of_nat tsize) mod 256 ^ Z.of_nat (length inp)
     <-> ~ lost_carry (length inp) (be_val inp) (v mod 256 ^ Z.of_nat tsize)).
Proof.
  intros Hb Hn Hl. rewrite BeIncrease8_incd by auto. eexists; split; [reflexivity|].
  assert (L : length (incd (rev inp) (incsrc tsize v (length inp)) 0) = length inp).
  { rewrite length_incd; rewrite rev_length; [reflexivity|]. unfold incsrc; len. }
  split; [apply bytes_rev, bytes_incd|]. split; [rewrite rev_length; exact L|].
  unfold be_val. rewrite rev_involutive.
  pose proof (incd_number tsize (rev inp) v (bytes_rev _ Hb)) as I. cbv zeta in I.
  rewrite rev_length in I. exact I.
Qed.

(** ** constant-time helpers *)
Lemma expand_fold_bit k x n : 0 <= x -> 0 <= n ->
  Z.testbit (expand_fold k x) n = true <-> exists i, 0 <= i < 2 ^ Z.of_nat k /\ Z.testbit x (n + i) = true.
Proof.
  intros Hx. revert n; induction k as [|k IH]; intros n Hn.
  - cbn [expand_fold]. change (2 ^ Z.of_nat 0) with 1. split.
    + intros. exists 0. rewrite Z.add_0_r. split; [lia|assumption].
    + intros (i & Hi & E). replace (n + i) with n in E by lia. exact E.
  - cbn [expand_fold]. unfold wshr.
    assert (0 < 2 ^ Z.of_nat k) by (apply Z.pow_pos_nonneg; lia).
    rewrite Z.lor_spec, Z.shiftr_spec, orb_true_iff, !IH by lia.
    rewrite Nat2Z.inj_succ, Z.pow_succ_r by lia. split.
    + intros [(i & Hi & E)|(i & Hi & E)].
      * exists i. split; [lia|exact E].
      * exists (2 ^ Z.of_nat k + i). split; [lia|]. rewrite Z.add_assoc. exact E.
    + intros (i & Hi & E). destruct (Z.lt_ge_cases i (2 ^ Z.of_nat k)).
      * left. exists i. split; [lia|exact E].
      * right. exists (i - 2 ^ Z.of_nat k). split; [lia|]. rewrite <- E. f_equal. lia.
Qed.

Lemma ExpandMask_correct k x : 0 <= x < 2 ^ (2 ^ Z.of_nat k) ->
  ExpandMask k x = if x =? 0 then 0 else 2 ^ (2 ^ Z.of_nat k) - 1.
Proof.
  intros Hx. set (W := 2 ^ Z.of_nat k) in *. assert (P : 0 < W) by (apply Z.pow_pos_nonneg; lia).
  assert (P2 : 2 <= 2 ^ W) by (replace 2 with (2 ^ 1) at 1 by reflexivity; apply Z.pow_le_mono_r; lia).
  unfold ExpandMask. fold W.
  assert (E : Z.land (expand_fold k x) 1 = Z.b2z (negb (x =? 0))).
  { apply Z.bits_inj'. intros n Hn. rewrite Z.land_spec.
    destruct (Z.eq_dec n 0) as [->|].
    - rewrite Z.b2z_bit0. change (Z.testbit 1 0) with true. rewrite andb_true_r.
      apply eq_true_iff_eq. rewrite expand_fold_bit by lia. rewrite negb_true_iff, Z.eqb_neq. split.
      + intros (i & Hi & B) ->. now rewrite Z.testbit_0_l in B.
      + intros N. exists (Z.log2 x). cbn [Z.add]. split.
        * split; [apply Z.log2_nonneg|]. apply (proj1 (Z.log2_lt_pow2 x W ltac:(lia))); lia.
        * apply Z.bit_log2. lia.
    - replace (Z.testbit 1 n) with false.
      2:{ symmetry. change 1 with (2 ^ 0). apply Z.pow2_bits_false. lia. }
      rewrite andb_false_r. symmetry. destruct (negb (x =? 0)); cbn [Z.b2z];
        [change 1 with (2 ^ 0); apply Z.pow2_bits_false; lia|apply Z.testbit_0_l]. }
  rewrite E. unfold wnot. destruct (Z.eqb_spec x 0); cbn [negb Z.b2z].
  - replace (0 - 1) with (2 ^ W - 1 + (-1) * 2 ^ W) by ring.
    rewrite Z.mod_add, (Z.mod_small (2 ^ W - 1)) by lia.
    replace (- (2 ^ W - 1) - 1) with (0 + (-1) * 2 ^ W) by ring. rewrite Z.mod_add by lia. apply Z.mod_0_l. lia.
  - change (1 - 1) with 0. rewrite Z.mod_0_l by lia.
    replace (- 0 - 1) with (2 ^ W - 1 + (-1) * 2 ^ W) by ring.
    rewrite Z.mod_add, Z.mod_small by lia. reflexivity.
Qed.

Lemma wnot_ones W : 0 <= W -> wnot W (2 ^ W - 1) = 0.
Proof.
  intros. unfold wnot. assert (0 < 2 ^ W) by (apply Z.pow_pos_nonneg; lia).
  replace (- (2 ^ W - 1) - 1) with (0 + (-1) * 2 ^ W) by ring. rewrite Z.mod_add by lia. apply Z.mod_0_l. lia.
Qed.
Lemma wnot_0 W : 0 <= W -> wnot W 0 = 2 ^ W - 1.
Proof.
  intros. unfold wnot. assert (0 < 2 ^ W) by (apply Z.pow_pos_nonneg; lia).
  replace (- 0 - 1) with (2 ^ W - 1 + (-1) * 2 ^ W) by ring. rewrite Z.mod_add, Z.mod_small by lia. reflexivity.
Qed.
Lemma land_ones_word W a : 0 <= W -> 0 <= a < 2 ^ W -> Z.land a (2 ^ W - 1) = a.
Proof.
  intros. replace (2 ^ W - 1) with (Z.ones W) by (rewrite Z.ones_equiv; lia).
  rewrite Z.land_ones, Z.mod_small by lia. reflexivity.
Qed.

Lemma width_nonneg k : 0 <= 2 ^ Z.of_nat k. Proof. apply Z.pow_nonneg. lia. Qed.

Lemma IsZero_correct k x : 0 <= x < 2 ^ (2 ^ Z.of_nat k) ->
  IsZero k x = if x =? 0 then 2 ^ (2 ^ Z.of_nat k) - 1 else 0.
Proof.
  intros H. unfold IsZero. rewrite ExpandMask_correct by auto. pose proof (width_nonneg k).
  destruct (x =? 0); [apply wnot_0|apply wnot_ones]; auto.
Qed.

Lemma IsEqual_correct k x y : 0 <= x < 2 ^ (2 ^ Z.of_nat k) -> 0 <= y < 2 ^ (2 ^ Z.of_nat k) ->
  IsEqual k x y = if x =? y then 2 ^ (2 ^ Z.of_nat k) - 1 else 0.
Proof.
  intros Hx Hy. unfold IsEqual. rewrite IsZero_correct by (apply lxor_range; auto using width_nonneg).
  replace (Z.lxor x y =? 0) with (x =? y); [reflexivity|].
  apply eq_true_iff_eq. rewrite !Z.eqb_eq. split; [intros ->; apply Z.lxor_nilpotent|apply Z.lxor_eq].
Qed.

Lemma b2z_word k b : 0 <= Z.b2z b < 2 ^ (2 ^ Z.of_nat k).
Proof.
  assert (2 <= 2 ^ (2 ^ Z.of_nat k)).
  { replace 2 with (2 ^ 1) at 1 by reflexivity. apply Z.pow_le_mono_r; [lia|].
    assert (0 < 2 ^ Z.of_nat k) by (apply Z.pow_pos_nonneg; lia). lia. }
  destruct b; cbn [Z.b2z]; lia.
Qed.

Lemma IsLess_correct k x y : IsLess k x y = if x <? y then 2 ^ (2 ^ Z.of_nat k) - 1 else 0.
Proof. unfold IsLess. rewrite ExpandMask_correct by apply b2z_word. destruct (x <? y); reflexivity. Qed.
Lemma IsLte_correct k x y : IsLte k x y = if x <=? y then 2 ^ (2 ^ Z.of_nat k) - 1 else 0.
Proof. unfold IsLte. rewrite ExpandMask_correct by apply b2z_word. destruct (x <=? y); reflexivity. Qed.

Lemma Select_mask k a b x : 0 <= a < 2 ^ (2 ^ Z.of_nat k) -> 0 <= b < 2 ^ (2 ^ Z.of_nat k) ->
  0 <= x < 2 ^ (2 ^ Z.of_nat k) -> Select k (ExpandMask k x) a b = if x =? 0 then b else a.
Proof.
  intros Ha Hb Hx. unfold Select. rewrite ExpandMask_correct by auto. pose proof (width_nonneg k).
  destruct (x =? 0).
  - rewrite Z.land_0_r, wnot_0, land_ones_word by auto. reflexivity.
  - rewrite wnot_ones, land_ones_word, Z.land_0_r, Z.lor_0_r by auto. reflexivity.
Qed.

Lemma ConditionalCopy1_correct k a b x : 0 <= a < 2 ^ (2 ^ Z.of_nat k) -> 0 <= b < 2 ^ (2 ^ Z.of_nat k) ->
  0 <= x < 2 ^ (2 ^ Z.of_nat k) -> ConditionalCopy1 k x a b = if x =? 0 then b else a.
Proof. exact (Select_mask k a b x). Qed.

Lemma ValueOrZero_correct k p v : 0 <= v < 2 ^ (2 ^ Z.of_nat k) -> 0 <= p < 2 ^ (2 ^ Z.of_nat k) ->
  ValueOrZero k p v = if p =? 0 then 0 else v.
Proof. intros. unfold ValueOrZero. apply Select_mask; auto. split; [lia|]. apply Z.pow_pos_nonneg; [lia|apply width_nonneg]. Qed.

(** ** comparison *)
Lemma lor_fold_zero len a ao b bo : (ao + len <= length a)%nat -> (bo + len <= length b)%nat ->
  bytes a -> bytes b ->
  exists d, for_up 0 len (fun i d =>
    x <- get a (ao + i) ;; y <- get b (bo + i) ;; Ok (Z.lor d (Z.lxor x y))) 0 = Ok d /\
    (0 <= d < 256 /\ (d = 0 <-> slice a ao len = slice b bo len)).
Proof.
  intros Ha Hb Ba Bb.
  destruct (for_up_inv (fun i d => 0 <= d < 256 /\ (d = 0 <-> slice a ao i = slice b bo i))
    (fun i d => x <- get a (ao + i) ;; y <- get b (bo + i) ;; Ok (Z.lor d (Z.lxor x y))) 0 len 0)
    as (d & E & R).
  - split; [lia|]. cbn. tauto.
  - intros j d Hj (R & IH). rewrite (get_ok a _ 0), (get_ok b _ 0) by lia. cbn [bind].
    eexists; split; [reflexivity|]. split.
    + apply (lor_range 8); try lia. apply (lxor_range 8); try lia; apply bytes_nth; auto.
    + replace (S j) with (j + 1)%nat by lia. rewrite !slice_app.
      rewrite !(slice_cons 0) by lia.
      unfold slice at 2 4. cbn [firstn].
      rewrite Z.lor_eq_0_iff, IH, Z.lxor_eq_0_iff. split.
      * intros [-> ->]. reflexivity.
      * intros Q. apply app_inj_tail in Q. tauto.
  - exists d. split; [exact E|]. replace (0 + len)%nat with len in R by lia. exact R.
Qed.

Lemma Compare_correct a ao b bo len : (ao + len <= length a)%nat -> (bo + len <= length b)%nat ->
  bytes a -> bytes b ->
  exists r, Compare a ao b bo len = Ok r /\ (r = true <-> slice a ao len = slice b bo len).
Proof.
  intros. destruct (lor_fold_zero len a ao b bo) as (d & E & R & I); auto.
  unfold Compare. rewrite E. cbn [bind]. eexists; split; [reflexivity|]. rewrite Z.eqb_eq. exact I.
Qed.

Lemma Verify_correct a ao b bo len : (ao + len <= length a)%nat -> (bo + len <= length b)%nat ->
  bytes a -> bytes b ->
  exists d, Verify a ao b bo len = Ok d /\ is_byte d /\ (d = 0 <-> slice a ao len = slice b bo len).
Proof. intros. destruct (lor_fold_zero len a ao b bo) as (d & E & R & I); auto. exists d. auto. Qed.

Lemma DiffMask_bytes a b len : (len <= length a)%nat -> (len <= length b)%nat -> bytes a -> bytes b ->
  exists d, DiffMask a b len = Ok d /\ (d = 0 <-> firstn len a = firstn len b) /\
     (d = -1 <-> firstn len a <> firstn len b).
Proof.
  intros La Lb Ba Bb. destruct (lor_fold_zero len a 0 b 0) as (d & E & R & I); auto.
  unfold DiffMask. cbn [Nat.add] in E. rewrite E. cbn [bind].
  eexists; split; [reflexivity|]. unfold slice in I; cbn [skipn] in I. rewrite <- I.
  destruct (Z.eq_dec d 0) as [->|]; [cbn; split; split; intros; try lia|].
  rewrite Z.shiftr_div_pow2, Z.div_small by lia. cbn. lia.
Qed.

(** CMov *)
Lemma CMov_correct inp io out oo len cond : (io + len <= length inp)%nat -> (oo + len <= length out)%nat ->
  bytes inp -> bytes out -> cond = 0 \/ cond = 1 ->
  CMov inp io out oo len cond = Ok (if cond =? 1 then splice out oo (slice inp io len) else out).
Proof.
  intros Hi Ho Bi Bo Hc. unfold CMov.
  set (c := u8 (wnot 8 cond + 1)).
  assert (C : c = if cond =? 1 then 255 else 0) by (destruct Hc; subst cond; reflexivity).
  set (res_i := fun i => if cond =? 1 then splice out oo (slice inp io i) else out).
  destruct (for_up_inv (fun i r => r = res_i i)
    (fun i out => x <- get inp (io + i) ;; y <- get out (oo + i) ;;
       put out (oo + i) (Z.lxor y (Z.land c (Z.lxor x y)))) 0 len out) as (r & E & R).
  - unfold res_i. destruct (cond =? 1); [|reflexivity]. unfold slice; cbn. now rewrite splice_nil.
  - intros j s Hj ->. unfold res_i.
    assert (L : length (if cond =? 1 then splice out oo (slice inp io j) else out) = length out)
      by (destruct (cond =? 1); [len|reflexivity]).
    rewrite (get_ok inp _ 0) by lia. cbn [bind]. rewrite (get_ok _ _ 0) by lia. cbn [bind].
    rewrite put_ok by lia. eexists; split; [reflexivity|]. rewrite C.
    destruct (cond =? 1).
    + pose proof (bytes_nth inp (io + j) Bi) as B1.
      pose proof (bytes_nth (splice out oo (slice inp io j)) (oo + j) ltac:(apply bytes_splice; auto; apply bytes_slice; auto)) as B2.
      red in B1, B2.
      rewrite Z.land_comm. change 255 with (2 ^ 8 - 1). rewrite land_ones_word by (try apply lxor_range; lia).
      rewrite (Z.lxor_comm (nth _ inp _)), <- Z.lxor_assoc, Z.lxor_nilpotent, Z.lxor_0_l.
      replace (S j) with (j + 1)%nat by lia. rewrite slice_app.
      rewrite (slice_cons 0 inp (io + j) 0) by lia. unfold slice at 3. cbn [firstn].
      rewrite <- (splice_splice_next out oo) by len.
      rewrite length_slice by lia. apply upd_as_splice. len.
    + rewrite Z.land_0_l, Z.lxor_0_r.
      apply (list_ext 0); [len|]. intros i Hi'.
      destruct (Nat.eq_dec (oo + j) i) as [<-|]; [rewrite nth_upd_same by lia; reflexivity|now rewrite nth_upd_other].
  - rewrite E, R. reflexivity.
Qed.

(** ** shift left by one bit *)
Lemma firstn_snoc {A} (p : list A) v t : firstn (S (length p)) (p ++ v :: t) = p ++ [v].
Proof. induction p; [reflexivity|]. cbn [length app firstn] in *. now rewrite IHp. Qed.
Lemma skipn_snoc {A} (p : list A) v t : skipn (S (length p)) (p ++ v :: t) = t.
Proof. induction p; [reflexivity|]. cbn [length app skipn] in *. exact IHp. Qed.

Lemma shift_left_loop_correct k inp : bytes inp -> (k <= length inp)%nat ->
  forall out bit, length out = length inp -> 0 <= bit <= 1 ->
  exists r c, shift_left_loop k inp out bit = Ok (r, c) /\ 0 <= c <= 1 /\
    length r = length out /\ skipn k r = skipn k out /\ bytes (firstn k r) /\
    c * 256 ^ Z.of_nat k + be_val (firstn k r) = 2 * be_val (firstn k inp) + bit.
Proof.
  intros Hb. induction k as [|k IH]; intros Hk out bit Hl Hbit.
  - exists out, bit. cbn. repeat split; auto; try lia. constructor.
  - cbn [shift_left_loop]. rewrite (get_ok inp _ 0) by lia. cbn [bind]. rewrite put_ok by lia. cbn [bind].
    pose proof (bytes_nth inp k Hb) as B. red in B. set (b := nth k inp 0) in *.
    set (v := u8 (Z.lor (wshl 32 b 1) bit)).
    assert (V : v = (2 * b + bit) mod 256).
    { unfold v, wshl, u8. rewrite Z.shiftl_mul_pow2, (Z.mod_small (b * 2 ^ 1)) by lia.
      rewrite lor_mul_add by lia. f_equal. lia. }
    set (c1 := Z.land (wshr b 7) 1).
    assert (C1 : c1 = (2 * b + bit) / 256).
    { unfold c1, wshr. rewrite Z.shiftr_div_pow2 by lia. change 1 with (Z.ones 1) at 1.
      rewrite Z.land_ones by lia. change (2 ^ 1) with 2. change (2^7) with 128. lia. }
    destruct (IH ltac:(lia) (upd out k v) c1 ltac:(len) ltac:(lia)) as (r & c & E & Hc & Hlr & Hsk & Hbr & Hv).
    exists r, c. rewrite length_upd in Hlr. split; [exact E|]. split; [exact Hc|]. split; [exact Hlr|].
    assert (F : firstn (S k) r = firstn k r ++ [v] /\ skipn (S k) r = skipn (S k) out).
    { assert (Q : skipn k r = v :: skipn (S k) out).
      { rewrite Hsk, upd_split by lia. rewrite skipn_app, firstn_length, Nat.min_l by lia.
        rewrite skipn_all2 by len. rewrite Nat.sub_diag. reflexivity. }
      assert (Er : r = firstn k r ++ v :: skipn (S k) out) by (rewrite <- Q; symmetry; apply firstn_skipn).
      assert (Lp : length (firstn k r) = k) by (rewrite firstn_length; lia).
      generalize dependent (firstn k r). intros p _ _ -> Lp. rewrite <- Lp.
      split; [apply firstn_snoc|apply skipn_snoc]. }
    destruct F as [F1 F2]. split; [exact F2|]. rewrite F1.
    split; [apply bytes_app; split; [exact Hbr|constructor; [red; lia|constructor]]|].
    rewrite be_val_app. cbn [length]. change (256 ^ Z.of_nat 1) with 256. change (be_val [v]) with (v + 256 * 0).
    replace (firstn (S k) inp) with (firstn k inp ++ [b]).
    2:{ pose proof (slice_app inp 0 k 1) as SA. unfold slice at 1 2 in SA. cbn [skipn Nat.add] in SA.
        replace (k + 1)%nat with (S k) in SA by lia. rewrite SA.
        rewrite (slice_cons 0) by lia. reflexivity. }
    rewrite be_val_app. cbn [length]. change (256 ^ Z.of_nat 1) with 256. change (be_val [b]) with (b + 256 * 0).
    rewrite Nat2Z.inj_succ, Z.pow_succ_r by lia. lia.
Qed.

Lemma ShiftLeft_correct inp out : bytes inp -> inp <> [] -> length out = length inp ->
  exists r c, ShiftLeft inp out = Ok (r, c) /\ 0 <= c <= 1 /\ length r = length inp /\ bytes r /\
    c * 256 ^ Z.of_nat (length inp) + be_val r = 2 * be_val inp.
Proof.
  intros Hb Hn Hl. unfold ShiftLeft.
  destruct (length inp) eqn:E; [destruct inp; [congruence|discriminate]|]. rewrite <- E.
  destruct (shift_left_loop_correct (length inp) inp Hb ltac:(lia) out 0 ltac:(lia) ltac:(lia))
    as (r & c & E1 & Hc & Hlr & _ & Hbr & Hv).
  exists r, c. rewrite E1. rewrite firstn_all2 in Hbr by lia. rewrite !firstn_all2 in Hv by lia.
  repeat split; auto; lia.
Qed.

(** ** small helpers *)
Lemma ModPowerOf2_correct a k : 0 <= k -> ModPowerOf2 a (2 ^ k) = a mod 2 ^ k.
Proof.
  intros. unfold ModPowerOf2. replace (2 ^ k - 1) with (Z.ones k) by (rewrite Z.ones_equiv; lia).
  apply Z.land_ones. lia.
Qed.

Lemma Crop_correct v n : 0 <= v < 2 ^ 64 -> 0 <= n -> Crop v n = v mod 2 ^ n.
Proof.
  intros. unfold Crop. destruct (Z.ltb_spec n 64).
  - rewrite Z.shiftl_1_l. replace (2 ^ n - 1) with (Z.ones n) by (rewrite Z.ones_equiv; lia). apply Z.land_ones; lia.
  - rewrite Z.mod_small; [reflexivity|]. assert (2 ^ 64 <= 2 ^ n) by (apply Z.pow_le_mono_r; lia). lia.
Qed.

Lemma IsPowerOf2_correct v : IsPowerOf2 v = true <-> exists k, 0 <= k /\ v = 2 ^ k.
Proof.
  unfold IsPowerOf2. rewrite andb_true_iff, Z.ltb_lt, Z.eqb_eq. split.
  - intros [Hp E]. exists (Z.log2 v). split; [apply Z.log2_nonneg|].
    pose proof (Z.log2_spec v Hp) as [L1 L2].
    destruct (Z.eq_dec v (2 ^ Z.log2 v)) as [|N]; [assumption|exfalso].
    assert (0 < 2 ^ Z.log2 v) by (apply Z.pow_pos_nonneg; [lia|apply Z.log2_nonneg]).
    assert (B1 : Z.testbit v (Z.log2 v) = true) by (apply Z.bit_log2; lia).
    assert (L : Z.log2 (v - 1) = Z.log2 v).
    { apply Z.log2_unique; [apply Z.log2_nonneg|]. lia. }
    assert (B2 : Z.testbit (v - 1) (Z.log2 v) = true) by (rewrite <- L; apply Z.bit_log2; lia).
    assert (B3 : Z.testbit (Z.land v (v - 1)) (Z.log2 v) = true) by (rewrite Z.land_spec, B1, B2; reflexivity).
    rewrite E, Z.testbit_0_l in B3. discriminate.
  - intros (k & Hk & ->). split; [apply Z.pow_pos_nonneg; lia|].
    replace (2 ^ k - 1) with (Z.ones k) by (rewrite Z.ones_equiv; lia).
    rewrite Z.land_ones by lia. apply Z.mod_same. apply Z.pow_nonzero; lia.
Qed.

(** parity *)
Fixpoint xbits (v n : Z) (m : nat) : bool :=
  match m with O => false | S m' => xorb (Z.testbit v n) (xbits v (n + 1) m') end.

Lemma xbits_step v i n m : 0 <= n -> 0 <= i ->
  xbits (Z.lxor v (wshr v i)) n m = xorb (xbits v n m) (xbits v (n + i) m).
Proof.
  intros Hn Hi. revert n Hn. induction m as [|m IH]; intros n Hn; [reflexivity|].
  cbn [xbits]. rewrite IH by lia. unfold wshr. rewrite Z.lxor_spec, Z.shiftr_spec by lia.
  replace (n + 1 + i) with (n + i + 1) by ring.
  destruct (Z.testbit v n), (Z.testbit v (n + i)), (xbits v (n + 1) m), (xbits v (n + i + 1) m); reflexivity.
Qed.

Lemma xbits_app v n m k : xbits v n (m + k) = xorb (xbits v n m) (xbits v (n + Z.of_nat m) k).
Proof.
  revert n; induction m as [|m IH]; intros n.
  - cbn [xbits Nat.add Z.of_nat]. rewrite Z.add_0_r. now destruct (xbits v n k).
  - cbn [xbits Nat.add]. rewrite IH. replace (n + 1 + Z.of_nat m) with (n + Z.of_nat (S m)) by lia.
    symmetry; apply xorb_assoc.
Qed.

Lemma xbits_fold v i : (0 < i)%nat -> xbits (Z.lxor v (wshr v (Z.of_nat i))) 0 i = xbits v 0 (i + i).
Proof. intros. rewrite xbits_step, xbits_app by lia. reflexivity. Qed.

Lemma Parity_xbits v : Parity v = Z.b2z (xbits v 0 64).
Proof.
  unfold Parity, parity_fold. cbn [fold_left].
  set (v1 := Z.lxor v (wshr v 32)). set (v2 := Z.lxor v1 (wshr v1 16)).
  set (v3 := Z.lxor v2 (wshr v2 8)). set (v4 := Z.lxor v3 (wshr v3 4)).
  set (v5 := Z.lxor v4 (wshr v4 2)). set (v6 := Z.lxor v5 (wshr v5 1)).
  change 64%nat with (32 + 32)%nat. rewrite <- xbits_fold by lia. change (Z.of_nat 32) with 32. fold v1.
  change 32%nat with (16 + 16)%nat. rewrite <- xbits_fold by lia. change (Z.of_nat 16) with 16. fold v2.
  change 16%nat with (8 + 8)%nat. rewrite <- xbits_fold by lia. change (Z.of_nat 8) with 8. fold v3.
  change 8%nat with (4 + 4)%nat. rewrite <- xbits_fold by lia. change (Z.of_nat 4) with 4. fold v4.
  change 4%nat with (2 + 2)%nat. rewrite <- xbits_fold by lia. change (Z.of_nat 2) with 2. fold v5.
  change 2%nat with (1 + 1)%nat. rewrite <- xbits_fold by lia. change (Z.of_nat 1) with 1. fold v6.
  cbn [xbits]. rewrite xorb_false_r. change 1 with (Z.ones 1) at 1. rewrite Z.land_ones by lia.
  change (2 ^ 1) with 2. rewrite Z.bit0_mod. reflexivity.
Qed.

(** ** rotations *)
Lemma RotL_bits w v s : 0 <= v < 2 ^ w -> 0 < s < w ->
  exists r, RotL w v s = Ok r /\ 0 <= r < 2 ^ w /\
    forall i, 0 <= i < w -> Z.testbit r i = Z.testbit v ((i - s) mod w).
Proof.
  intros Hv Hs. unfold RotL, safe.
  destruct (Z.ltb_spec s w); [|lia]. destruct (Z.ltb_spec 0 s); [|lia]. cbn [andb bind].
  eexists; split; [reflexivity|]. split.
  - apply lor_range; [lia| |].
    + unfold wshl. apply Z.mod_pos_bound, Z.pow_pos_nonneg; lia.
    + unfold wshr. rewrite Z.shiftr_div_pow2 by lia.
      assert (0 < 2 ^ (w - s)) by (apply Z.pow_pos_nonneg; lia).
      split; [apply Z.div_pos; lia|]. apply Z.div_lt_upper_bound; nia.
  - intros i Hi. unfold wshl, wshr. rewrite Z.lor_spec, testbit_mod, Z.shiftr_spec by lia.
    destruct (Z.ltb_spec i w); [|lia].
    destruct (Z.lt_ge_cases i s).
    + rewrite Z.shiftl_spec_low by lia. cbn [orb].
      replace ((i - s) mod w) with (i + (w - s)).
      2:{ replace (i - s) with (i + (w - s) + (-1) * w) by ring. rewrite Z.mod_add, Z.mod_small by lia. reflexivity. }
      cbn [andb orb]. reflexivity.
    + rewrite Z.shiftl_spec by lia. rewrite (testbit_high w v (i + (w - s))) by lia.
      rewrite orb_false_r. cbn [andb]. rewrite Z.mod_small by lia. reflexivity.
Qed.

Lemma RotR_bits w v s : 0 <= v < 2 ^ w -> 0 < s < w ->
  exists r, RotR w v s = Ok r /\ 0 <= r < 2 ^ w /\
    forall i, 0 <= i < w -> Z.testbit r i = Z.testbit v ((i + s) mod w).
Proof.
  intros Hv Hs. unfold RotR, safe.
  destruct (Z.ltb_spec s w); [|lia]. destruct (Z.ltb_spec 0 s); [|lia]. cbn [andb bind].
  eexists; split; [reflexivity|]. split.
  - apply lor_range; [lia| |].
    + unfold wshr. rewrite Z.shiftr_div_pow2 by lia.
      assert (0 < 2 ^ s) by (apply Z.pow_pos_nonneg; lia).
      split; [apply Z.div_pos; lia|]. apply Z.div_lt_upper_bound; nia.
    + unfold wshl. apply Z.mod_pos_bound, Z.pow_pos_nonneg; lia.
  - intros i Hi. unfold wshl, wshr. rewrite Z.lor_spec, testbit_mod, Z.shiftr_spec by lia.
    destruct (Z.ltb_spec i w); [|lia]. cbn [andb].
    destruct (Z.lt_ge_cases (i + s) w).
    + rewrite Z.shiftl_spec_low by lia. rewrite orb_false_r, Z.mod_small by lia. reflexivity.
    + rewrite (testbit_high w v (i + s)) by lia. cbn [orb]. rewrite Z.shiftl_spec by lia.
      replace ((i + s) mod w) with (i + s - w).
      2:{ replace (i + s) with (i + s - w + 1 * w) at 2 by ring. rewrite Z.mod_add, Z.mod_small by lia. reflexivity. }
      f_equal. ring.
Qed.

Lemma RotR_RotL w v s : 0 <= v < 2 ^ w -> 0 < s < w ->
  (r <- RotL w v s ;; RotR w r s) = Ok v.
Proof.
  intros Hv Hs. destruct (RotL_bits w v s Hv Hs) as (r & E & Hr & B). rewrite E. cbn [bind].
  destruct (RotR_bits w r s Hr Hs) as (q & E2 & Hq & B2). rewrite E2. f_equal.
  apply (bits_ext w); try lia. intros i Hi. rewrite B2, B by (try apply Z.mod_pos_bound; lia).
  f_equal. rewrite Zminus_mod_idemp_l. replace (i + s - s) with i by ring. apply Z.mod_small. lia.
Qed.

Lemma RotL_ok w v s : 0 < s < w -> RotL w v s = Ok (Z.lor (wshl w v s) (wshr v (w - s))).
Proof.
  intros. unfold RotL, safe. destruct (Z.ltb_spec s w); [|lia]. destruct (Z.ltb_spec 0 s); [|lia]. reflexivity.
Qed.
Lemma RotR_is_RotL w v s : 0 < s < w -> RotR w v s = RotL w v (w - s).
Proof.
  intros. unfold RotL, RotR, safe.
  destruct (Z.ltb_spec s w); [|lia]. destruct (Z.ltb_spec 0 s); [|lia].
  destruct (Z.ltb_spec (w - s) w); [|lia]. destruct (Z.ltb_spec 0 (w - s)); [|lia]. cbn [andb bind].
  f_equal. rewrite Z.lor_comm. do 2 f_equal. ring.
Qed.

(** ** hex *)
Lemma unhex_hex d : 0 <= d < 16 -> unhexdigit (hexdigit d) = Some d.
Proof.
  intros. assert (C : In d [0;1;2;3;4;5;6;7;8;9;10;11;12;13;14;15]) by (cbn; lia).
  cbn in C. repeat (destruct C as [<-|C]; [reflexivity|]). tauto.
Qed.

Definition hex_of (l : list Z) : list Z := flat_map (fun b => [hexdigit (b / 16); hexdigit (b mod 16)]) l.

Lemma ToHex_correct inp o len : (o + len <= length inp)%nat -> ToHex inp o len = Ok (hex_of (slice inp o len)).
Proof.
  intros H. unfold ToHex.
  destruct (for_up_inv (fun i s => s = hex_of (slice inp o i))
    (fun i s => b <- get inp (o + i) ;; Ok (s ++ [hexdigit (b / 16); hexdigit (b mod 16)])) 0 len []) as (r & E & R).
  - reflexivity.
  - intros j s Hj ->. rewrite (get_ok _ _ 0) by lia. cbn [bind]. eexists; split; [reflexivity|].
    replace (S j) with (j + 1)%nat by lia. rewrite slice_app, (slice_cons 0 inp (o + j)) by lia.
    unfold hex_of. rewrite flat_map_app. f_equal. 
  - rewrite E, R. reflexivity.
Qed.

Lemma length_hex_of l : length (hex_of l) = (2 * length l)%nat.
Proof. induction l; [reflexivity|]. unfold hex_of in *. cbn [flat_map app length]. rewrite IHl. lia. Qed.

Lemma from_hex_correct l : bytes l -> forall pre otp i, i = length pre ->
  from_hex_loop (length l) (pre ++ hex_of l) i otp = Ok (otp ++ l).
Proof.
  induction l as [|b l IH]; intros Hb pre otp i ->.
  - cbn. now rewrite app_nil_r.
  - inversion Hb as [|? ? B Hb']; subst. red in B. cbn [from_hex_loop length].
    destruct (Nat.ltb_spec (length (pre ++ hex_of (b :: l))) (length pre)); [rewrite app_length in *; lia|].
    unfold hex_of; cbn [flat_map app]. fold (hex_of l).
    replace (slice (pre ++ hexdigit (b / 16) :: hexdigit (b mod 16) :: hex_of l) (length pre) 2)
      with [hexdigit (b / 16); hexdigit (b mod 16)].
    2:{ unfold slice. rewrite skipn_app, skipn_all, Nat.sub_diag. reflexivity. }
    cbn [strtol16]. rewrite !unhex_hex by lia.
    replace (u8 ((0 * 16 + b / 16) * 16 + b mod 16)) with b by (unfold u8; lia).
    replace (pre ++ hexdigit (b / 16) :: hexdigit (b mod 16) :: hex_of l)
      with ((pre ++ [hexdigit (b / 16); hexdigit (b mod 16)]) ++ hex_of l) by (rewrite <- app_assoc; reflexivity).
    rewrite IH by (auto; len). rewrite <- app_assoc. reflexivity.
Qed.

Lemma hex_round_trip inp : bytes inp ->
  (s <- ToHex inp 0 (length inp) ;; FromHex s (length s)) = Ok inp.
Proof.
  intros Hb. rewrite ToHex_correct by lia. cbn [bind]. rewrite slice_all by reflexivity.
  unfold FromHex. rewrite length_hex_of.
  replace ((2 * length inp + 1) / 2)%nat with (length inp).
  2:{ rewrite Nat.mul_comm, Nat.div_add_l by lia. cbn. lia. }
  exact (from_hex_correct inp Hb [] [] 0%nat eq_refl).
Qed.
