(** Glue: the property statements of Properties_IntegerTools from the lemmas. *)
From Verif Require Import BaseLemmas Spec_Common Model_IntegerTools Proofs_Common
  Proofs_IntegerTools Proofs_IntegerTools2.
Open Scope Z_scope.

Lemma slice_written out o d n : (o + n <= length out)%nat -> length d = n ->
  written out (splice out o d) o (slice (splice out o d) o n) /\ slice (splice out o d) o n = d.
Proof.
  intros H L. assert (E : slice (splice out o d) o n = d) by (subst n; apply slice_splice_same; lia).
  rewrite E. split; [apply splice_written; lia|reflexivity].
Qed.

Ltac glue_be n v :=
  match goal with |- context[splice ?out ?o ?d] =>
    destruct (slice_written out o d n ltac:(lia) ltac:(apply length_be_bytes)) as [W S] end.

Lemma c01_be16 v out o : 0 <= v < 2 ^ 16 -> (o + 2 <= length out)%nat -> bytes out ->
  exists out', Be16ToBytes v out o = Ok out' /\ written out out' o (slice out' o 2) /\
    BeBytesTo16 out' o = Ok v /\ value_be (slice out' o 2) = v.
Proof.
  intros Hv Ho Hb. rewrite Be16ToBytes_correct by auto. eexists; split; [reflexivity|].
  destruct (slice_written out o (be_bytes 2 v) 2 Ho ltac:(apply length_be_bytes)) as [W S].
  split; [exact W|]. rewrite BeBytesTo16_correct by (try apply bytes_splice; auto using bytes_be_bytes; len).
  rewrite value_be_eq, S, be_val_be_bytes. rewrite Z.mod_small by (cbn; lia). auto.
Qed.
Lemma c01_be32 v out o : 0 <= v < 2 ^ 32 -> (o + 4 <= length out)%nat -> bytes out ->
  exists out', Be32ToBytes v out o = Ok out' /\ written out out' o (slice out' o 4) /\
    BeBytesTo32 out' o = Ok v /\ value_be (slice out' o 4) = v.
Proof.
  intros Hv Ho Hb. rewrite Be32ToBytes_correct by auto. eexists; split; [reflexivity|].
  destruct (slice_written out o (be_bytes 4 v) 4 Ho ltac:(apply length_be_bytes)) as [W S].
  split; [exact W|]. rewrite BeBytesTo32_correct by (try apply bytes_splice; auto using bytes_be_bytes; len).
  rewrite value_be_eq, S, be_val_be_bytes. rewrite Z.mod_small by (cbn; lia). auto.
Qed.
Lemma c01_be64 v out o : 0 <= v < 2 ^ 64 -> (o + 8 <= length out)%nat -> bytes out ->
  exists out', Be64ToBytes v out o = Ok out' /\ written out out' o (slice out' o 8) /\
    BeBytesTo64 out' o = Ok v /\ value_be (slice out' o 8) = v.
Proof.
  intros Hv Ho Hb. rewrite Be64ToBytes_correct by auto. eexists; split; [reflexivity|].
  destruct (slice_written out o (be_bytes 8 v) 8 Ho ltac:(apply length_be_bytes)) as [W S].
  split; [exact W|]. rewrite BeBytesTo64_correct by (try apply bytes_splice; auto using bytes_be_bytes; len).
  rewrite value_be_eq, S, be_val_be_bytes. rewrite Z.mod_small by (cbn; lia). auto.
Qed.
Lemma c01_le n v out o : 0 <= v < 256 ^ Z.of_nat n -> (o + n <= length out)%nat ->
  exists out', LeToBytes n v out o = Ok out' /\ written out out' o (slice out' o n) /\
    LeBytesTo n out' o = Ok v /\ value_le (slice out' o n) = v.
Proof.
  intros Hv Ho. rewrite LeToBytes_correct by auto. eexists; split; [reflexivity|].
  destruct (slice_written out o (le_bytes n v) n Ho ltac:(apply length_le_bytes)) as [W S].
  split; [exact W|]. rewrite LeBytesTo_correct by len.
  rewrite value_le_eq, S, le_val_le_bytes. rewrite Z.mod_small by lia. auto.
Qed.
Lemma c01_be_read inp o : bytes inp ->
  ((o + 2 <= length inp)%nat -> BeBytesTo16 inp o = Ok (value_be (slice inp o 2))) /\
  ((o + 4 <= length inp)%nat -> BeBytesTo32 inp o = Ok (value_be (slice inp o 4))) /\
  ((o + 8 <= length inp)%nat -> BeBytesTo64 inp o = Ok (value_be (slice inp o 8))).
Proof.
  intros Hb. rewrite !value_be_eq. split; [|split]; intros.
  - now apply BeBytesTo16_correct.
  - now apply BeBytesTo32_correct.
  - now apply BeBytesTo64_correct.
Qed.
Lemma c01_le_read_length inp o len : bytes inp -> (0 < len <= 8)%nat -> (o + len <= length inp)%nat ->
  LeBytesToLen 64 inp o len = Ok (value_le (slice inp o len)).
Proof. intros. rewrite value_le_eq. apply LeBytesToLen_correct; auto; lia. Qed.

Lemma c02_be out : bytes out -> out <> [] ->
  exists r, BeIncrement8 out = Ok r /\ bytes r /\ length r = length out /\
    value_be r = (value_be out + 1) mod 256 ^ Z.of_nat (length out).
Proof.
  intros. rewrite BeIncrement8_correct by auto. eexists; split; [reflexivity|].
  split; [apply bytes_be_bytes|]. split; [apply length_be_bytes|]. rewrite !value_be_eq. apply be_val_be_bytes.
Qed.
Lemma c02_be_range out o len : bytes out -> (0 < len)%nat -> (o + len <= length out)%nat ->
  exists r, BeIncrement8_range out o len = Ok r /\ bytes r /\ written out r o (slice r o len) /\
    value_be (slice r o len) = (value_be (slice out o len) + 1) mod 256 ^ Z.of_nat len.
Proof.
  intros Hb Hl Ho. rewrite BeIncrement8_range_correct by auto. eexists; split; [reflexivity|].
  split; [apply bytes_splice; auto using bytes_be_bytes|].
  destruct (slice_written out o (be_bytes len (be_val (slice out o len) + 1)) len Ho ltac:(apply length_be_bytes)) as [W S].
  split; [exact W|]. rewrite !value_be_eq, S. apply be_val_be_bytes.
Qed.
Lemma c02_le out len : bytes out -> (len <= length out)%nat ->
  exists r, LeIncrement_len out len = Ok r /\ bytes r /\ written out r 0 (slice r 0 len) /\
    value_le (slice r 0 len) = (value_le (slice out 0 len) + 1) mod 256 ^ Z.of_nat len.
Proof.
  intros Hb Hl. rewrite LeIncrement_len_correct by auto. eexists; split; [reflexivity|].
  split; [apply bytes_splice; auto using bytes_le_bytes|].
  destruct (slice_written out 0 (le_bytes len (le_val (slice out 0 len) + 1)) len Hl ltac:(apply length_le_bytes)) as [W S].
  split; [exact W|]. rewrite !value_le_eq, S. apply le_val_le_bytes.
Qed.

Lemma c03_be tsize inp out v : bytes inp -> inp <> [] -> length out = length inp ->
  let n := length inp in let d := v mod 256 ^ Z.of_nat tsize in
  exists r, BeIncrease8 tsize inp out v = Ok r /\ bytes r /\ length r = n /\
    (value_be r = (value_be inp + d) mod 256 ^ Z.of_nat n <->
     ~ exists j : nat, (S j < n)%nat /\ (d / 256 ^ Z.of_nat j) mod 256 = 255 /\
         256 ^ Z.of_nat j <= value_be inp mod 256 ^ Z.of_nat j + d mod 256 ^ Z.of_nat j).
Proof.
  intros Hb Hn Hl n d. destruct (BeIncrease8_spec tsize inp out v Hb Hn Hl) as (r & E & B & L & I).
  exists r. rewrite !value_be_eq. auto.
Qed.
Lemma c03_le tsize inp out v : bytes inp -> inp <> [] -> length out = length inp ->
  let n := length inp in let d := v mod 256 ^ Z.of_nat tsize in
  exists r, LeIncrease8 tsize inp out v = Ok r /\ bytes r /\ length r = n /\
    (value_le r = (value_le inp + d) mod 256 ^ Z.of_nat n <->
     ~ exists j : nat, (S j < n)%nat /\ (d / 256 ^ Z.of_nat j) mod 256 = 255 /\
         256 ^ Z.of_nat j <= value_le inp mod 256 ^ Z.of_nat j + d mod 256 ^ Z.of_nat j).
Proof.
  intros Hb Hn Hl n d. destruct (LeIncrease8_spec tsize inp out v Hb Hn Hl) as (r & E & B & L & I).
  exists r. rewrite !value_le_eq. auto.
Qed.
Lemma c03_be_refuted : exists inp out v r, bytes inp /\ length out = length inp /\ 0 <= v < 2 ^ 32 /\
  BeIncrease8 4 inp out v = Ok r /\
  value_be r <> (value_be inp + v) mod 256 ^ Z.of_nat (length inp).
Proof.
  exists [0; 0; 1], [0; 0; 0], 65535, [0; 0; 0]. split; [solve_bytes|].
  split; [reflexivity|]. split; [lia|]. split; [reflexivity|]. vm_compute. discriminate.
Qed.
Lemma c03_le_refuted : exists inp out v r, bytes inp /\ length out = length inp /\ 0 <= v < 2 ^ 32 /\
  LeIncrease8 4 inp out v = Ok r /\
  value_le r <> (value_le inp + v) mod 256 ^ Z.of_nat (length inp).
Proof.
  exists [1; 0; 0], [0; 0; 0], 65535, [0; 0; 0]. split; [solve_bytes|].
  split; [reflexivity|]. split; [lia|]. split; [reflexivity|]. vm_compute. discriminate.
Qed.

Lemma slice_eq_iff (a b : list Z) ao bo len : (ao + len <= length a)%nat -> (bo + len <= length b)%nat ->
  (slice a ao len = slice b bo len <-> forall i, (i < len)%nat -> nth (ao + i) a 0 = nth (bo + i) b 0).
Proof.
  intros Ha Hb. split.
  - intros E i Hi. rewrite <- (nth_slice a ao len), <- (nth_slice b bo len) by lia. now rewrite E.
  - intros H. apply (list_ext 0); [len|]. intros i Hi. len_in Hi. rewrite !nth_slice by lia. auto.
Qed.
Lemma c04_compare a ao b bo len : (ao + len <= length a)%nat -> (bo + len <= length b)%nat ->
  bytes a -> bytes b ->
  exists r, Compare a ao b bo len = Ok r /\
    (r = true <-> forall i, (i < len)%nat -> nth (ao + i) a 0 = nth (bo + i) b 0).
Proof.
  intros. destruct (Compare_correct a ao b bo len) as (r & E & I); auto.
  exists r. split; auto. rewrite I. now apply slice_eq_iff.
Qed.
Lemma c04_verify a ao b bo len : (ao + len <= length a)%nat -> (bo + len <= length b)%nat ->
  bytes a -> bytes b ->
  exists r, Verify a ao b bo len = Ok r /\
    (r = 0 <-> forall i, (i < len)%nat -> nth (ao + i) a 0 = nth (bo + i) b 0).
Proof.
  intros. destruct (Verify_correct a ao b bo len) as (r & E & _ & I); auto.
  exists r. split; auto. rewrite I. now apply slice_eq_iff.
Qed.
Lemma c05_rot_zero w v : RotL w v 0 = UB /\ RotL w v w = UB.
Proof. unfold RotL, safe. rewrite Z.ltb_irrefl, andb_false_r. rewrite Z.ltb_irrefl. auto. Qed.

Lemma c47_predicates k x y : 0 <= x < 2 ^ (2 ^ Z.of_nat k) -> 0 <= y < 2 ^ (2 ^ Z.of_nat k) ->
  let yes := 2 ^ (2 ^ Z.of_nat k) - 1 in
  (IsZero k x = if x =? 0 then yes else 0) /\
  (IsEqual k x y = if x =? y then yes else 0) /\
  (IsLess k x y = if x <? y then yes else 0) /\
  (IsLte k x y = if x <=? y then yes else 0).
Proof. intros. split; [|split; [|split]]; [apply IsZero_correct|apply IsEqual_correct|apply IsLess_correct|apply IsLte_correct]; auto. Qed.
Lemma c47_cmov inp io out oo len cond : (io + len <= length inp)%nat -> (oo + len <= length out)%nat ->
  bytes inp -> bytes out -> cond = 0 \/ cond = 1 ->
  exists r, CMov inp io out oo len cond = Ok r /\
    (cond = 1 -> written out r oo (slice inp io len)) /\ (cond = 0 -> r = out).
Proof.
  intros. rewrite CMov_correct by auto. eexists; split; [reflexivity|]. split; intros ->; cbn [Z.eqb Pos.eqb].
  - apply splice_written. len.
  - reflexivity.
Qed.
Lemma c47_cmax : exists a b, 0 <= a < 2 ^ 32 /\ 0 <= b < 2 ^ 32 /\ CMax 5 a b <> Z.max a b.
Proof. exists 2, 1. split; [lia|]. split; [lia|]. vm_compute. discriminate. Qed.
Lemma c47_cmin : exists a b, 0 <= a < 2 ^ 32 /\ 0 <= b < 2 ^ 32 /\ CMin 5 a b <> Z.min a b.
Proof. exists 2, 1. split; [lia|]. split; [lia|]. vm_compute. discriminate. Qed.
Lemma c47_diffmask16 : exists a b, Forall (is_word 16) a /\ Forall (is_word 16) b /\
  length a = length b /\ a <> b /\ DiffMask a b (length a) = Ok 0.
Proof.
  exists [0x101], [0]. repeat split; try (solve_bytes). discriminate.
Qed.
Lemma c48_shiftleft inp out : bytes inp -> inp <> [] -> length out = length inp ->
  exists r c, ShiftLeft inp out = Ok (r, c) /\ 0 <= c <= 1 /\ length r = length inp /\ bytes r /\
    c * 256 ^ Z.of_nat (length inp) + value_be r = 2 * value_be inp.
Proof.
  intros. destruct (ShiftLeft_correct inp out) as (r & c & Q); auto. exists r, c. rewrite !value_be_eq. exact Q.
Qed.

Lemma xbits_sum v m : forall n : Z, Z.b2z (xbits v n m) =
  (sum_upto m (fun i => Z.b2z (Z.testbit v (n + Z.of_nat i)))) mod 2.
Proof.
  induction m as [|m IH]; intros n; [reflexivity|].
  cbn [xbits]. rewrite sum_upto_S. change (Z.of_nat 0) with 0. rewrite Z.add_0_r.
  rewrite <- Z.add_mod_idemp_r by lia.
  rewrite (sum_upto_ext m _ (fun i => Z.b2z (Z.testbit v (n + 1 + Z.of_nat i)))).
  - rewrite <- IH. destruct (Z.testbit v n), (xbits v (n + 1) m); reflexivity.
  - intros i _. do 2 f_equal. lia.
Qed.
Lemma c48_parity v : 0 <= v < 2 ^ 64 ->
  Parity v = (sum_upto 64 (fun i => Z.b2z (Z.testbit v (Z.of_nat i)))) mod 2.
Proof. intros _. rewrite Parity_xbits, xbits_sum. reflexivity. Qed.
