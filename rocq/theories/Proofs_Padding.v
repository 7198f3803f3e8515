From Verif Require Import BaseLemmas Spec_Common Proofs_Common Model_IntegerTools Model_Padding
  Proofs_IntegerTools Proofs_IntegerTools2.
Open Scope Z_scope.

Lemma mask8_val b : mask8 b = if b then 255 else 0.
Proof. destruct b; reflexivity. Qed.
Lemma mask64_val b : mask64 b = if b then 2 ^ 64 - 1 else 0.
Proof. destruct b; reflexivity. Qed.
Lemma IsEqual8 a b : is_byte a -> is_byte b -> IsEqual 3 a b = if a =? b then 255 else 0.
Proof. intros Ha Hb. exact (IsEqual_correct 3 a b Ha Hb). Qed.
Lemma IsZero8 a : is_byte a -> IsZero 3 a = if a =? 0 then 255 else 0.
Proof. intros Ha. exact (IsZero_correct 3 a Ha). Qed.
Lemma CondCopy64 c a b : 0 <= c < 2 ^ 64 -> 0 <= a < 2 ^ 64 -> 0 <= b < 2 ^ 64 ->
  ConditionalCopy1 6 c a b = if c =? 0 then b else a.
Proof. intros. exact (ConditionalCopy1_correct 6 a b c H0 H1 H). Qed.

Lemma fill_ok l a n f : (a + n <= length l)%nat -> fill l a n f = Ok (splice l a (map f (seq a n))).
Proof.
  intros H. unfold fill.
  destruct (for_up_inv (fun i s => s = splice l a (map f (seq a (i - a)))) (fun i l => put l i (f i)) a n l)
    as (r & E & R).
  - rewrite Nat.sub_diag. cbn. now rewrite splice_nil.
  - intros j s Hj ->. rewrite put_ok.
    2:{ rewrite length_splice; rewrite ?map_length, ?seq_length; lia. }
    eexists; split; [reflexivity|].
    replace (S j - a)%nat with (j - a + 1)%nat by lia.
    rewrite seq_app, map_app. cbn [seq map].
    replace (a + (j - a))%nat with j by lia.
    pose proof (splice_splice_next l a (map f (seq a (j - a))) [f j]) as SS.
    rewrite map_length, seq_length in SS. cbn [length] in SS. rewrite <- SS by lia.
    replace (a + (j - a))%nat with j by lia. apply upd_as_splice.
    rewrite length_splice; rewrite ?map_length, ?seq_length; lia.
  - rewrite E, R. do 3 f_equal. f_equal. lia.
Qed.

Lemma lor_zero_iff a b : Z.lor a b = 0 <-> a = 0 /\ b = 0.
Proof. apply Z.lor_eq_0_iff. Qed.

Lemma pk_loop_spec chk ok inp o pos :
  bytes inp -> (forall b, is_byte b -> Z.land (chk b) 255 = if (ok b : bool) then 0 else 255) ->
  forall n acc, (o + n < length inp)%nat -> 0 <= acc < 2 ^ 64 ->
  exists r, pk_loop chk n inp o pos acc = Ok r /\ 0 <= r < 2 ^ 64 /\
    (r = 0 <-> acc = 0 /\ forall i, (o < i <= o + n)%nat -> pos <= sz i -> ok (nth i inp 0) = true).
Proof.
  intros Hb Hchk. induction n as [|n IH]; intros acc Hn Hacc.
  - exists acc. cbn [pk_loop]. split; [reflexivity|]. split; [exact Hacc|]. split; [|tauto].
    intros ->. split; [reflexivity|]. intros i Hi. lia.
  - cbn [pk_loop]. rewrite (get_ok _ _ 0) by lia. cbn [bind].
    pose proof (bytes_nth inp (o + S n) Hb) as B. rewrite mask8_val.
    set (t := Z.land (chk (nth (o + S n) inp 0)) (if pos <=? sz (o + S n) then 255 else 0)).
    assert (T : t = if pos <=? sz (o + S n) then (if ok (nth (o + S n) inp 0) then 0 else 255) else 0).
    { unfold t. destruct (pos <=? sz (o + S n)); [now apply Hchk|apply Z.land_0_r]. }
    assert (RT : 0 <= t < 2 ^ 64).
    { rewrite T. destruct (pos <=? sz (o + S n)); [destruct (ok _)|]; lia. }
    destruct (IH (Z.lor acc t)) as (r & E & R & I); [lia|apply lor_range; lia|].
    exists r. split; [exact E|]. split; [exact R|]. rewrite I, lor_zero_iff. split.
    + intros [[-> Ht] F]. split; [reflexivity|]. intros i Hi Hp.
      destruct (Nat.eq_dec i (o + S n)) as [->|]; [|apply F; lia].
      rewrite T in Ht. destruct (Z.leb_spec pos (sz (o + S n))); [|lia]. destruct (ok _); [reflexivity|lia].
    + intros [-> F]. split; [split; [reflexivity|]|].
      * rewrite T. destruct (Z.leb_spec pos (sz (o + S n))); [|reflexivity]. rewrite F by lia. reflexivity.
      * intros i Hi. apply F. lia.
Qed.

(** last byte [p], block [n]: where the padding would start *)
Lemma pos_val len p : is_byte p -> sz len < 2 ^ 64 -> p <= sz len -> u64 (sz len - p) = sz len - p.
Proof. intros Hp Hl H. unfold u64, sz, is_byte in *. apply Z.mod_small. lia. Qed.

Lemma pk_generic chk ok inp o len :
  bytes inp -> (forall b, is_byte b -> Z.land (chk b) 255 = if (ok b : bool) then 0 else 255) ->
  (o + 2 <= len)%nat -> (len <= length inp)%nat -> sz len < 2 ^ 64 ->
  let p := nth (len - 1) inp 0 in
  exists r, (bad <- pk_loop chk (len - 2 - o) inp o (u64 (sz len - p)) (mask64 (sz len <? p)) ;;
             Ok (ConditionalCopy1 6 bad (sz len) (u64 (sz len - p)))) = Ok r /\
    (p <= sz len /\ (forall i, (o < i < len - 1)%nat -> sz len - p <= sz i -> ok (nth i inp 0) = true) ->
       r = sz len - p) /\
    (~ (p <= sz len /\ (forall i, (o < i < len - 1)%nat -> sz len - p <= sz i -> ok (nth i inp 0) = true)) ->
       r = sz len).
Proof.
  intros Hb Hchk Ho Hlen Hsz p. pose proof (bytes_nth inp (len - 1) Hb) as Bp. fold p in Bp. 
  pose proof Bp as Bp'. red in Bp'.
  assert (R0 : 0 <= mask64 (sz len <? p) < 2 ^ 64) by (rewrite mask64_val; destruct (sz len <? p); lia).
  destruct (pk_loop_spec chk ok inp o (u64 (sz len - p)) Hb Hchk (len - 2 - o) (mask64 (sz len <? p)) ltac:(lia) R0)
    as (r & E & R & I).
  rewrite E. cbn [bind]. eexists; split; [reflexivity|].
  assert (Rp : 0 <= u64 (sz len - p) < 2 ^ 64) by (apply Z.mod_pos_bound; lia).
  assert (Rl : 0 <= sz len < 2 ^ 64) by (unfold sz in *; lia).
  rewrite CondCopy64 by assumption.
  assert (M : mask64 (sz len <? p) = 0 <-> p <= sz len).
  { rewrite mask64_val. destruct (Z.ltb_spec (sz len) p); lia. }
  split.
  - intros [H1 H2]. replace (r =? 0) with true.
    + now apply pos_val.
    + symmetry. apply Z.eqb_eq, I. split; [tauto|]. intros i Hi Hp. apply H2; [lia|].
      rewrite pos_val in Hp by assumption. exact Hp.
  - intros N. destruct (Z.eqb_spec r 0) as [E0|]; [exfalso|reflexivity].
    apply I in E0. destruct E0 as [H1 H2]. apply N. split; [tauto|]. intros i Hi Hp. apply H2; [lia|].
    rewrite pos_val by tauto. exact Hp.
Qed.

Definition pkcs7_valid (inp : list Z) (o len : nat) : Prop :=
  let p := nth (len - 1) inp 0 in
  p <= sz len /\ forall i, (o < i < len - 1)%nat -> sz len - p <= sz i -> nth i inp 0 = p.
Definition x923_valid (inp : list Z) (o len : nat) : Prop :=
  let p := nth (len - 1) inp 0 in
  p <= sz len /\ forall i, (o < i < len - 1)%nat -> sz len - p <= sz i -> nth i inp 0 = 0.

Lemma PKCS7_spec inp o len : bytes inp -> (o + 2 <= len)%nat -> (len <= length inp)%nat -> sz len < 2 ^ 64 ->
  exists r, PKCS7_GetBlockLength_range inp o len = Ok r /\
    (pkcs7_valid inp o len -> r = sz len - nth (len - 1) inp 0) /\
    (~ pkcs7_valid inp o len -> r = sz len).
Proof.
  intros Hb Ho Hl Hsz. unfold PKCS7_GetBlockLength_range, guard, safe.
  destruct (Nat.leb_spec len (length inp)); [|lia]. cbn [bind].
  destruct (Nat.leb_spec 1 len); [|lia]. cbn [bind].
  rewrite (get_ok _ _ 0) by lia. cbn [bind].
  destruct (Nat.leb_spec (o + 2) len); [|lia]. cbn [bind].
  pose proof (bytes_nth inp (len - 1) Hb) as Bp.
  destruct (pk_generic (fun b => Z.lnot (IsEqual 3 b (nth (len - 1) inp 0))) (fun b => b =? nth (len - 1) inp 0)
    inp o len Hb) as (r & E & V & N); auto.
  { intros b Bb. rewrite IsEqual8 by assumption. destruct (b =? nth (len - 1) inp 0); reflexivity. }
  exists r. split; [exact E|]. unfold pkcs7_valid. split.
  - intros [H1' H2']. apply V. split; [exact H1'|]. intros i Hi Hp. apply Z.eqb_eq. auto.
  - intros NV. apply N. intros [H1' H2']. apply NV. split; [exact H1'|]. intros i Hi Hp. apply Z.eqb_eq. auto.
Qed.
Lemma X923_spec inp o len : bytes inp -> (o + 2 <= len)%nat -> (len <= length inp)%nat -> sz len < 2 ^ 64 ->
  exists r, X923_GetBlockLength_range inp o len = Ok r /\
    (x923_valid inp o len -> r = sz len - nth (len - 1) inp 0) /\
    (~ x923_valid inp o len -> r = sz len).
Proof.
  intros Hb Ho Hl Hsz. unfold X923_GetBlockLength_range, guard, safe.
  destruct (Nat.leb_spec len (length inp)); [|lia]. cbn [bind].
  destruct (Nat.leb_spec 1 len); [|lia]. cbn [bind].
  rewrite (get_ok _ _ 0) by lia. cbn [bind].
  destruct (Nat.leb_spec (o + 2) len); [|lia]. cbn [bind].
  destruct (pk_generic (fun b => Z.lnot (IsZero 3 b)) (fun b => b =? 0) inp o len Hb) as (r & E & V & N); auto.
  { intros b Bb. rewrite IsZero8 by assumption. destruct (b =? 0); reflexivity. }
  exists r. split; [exact E|]. unfold x923_valid. split.
  - intros [H1' H2']. apply V. split; [exact H1'|]. intros i Hi Hp. apply Z.eqb_eq. auto.
  - intros NV. apply N. intros [H1' H2']. apply NV. split; [exact H1'|]. intros i Hi Hp. apply Z.eqb_eq. auto.
Qed.

(** add padding *)
Lemma nth_map_seq f a n i : (i < n)%nat -> nth i (map f (seq a n)) 0 = f (a + i)%nat.
Proof.
  intros. rewrite (nth_indep _ 0 (f 0%nat)) by (rewrite map_length, seq_length; lia).
  rewrite map_nth, seq_nth by lia. reflexivity.
Qed.
Lemma bytes_map_seq f a n : (forall i, is_byte (f i)) -> bytes (map f (seq a n)).
Proof. intros H. apply Forall_forall. intros x Hx. apply in_map_iff in Hx. destruct Hx as (i & <- & _). apply H. Qed.

Lemma u8_byte x : is_byte (u8 x). Proof. unfold u8, is_byte. apply Z.mod_pos_bound. lia. Qed.
Lemma u8_small x : 0 <= x < 256 -> u8 x = x. Proof. intros. apply Z.mod_small. exact H. Qed.

Lemma PKCS7_add inp o len : (o <= len)%nat -> (len <= length inp)%nat ->
  PKCS7_AddPadding inp o len = Ok (splice inp o (map (fun _ => u8 (sz len - sz o)) (seq o (len - o)))).
Proof.
  intros Ho Hl. unfold PKCS7_AddPadding, guard. destruct (Nat.leb_spec len (length inp)); [|lia]. cbn [bind].
  apply fill_ok. lia.
Qed.

Lemma X923_add inp o len : (o < len)%nat -> (len <= length inp)%nat ->
  X923_AddPadding inp o len =
  Ok (splice inp o (map (fun i => if (i =? len - 1)%nat then u8 (sz len - sz o) else 0) (seq o (len - o)))).
Proof.
  intros Ho Hl. unfold X923_AddPadding, guard, safe. destruct (Nat.leb_spec len (length inp)); [|lia]. cbn [bind].
  destruct (Nat.leb_spec 1 len); [|lia]. cbn [bind].
  rewrite fill_ok by lia. cbn [bind].
  rewrite put_ok by (rewrite length_splice; rewrite ?map_length, ?seq_length; lia). f_equal.
  replace (len - o)%nat with (len - 1 - o + 1)%nat by lia.
  rewrite seq_app, map_app. cbn [seq map].
  replace (o + (len - 1 - o))%nat with (len - 1)%nat by lia. rewrite Nat.eqb_refl.
  replace (map (fun i => if (i =? len - 1)%nat then u8 (sz len - sz o) else 0) (seq o (len - 1 - o)))
    with (map (fun _ : nat => 0) (seq o (len - 1 - o))).
  2:{ apply map_ext_in. intros i Hi. apply in_seq in Hi. destruct (Nat.eqb_spec i (len - 1)); [lia|reflexivity]. }
  pose proof (splice_splice_next inp o (map (fun _ : nat => 0) (seq o (len - 1 - o))) [u8 (sz len - sz o)]) as SS.
  rewrite map_length, seq_length in SS. cbn [length] in SS. rewrite <- SS by lia.
  replace (o + (len - 1 - o))%nat with (len - 1)%nat by lia.
  apply upd_as_splice. rewrite length_splice; rewrite ?map_length, ?seq_length; lia.
Qed.

Lemma ESP_add inp o len : (o <= len)%nat -> (len <= length inp)%nat ->
  ESP_AddPadding inp o len = Ok (splice inp o (map (fun i => u8 (sz i - sz o + 1)) (seq o (len - o)))).
Proof.
  intros Ho Hl. unfold ESP_AddPadding, guard. destruct (Nat.leb_spec len (length inp)); [|lia]. cbn [bind].
  apply fill_ok. lia.
Qed.

(** nth of a padded array *)
Lemma nth_padded inp o len f i : (o <= len)%nat -> (len <= length inp)%nat ->
  nth i (splice inp o (map f (seq o (len - o)))) 0 =
  if ((o <=? i) && (i <? len))%nat then f i else nth i inp 0.
Proof.
  intros Ho Hl. rewrite nth_splice by (rewrite map_length, seq_length; lia).
  rewrite map_length, seq_length.
  destruct (Nat.ltb_spec i o); [destruct (Nat.leb_spec o i); [lia|reflexivity]|].
  destruct (Nat.leb_spec o i); [|lia]. cbn [andb].
  destruct (Nat.ltb_spec i (o + (len - o))), (Nat.ltb_spec i len); try lia.
  rewrite nth_map_seq by lia. f_equal. lia.
Qed.

Lemma PKCS7_round_trip inp o lo len : bytes inp -> (lo + 2 <= len)%nat -> (lo <= o < len)%nat -> (len - o <= 255)%nat ->
  (len <= length inp)%nat -> sz len < 2 ^ 64 ->
  exists out, PKCS7_AddPadding inp o len = Ok out /\ length out = length inp /\
    firstn o out = firstn o inp /\ skipn len out = skipn len inp /\
    PKCS7_GetBlockLength_range out lo len = Ok (sz o).
Proof.
  intros Hb Ho2 Ho H255 Hl Hsz. rewrite PKCS7_add by lia. eexists; split; [reflexivity|].
  set (f := fun _ : nat => u8 (sz len - sz o)). set (out := splice inp o (map f (seq o (len - o)))).
  assert (LD : length (map f (seq o (len - o))) = (len - o)%nat) by (rewrite map_length, seq_length; lia).
  assert (Lout : length out = length inp) by (unfold out; rewrite length_splice; lia).
  split; [exact Lout|].
  split.
  { unfold out, splice. rewrite firstn_app, firstn_firstn, Nat.min_id, firstn_length, Nat.min_l by lia.
    rewrite Nat.sub_diag. cbn [firstn]. apply app_nil_r. }
  split.
  { unfold out, splice. rewrite LD, app_assoc, skipn_app, app_length, firstn_length, Nat.min_l, LD by lia.
    rewrite skipn_all2 by (rewrite app_length, firstn_length, LD; lia).
    replace (len - (o + (len - o)))%nat with 0%nat by lia. cbn [app skipn]. f_equal. lia. }
  assert (Bout : bytes out) by (apply bytes_splice; [exact Hb|apply bytes_map_seq; intros; apply u8_byte]).
  destruct (PKCS7_spec out lo len Bout Ho2 ltac:(lia) Hsz) as (r & E & V & _).
  rewrite E. f_equal.
  assert (F : f 0%nat = sz len - sz o) by (unfold f; apply u8_small; unfold sz; lia).
  assert (P : forall i, (o <= i < len)%nat -> nth i out 0 = sz len - sz o).
  { intros i Hi. unfold out. rewrite nth_padded by lia.
    destruct (Nat.leb_spec o i); [|lia]. destruct (Nat.ltb_spec i len); [|lia]. exact F. }
  rewrite V.
  - rewrite P by lia. lia.
  - split; rewrite P by lia; unfold sz; [lia|]. intros i Hi Hp. rewrite P by lia. reflexivity.
Qed.

Lemma X923_round_trip inp o lo len : bytes inp -> (lo + 2 <= len)%nat -> (lo <= o < len)%nat -> (len - o <= 255)%nat ->
  (len <= length inp)%nat -> sz len < 2 ^ 64 ->
  exists out, X923_AddPadding inp o len = Ok out /\ length out = length inp /\
    firstn o out = firstn o inp /\ skipn len out = skipn len inp /\
    X923_GetBlockLength_range out lo len = Ok (sz o).
Proof.
  intros Hb Ho2 Ho H255 Hl Hsz. rewrite X923_add by lia. eexists; split; [reflexivity|].
  set (f := fun i : nat => if (i =? len - 1)%nat then u8 (sz len - sz o) else 0).
  set (out := splice inp o (map f (seq o (len - o)))).
  assert (LD : length (map f (seq o (len - o))) = (len - o)%nat) by (rewrite map_length, seq_length; lia).
  assert (Lout : length out = length inp) by (unfold out; rewrite length_splice; lia).
  split; [exact Lout|].
  split.
  { unfold out, splice. rewrite firstn_app, firstn_firstn, Nat.min_id, firstn_length, Nat.min_l by lia.
    rewrite Nat.sub_diag. cbn [firstn]. apply app_nil_r. }
  split.
  { unfold out, splice. rewrite LD, app_assoc, skipn_app, app_length, firstn_length, Nat.min_l, LD by lia.
    rewrite skipn_all2 by (rewrite app_length, firstn_length, LD; lia).
    replace (len - (o + (len - o)))%nat with 0%nat by lia. cbn [app skipn]. f_equal. lia. }
  assert (Bout : bytes out).
  { apply bytes_splice; [exact Hb|apply bytes_map_seq]. intros i. unfold f.
    destruct (i =? len - 1)%nat; [apply u8_byte|red; lia]. }
  destruct (X923_spec out lo len Bout Ho2 ltac:(lia) Hsz) as (r & E & V & _).
  rewrite E. f_equal.
  assert (P : nth (len - 1) out 0 = sz len - sz o).
  { unfold out. rewrite nth_padded by lia.
    destruct (Nat.leb_spec o (len - 1)); [|lia]. destruct (Nat.ltb_spec (len - 1) len); [|lia].
    cbn [andb]. unfold f. rewrite Nat.eqb_refl. apply u8_small. unfold sz. lia. }
  rewrite V.
  - rewrite P. lia.
  - split; rewrite P; [unfold sz; lia|]. intros i Hi Hp. unfold out. rewrite nth_padded by lia.
    unfold sz in Hp. destruct (Nat.leb_spec o i); [|lia]. destruct (Nat.ltb_spec i len); [|lia].
    cbn [andb]. unfold f. destruct (Nat.eqb_spec i (len - 1)); [lia|reflexivity].
Qed.

(** ** ESP *)
Definition esp_valid (inp : list Z) (o len : nat) : Prop :=
  let p := nth (len - 1) inp 0 in
  p <= sz len /\ forall i, (o < i <= len - 1)%nat -> sz len - p < sz i -> nth (i - 1) inp 0 = (nth i inp 0 - 1) mod 256.

Lemma esp_loop_spec inp o pos : bytes inp ->
  forall n acc, (o + n < length inp)%nat -> 0 <= acc < 2 ^ 64 ->
  exists r, esp_loop n inp o pos acc = Ok r /\ 0 <= r < 2 ^ 64 /\
    (r = 0 <-> acc = 0 /\ forall i, (o < i <= o + n)%nat -> pos < sz i -> nth (i - 1) inp 0 = (nth i inp 0 - 1) mod 256).
Proof.
  intros Hb. induction n as [|n IH]; intros acc Hn Hacc.
  - exists acc. cbn [esp_loop]. split; [reflexivity|]. split; [exact Hacc|]. split; [|tauto].
    intros ->. split; [reflexivity|]. intros i Hi. lia.
  - cbn [esp_loop]. rewrite (get_ok _ (o + n) 0), (get_ok _ (o + S n) 0) by lia. cbn [bind].
    pose proof (bytes_nth inp (o + S n) Hb) as B. pose proof (bytes_nth inp (o + n) Hb) as B0. rewrite mask8_val.
    rewrite (u8_small (nth (o + n) inp 0)) by exact B0.
    rewrite IsEqual8 by (assumption || apply u8_byte).
    set (c := nth (o + n) inp 0 =? u8 (nth (o + S n) inp 0 - 1)).
    set (t := Z.land (Z.lnot (if c then 255 else 0)) (if pos <? sz (o + S n) then 255 else 0)).
    assert (T : t = if pos <? sz (o + S n) then (if c then 0 else 255) else 0).
    { unfold t. destruct (pos <? sz (o + S n)), c; reflexivity. }
    assert (RT : 0 <= t < 2 ^ 64) by (rewrite T; destruct (pos <? sz (o + S n)), c; lia).
    destruct (IH (Z.lor acc t)) as (r & E & R & I); [lia|apply lor_range; lia|].
    exists r. split; [exact E|]. split; [exact R|]. rewrite I, lor_zero_iff. split.
    + intros [[-> Ht] F]. split; [reflexivity|]. intros i Hi Hp.
      destruct (Nat.eq_dec i (o + S n)) as [->|]; [|apply F; lia].
      rewrite T in Ht. destruct (Z.ltb_spec pos (sz (o + S n))); [|lia]. destruct c eqn:C; [|lia].
      unfold c in C. apply Z.eqb_eq in C. replace (o + S n - 1)%nat with (o + n)%nat by lia. exact C.
    + intros [-> F]. split; [split; [reflexivity|]|].
      * rewrite T. destruct (Z.ltb_spec pos (sz (o + S n))); [|reflexivity].
        replace c with true; [reflexivity|]. symmetry. apply Z.eqb_eq. unfold u8.
        specialize (F (o + S n)%nat ltac:(lia) ltac:(lia)). replace (o + S n - 1)%nat with (o + n)%nat in F by lia. exact F.
      * intros i Hi. apply F. lia.
Qed.

Lemma ESP_spec inp o len : bytes inp -> (o + 1 <= len)%nat -> (len <= length inp)%nat -> sz len < 2 ^ 64 ->
  exists r, ESP_GetBlockLength_range inp o len = Ok r /\
    (esp_valid inp o len -> r = sz len - nth (len - 1) inp 0) /\
    (~ esp_valid inp o len -> r = sz len).
Proof.
  intros Hb Ho Hlen Hsz. unfold ESP_GetBlockLength_range, guard, safe.
  destruct (Nat.leb_spec len (length inp)); [|lia]. cbn [bind].
  destruct (Nat.leb_spec 1 len); [|lia]. cbn [bind].
  rewrite (get_ok _ _ 0) by lia. cbn [bind].
  destruct (Nat.leb_spec (o + 1) len); [|lia]. cbn [bind].
  set (p := nth (len - 1) inp 0).
  pose proof (bytes_nth inp (len - 1) Hb) as Bp. fold p in Bp. pose proof Bp as Bp'. red in Bp'.
  assert (R0 : 0 <= mask64 (sz len <? p) < 2 ^ 64) by (rewrite mask64_val; destruct (sz len <? p); lia).
  destruct (esp_loop_spec inp o (u64 (sz len - p)) Hb (len - 1 - o) (mask64 (sz len <? p)) ltac:(lia) R0)
    as (r & E & R & I).
  rewrite E. cbn [bind]. eexists; split; [reflexivity|].
  assert (Rp : 0 <= u64 (sz len - p) < 2 ^ 64) by (apply Z.mod_pos_bound; lia).
  assert (Rl : 0 <= sz len < 2 ^ 64) by (unfold sz in *; lia).
  rewrite CondCopy64 by assumption.
  assert (M : mask64 (sz len <? p) = 0 <-> p <= sz len).
  { rewrite mask64_val. destruct (Z.ltb_spec (sz len) p); lia. }
  unfold esp_valid. fold p. split.
  - intros [H1' H2']. replace (r =? 0) with true.
    + now apply pos_val.
    + symmetry. apply Z.eqb_eq, I. split; [tauto|]. intros i Hi Hp. apply H2'; [lia|].
      rewrite pos_val in Hp by assumption. exact Hp.
  - intros N. destruct (Z.eqb_spec r 0) as [E0|]; [exfalso|reflexivity].
    apply I in E0. destruct E0 as [H1' H2']. apply N. split; [tauto|]. intros i Hi Hp. apply H2'; [lia|].
    rewrite pos_val by tauto. exact Hp.
Qed.

Lemma ESP_round_trip inp o lo len : bytes inp -> (lo <= o < len)%nat -> (len - o <= 255)%nat ->
  (len <= length inp)%nat -> sz len < 2 ^ 64 ->
  exists out, ESP_AddPadding inp o len = Ok out /\ length out = length inp /\
    firstn o out = firstn o inp /\ skipn len out = skipn len inp /\
    ESP_GetBlockLength_range out lo len = Ok (sz o).
Proof.
  intros Hb Ho H255 Hl Hsz. rewrite ESP_add by lia. eexists; split; [reflexivity|].
  set (f := fun i : nat => u8 (sz i - sz o + 1)). set (out := splice inp o (map f (seq o (len - o)))).
  assert (LD : length (map f (seq o (len - o))) = (len - o)%nat) by (rewrite map_length, seq_length; lia).
  assert (Lout : length out = length inp) by (unfold out; rewrite length_splice; lia).
  split; [exact Lout|].
  split.
  { unfold out, splice. rewrite firstn_app, firstn_firstn, Nat.min_id, firstn_length, Nat.min_l by lia.
    rewrite Nat.sub_diag. cbn [firstn]. apply app_nil_r. }
  split.
  { unfold out, splice. rewrite LD, app_assoc, skipn_app, app_length, firstn_length, Nat.min_l, LD by lia.
    rewrite skipn_all2 by (rewrite app_length, firstn_length, LD; lia).
    replace (len - (o + (len - o)))%nat with 0%nat by lia. cbn [app skipn]. f_equal. lia. }
  assert (Bout : bytes out) by (apply bytes_splice; [exact Hb|apply bytes_map_seq; intros; apply u8_byte]).
  destruct (ESP_spec out lo len Bout ltac:(lia) ltac:(lia) Hsz) as (r & E & V & _).
  rewrite E. f_equal.
  assert (P : forall i, (o <= i < len)%nat -> nth i out 0 = sz i - sz o + 1).
  { intros i Hi. unfold out. rewrite nth_padded by lia.
    destruct (Nat.leb_spec o i); [|lia]. destruct (Nat.ltb_spec i len); [|lia].
    cbn [andb]. unfold f. apply u8_small. unfold sz. lia. }
  rewrite V.
  - rewrite P by lia. unfold sz. lia.
  - split; rewrite P by lia; unfold sz; [lia|]. intros i Hi Hp. rewrite !P by lia. unfold sz.
    rewrite Z.mod_small by lia. lia.
Qed.

(** ** ZeroOne *)
(** index of the last 0x80 followed only by zeros *)
Definition zo_at (inp : list Z) (k len : nat) : Prop :=
  (k < len)%nat /\ nth k inp 0 = 128 /\ forall i, (k < i < len)%nat -> nth i inp 0 = 0.

Lemma zo_step_unseen acc pos b : is_byte b -> 0 <= acc < 256 -> acc = 0 \/ acc = 255 -> 0 <= pos < 2 ^ 64 ->
  let seen' := u8 (Z.lor 0 (IsEqual 3 b 128)) in
  (b = 128 -> seen' = 255 /\ u64 (pos - Select 3 (u8 (Z.lnot seen')) 1 0) = pos /\
     u8 (Z.lor acc (Z.land (Z.lnot (IsZero 3 b)) (Z.lnot seen'))) = acc) /\
  (b <> 128 -> seen' = 0 /\ u64 (pos - Select 3 (u8 (Z.lnot seen')) 1 0) = u64 (pos - 1) /\
     u8 (Z.lor acc (Z.land (Z.lnot (IsZero 3 b)) (Z.lnot seen'))) = if b =? 0 then acc else 255).
Proof.
  intros Bb Ra A Rp. assert (B128 : is_byte 128) by (red; lia).
  rewrite IsEqual8, IsZero8 by assumption. cbv zeta. split.
  - intros ->. cbn [Z.eqb Pos.eqb]. change (u8 (Z.lor 0 255)) with 255.
    split; [reflexivity|]. change (Select 3 (u8 (Z.lnot 255)) 1 0) with 0.
    split; [unfold u64; rewrite Z.sub_0_r; apply Z.mod_small; lia|].
    destruct A; subst acc; reflexivity.
  - intros N. replace (b =? 128) with false by (symmetry; now apply Z.eqb_neq).
    change (u8 (Z.lor 0 0)) with 0. split; [reflexivity|].
    change (Select 3 (u8 (Z.lnot 0)) 1 0) with 1. split; [reflexivity|].
    destruct (b =? 0); destruct A; subst acc; reflexivity.
Qed.
Lemma zo_step_seen acc pos b : is_byte b -> acc = 0 \/ acc = 255 -> 0 <= pos < 2 ^ 64 ->
  let seen' := u8 (Z.lor 255 (IsEqual 3 b 128)) in
  seen' = 255 /\ u64 (pos - Select 3 (u8 (Z.lnot seen')) 1 0) = pos /\
     u8 (Z.lor acc (Z.land (Z.lnot (IsZero 3 b)) (Z.lnot seen'))) = acc.
Proof.
  intros Bb A Rp. assert (B128 : is_byte 128) by (red; lia).
  rewrite IsEqual8, IsZero8 by assumption. cbv zeta.
  assert (S : u8 (Z.lor 255 (if b =? 128 then 255 else 0)) = 255) by (destruct (b =? 128); reflexivity).
  rewrite S. split; [reflexivity|]. change (Select 3 (u8 (Z.lnot 255)) 1 0) with 0.
  split; [unfold u64; rewrite Z.sub_0_r; apply Z.mod_small; lia|].
  destruct (b =? 0); destruct A; subst acc; reflexivity.
Qed.

Lemma zo_loop_seen inp o : bytes inp -> forall n pos acc, (o + n <= length inp)%nat ->
  acc = 0 \/ acc = 255 -> 0 <= pos < 2 ^ 64 -> zo_loop n inp o 255 pos acc = Ok (255, pos, acc).
Proof.
  intros Hb. induction n as [|n IH]; intros pos acc Hn A Rp; [reflexivity|].
  cbn [zo_loop]. rewrite (get_ok _ _ 0) by lia. cbn [bind].
  destruct (zo_step_seen acc pos (nth (o + n) inp 0) (bytes_nth _ _ Hb) A Rp) as (E1 & E2 & E3).
  rewrite E1 in *. rewrite E2, E3. apply IH; auto. lia.
Qed.

(** scanning downwards from index o+n-1, nothing seen so far, all scanned bytes zero iff acc = 0 *)
Lemma zo_loop_unseen inp o : bytes inp -> forall n acc len, (o + n <= len)%nat -> (len <= length inp)%nat ->
  sz len < 2 ^ 64 -> acc = 0 \/ acc = 255 ->
  (forall i, (o + n <= i < len)%nat -> nth i inp 0 <> 128) ->
  (acc = 0 <-> forall i, (o + n <= i < len)%nat -> nth i inp 0 = 0) ->
  exists seen pos acc', zo_loop n inp o 0 (u64 (sz (o + n) - 1)) acc = Ok (seen, pos, acc') /\
    0 <= pos < 2 ^ 64 /\ (acc' = 0 \/ acc' = 255) /\ (seen = 0 \/ seen = 255) /\
    (forall k, (o <= k)%nat -> zo_at inp k len -> seen = 255 /\ acc' = 0 /\ pos = sz k) /\
    ((forall k, (o <= k)%nat -> ~ zo_at inp k len) -> seen = 0 \/ acc' = 255).
Proof.
  intros Hb. induction n as [|n IH]; intros acc len Hn Hl Hsz A N128 Z0.
  - cbn [zo_loop]. exists 0, (u64 (sz (o + 0) - 1)), acc. split; [reflexivity|].
    split; [apply Z.mod_pos_bound; lia|]. split; [exact A|]. split; [auto|]. split.
    + intros k Hk (K1 & K2 & _). exfalso. apply (N128 k); [lia|exact K2].
    + auto.
  - cbn [zo_loop]. rewrite (get_ok _ _ 0) by lia. cbn [bind].
    assert (P : u64 (sz (o + S n) - 1) = sz (o + n)) by (unfold u64, sz in *; rewrite Z.mod_small; lia).
    rewrite P. assert (Rp : 0 <= sz (o + n) < 2 ^ 64) by (unfold sz in *; lia).
    destruct (zo_step_unseen acc (sz (o + n)) (nth (o + n) inp 0) (bytes_nth _ _ Hb) ltac:(destruct A; lia) A Rp) as (S1 & S2).
    destruct (Z.eq_dec (nth (o + n) inp 0) 128) as [E128|NE].
    + destruct (S1 E128) as (E1 & E2 & E3). rewrite E1 in *. rewrite E2, E3.
      rewrite zo_loop_seen by (auto; lia). do 3 eexists. split; [reflexivity|].
      split; [exact Rp|]. split; [exact A|]. split; [auto|]. split.
      * intros k Hk (K1 & K2 & K3).
        assert (k = (o + n)%nat).
        { destruct (Nat.lt_trichotomy k (o + n)) as [L|[L|L]]; auto; exfalso.
          - specialize (K3 (o + n)%nat ltac:(lia)). lia.
          - apply (N128 k); [lia|exact K2]. }
        subst k. split; [reflexivity|]. split; [|reflexivity]. apply Z0. intros i Hi. apply K3. lia.
      * intros NK. right. destruct A as [->|]; [exfalso|assumption].
        apply (NK (o + n)%nat ltac:(lia)). split; [lia|]. split; [exact E128|]. intros i Hi. apply Z0; [reflexivity|lia].
    + destruct (S2 NE) as (E1 & E2 & E3). rewrite E1 in *. rewrite E2, E3.
      apply IH; auto; try lia.
      * destruct (nth (o + n) inp 0 =? 0); auto.
      * intros i Hi. destruct (Nat.eq_dec i (o + n)) as [->|]; [exact NE|apply N128; lia].
      * destruct (Z.eqb_spec (nth (o + n) inp 0) 0) as [Q|Q].
        -- rewrite Z0. split; intros F i Hi; [|apply F; lia].
           destruct (Nat.eq_dec i (o + n)) as [->|]; [exact Q|apply F; lia].
        -- split; [lia|]. intros F. exfalso. apply Q, F. lia.
Qed.

Lemma ZeroOne_spec inp o len : bytes inp -> (o <= len)%nat -> (1 <= len)%nat -> (len <= length inp)%nat -> sz len < 2 ^ 64 ->
  exists r, ZeroOne_GetBlockLength_range inp o len = Ok r /\
    (forall k, (o <= k)%nat -> zo_at inp k len -> r = sz k) /\
    ((forall k, (o <= k)%nat -> ~ zo_at inp k len) -> r = sz len).
Proof.
  intros Hb Ho H1 Hl Hsz. unfold ZeroOne_GetBlockLength_range, guard, safe.
  destruct (Nat.leb_spec len (length inp)); [|lia]. cbn [bind].
  destruct (Nat.leb_spec o len); [|lia]. cbn [bind].
  destruct (zo_loop_unseen inp o Hb (len - o) 0 len ltac:(lia) Hl Hsz ltac:(auto)) as (seen & pos & acc & E & Rp & A & S & Y & N).
  { intros i Hi. lia. }
  { split; auto. intros _ i Hi. lia. }
  replace (o + (len - o))%nat with len in E by lia. rewrite E. cbn [bind].
  eexists; split; [reflexivity|].
  assert (Rl : 0 <= sz len < 2 ^ 64) by (unfold sz in *; lia).
  assert (Ra : 0 <= u8 (Z.lor acc (Z.lnot seen)) < 2 ^ 64) by (pose proof (u8_byte (Z.lor acc (Z.lnot seen))) as Q; red in Q; lia).
  rewrite CondCopy64 by assumption. split.
  - intros k Hk K. destruct (Y k Hk K) as (-> & -> & ->). reflexivity.
  - intros NK. destruct (N NK) as [->| ->].
    + destruct A; subst acc; reflexivity.
    + destruct S; subst seen; reflexivity.
Qed.

Lemma zo_fill_ok n : forall fuel l i len, (n < fuel)%nat -> (i + n = len)%nat -> (0 < i)%nat -> (len <= length l)%nat ->
  zo_fill fuel l i len = Ok (splice l i (repeat 0 n)).
Proof.
  induction n as [|n IH]; intros fuel l i len Hf Hi H0 Hl; destruct fuel as [|fuel]; try lia; cbn [zo_fill].
  - replace i with len by lia. rewrite Nat.mod_same by lia. cbn [Nat.eqb repeat]. now rewrite splice_nil.
  - rewrite Nat.mod_small by lia. destruct (Nat.eqb_spec i 0); [lia|].
    rewrite put_ok by lia. cbn [bind]. rewrite (IH fuel (upd l i 0) (S i) len) by (rewrite ?length_upd; lia).
    f_equal. cbn [repeat].
    replace (0 :: repeat 0 n) with ([0] ++ repeat 0 n) by reflexivity.
    rewrite <- splice_splice_next by (rewrite repeat_length; cbn; lia).
    rewrite <- upd_as_splice by lia. cbn [length]. do 2 f_equal. lia.
Qed.

Lemma ZeroOne_round_trip inp o lo len : bytes inp -> (lo <= o < len)%nat -> (len <= length inp)%nat -> sz len < 2 ^ 64 ->
  exists out, ZeroOne_AddPadding inp o len = Ok out /\ length out = length inp /\
    firstn o out = firstn o inp /\ skipn len out = skipn len inp /\
    ZeroOne_GetBlockLength_range out lo len = Ok (sz o).
Proof.
  intros Hb Ho Hl Hsz. unfold ZeroOne_AddPadding, guard, safe.
  destruct (Nat.leb_spec len (length inp)); [|lia]. cbn [bind]. rewrite put_ok by lia. cbn [bind].
  destruct (Nat.leb_spec 1 len); [|lia]. cbn [bind].
  rewrite (zo_fill_ok (len - (o + 1))) by (rewrite ?length_upd; lia).
  eexists; split; [reflexivity|].
  assert (EO : splice (upd inp o 128) (o + 1) (repeat 0 (len - (o + 1))) = splice inp o (128 :: repeat 0 (len - (o + 1)))).
  { replace (128 :: repeat 0 (len - (o + 1))) with ([128] ++ repeat 0 (len - (o + 1))) by reflexivity.
    rewrite <- splice_splice_next by (rewrite repeat_length; cbn; lia).
    rewrite <- upd_as_splice by lia. reflexivity. }
  rewrite EO. set (d := 128 :: repeat 0 (len - (o + 1))).
  assert (LD : length d = (len - o)%nat) by (unfold d; cbn [length]; rewrite repeat_length; lia).
  set (out := splice inp o d).
  assert (Lout : length out = length inp) by (unfold out; rewrite length_splice; lia).
  split; [exact Lout|].
  split.
  { unfold out, splice. rewrite firstn_app, firstn_firstn, Nat.min_id, firstn_length, Nat.min_l by lia.
    rewrite Nat.sub_diag. cbn [firstn]. apply app_nil_r. }
  split.
  { unfold out, splice. rewrite LD, app_assoc, skipn_app, app_length, firstn_length, Nat.min_l, LD by lia.
    rewrite skipn_all2 by (rewrite app_length, firstn_length, LD; lia).
    replace (len - (o + (len - o)))%nat with 0%nat by lia. cbn [app skipn]. f_equal. lia. }
  assert (Bout : bytes out).
  { apply bytes_splice; [exact Hb|]. constructor; [red; lia|]. apply bytes_zeros. }
  destruct (ZeroOne_spec out lo len Bout ltac:(lia) ltac:(lia) ltac:(lia) Hsz) as (r & E & V & _).
  rewrite E. f_equal. apply V; [lia|]. split; [lia|]. unfold out. split.
  - rewrite nth_splice by lia. rewrite Nat.ltb_irrefl. destruct (Nat.ltb_spec o (o + length d)); [|lia].
    rewrite Nat.sub_diag. reflexivity.
  - intros i Hi. rewrite nth_splice by lia. destruct (Nat.ltb_spec i o); [lia|].
    destruct (Nat.ltb_spec i (o + length d)); [|lia]. unfold d.
    replace (i - o)%nat with (S (i - o - 1)) by lia. cbn [nth]. apply nth_repeat.
Qed.
