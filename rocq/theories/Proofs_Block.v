(** Block cipher objects in general: doubled windows and call histories. *)
From Verif Require Import Base BaseLemmas Spec_Common Proofs_Common Model_Modes Proofs_SHA2obj Session_Digest Model_RHX Session_Block.
Open Scope Z_scope.

Lemma pow2_pos k : (1 <= 2 ^ k)%nat. Proof. induction k; cbn [Nat.pow]; lia. Qed.
Lemma slice_two (l : list Z) o a b : slice l o (a + b) = slice l o a ++ slice l (o + a) b.
Proof. apply slice_app. Qed.
Lemma chunks_app_many (n : nat) : (0 < n)%nat -> forall k (a b : list Z), length a = (n * k)%nat -> chunks n (a ++ b) = chunks n a ++ chunks n b.
Proof.
  intros Hn. induction k as [|k IH]; intros a b L; [destruct a; [reflexivity|cbn [length] in L; lia]|].
  assert (A : a = firstn n a ++ skipn n a) by (symmetry; apply firstn_skipn). rewrite A, <- app_assoc.
  assert (LF : length (firstn n a) = n) by (rewrite firstn_length; lia).
  rewrite (chunks_app n (firstn n a) (skipn n a ++ b)) by auto. rewrite (chunks_app n (firstn n a) (skipn n a)) by auto. cbn [app]. f_equal. apply IH. rewrite skipn_length. lia.
Qed.
Definition blockwise (E : list Z -> list Z) : Prop := forall b, length b = 16%nat -> bytes b -> length (E b) = 16%nat /\ bytes (E b).
Lemma blocks_ok (E : list Z -> list Z) n : blockwise E ->
  forall l, length l = (16 * n)%nat -> bytes l -> length (concat (map E (chunks 16 l))) = (16 * n)%nat /\ bytes (concat (map E (chunks 16 l))).
Proof.
  intros HE. induction n as [|n IH]; intros l L B; [destruct l; [split; [reflexivity|constructor]|cbn [length] in L; lia]|].
  rewrite <- (firstn_skipn 16 l). assert (LF : length (firstn 16 l) = 16%nat) by (rewrite firstn_length; lia).
  rewrite chunks_app by (auto; lia). cbn [map concat]. destruct (HE _ LF (bytes_firstn 16 l B)) as [E1 E2].
  destruct (IH (skipn 16 l) ltac:(rewrite skipn_length; lia) (bytes_skipn 16 l B)) as [I1 I2]. rewrite app_length, E1, I1. split; [lia|]. apply Forall_app. auto.
Qed.
Lemma slice_kept (l d : list Z) o io n : (o + length d <= length l)%nat -> (io + n <= length l)%nat -> (o + length d <= io \/ io + n <= o)%nat -> slice (splice l o d) io n = slice l io n.
Proof.
  intros H1 H2 H3. assert (L : length (splice l o d) = length l) by (rewrite length_splice; lia).
  apply (list_ext 0); [rewrite !length_slice; lia|]. intros i Hi. rewrite length_slice in Hi by lia. rewrite !nth_slice by lia.
  rewrite nth_splice by lia. destruct (Nat.ltb_spec (io + i) o), (Nat.ltb_spec (io + i) (o + length d)); try reflexivity; lia.
Qed.

Lemma taken_len n inp io out oo : window n inp io out oo -> length (taken n inp io out) = n.
Proof. intros (H1 & H2). unfold taken. destruct inp; rewrite length_slice; lia. Qed.
Lemma taken_bytes n inp io out oo : window n inp io out oo -> bytes (taken n inp io out).
Proof. intros (H1 & H2). unfold taken. destruct inp; apply bytes_slice; tauto. Qed.
Section doubled.
  Variables (f : option (list Z) -> nat -> list Z -> nat -> res (list Z)) (E : list Z -> list Z).
  Hypothesis Hf : forall inp io out oo, window 16 inp io out oo -> f inp io out oo = Ok (splice out oo (E (taken 16 inp io out))).
  Hypothesis HE : blockwise E.
  Lemma doubled_ok k : forall inp io out oo, window (16 * 2 ^ k) inp io out oo ->
    doubled f k inp io out oo = Ok (splice out oo (concat (map E (chunks 16 (taken (16 * 2 ^ k) inp io out))))).
  Proof.
    induction k as [|k IH]; intros inp io out oo W.
    - cbn [doubled]. replace (16 * 2 ^ 0)%nat with 16%nat in * by reflexivity. rewrite Hf by exact W. f_equal. f_equal. rewrite chunk1 by (try lia; now apply (taken_len _ _ _ _ _ W)). cbn [map concat]. now rewrite app_nil_r.
    - cbn [doubled]. pose proof (pow2_pos k) as P. set (h := (16 * 2 ^ k)%nat) in *. assert (H16 : (16 <= h)%nat) by (unfold h; lia).
      assert (HS : (16 * 2 ^ S k)%nat = (h + h)%nat) by (unfold h; cbn [Nat.pow]; lia). rewrite HS in *.
      assert (W1 : window h inp io out oo) by (destruct W as (W1 & W2); split; [lia|]; destruct inp; [intuition lia|]; destruct W2 as (B & W2 & W3); split; [exact B|]; split; lia).
      rewrite IH by exact W1. cbn [bind]. set (d1 := concat _). pose proof (taken_len _ _ _ _ _ W1) as LT.
      assert (LB : length d1 = h /\ bytes d1) by (unfold d1, h; apply blocks_ok; auto; now apply (taken_bytes _ _ _ _ oo)). destruct LB as [LD BD].
      assert (LO : length (splice out oo d1) = length out) by (rewrite length_splice; destruct W; lia).
      assert (W2 : window h inp (io + h) (splice out oo d1) (oo + h)).
      { destruct W as (W0 & W2). split; [lia|]. destruct inp; [intuition lia|]. destruct W2 as (B & W2 & W3). rewrite LO. split; [apply bytes_splice; auto|]. split; lia. }
      rewrite IH by exact W2. f_equal.
      assert (ET : taken h inp (io + h) (splice out oo d1) = taken h inp (io + h) out).
      { unfold taken. destruct inp; [reflexivity|]. destruct W as (W0 & B & W3 & W4). apply slice_kept; rewrite ?LD; lia. }
      rewrite ET. assert (ETT : taken (h + h) inp io out = taken h inp io out ++ taken h inp (io + h) out) by (unfold taken; apply slice_two).
      rewrite ETT, (chunks_app_many 16 ltac:(lia) (2 ^ k)) by exact LT. rewrite map_app, concat_app. fold d1.
      set (d2 := concat (map E (chunks 16 (taken h inp (io + h) out)))).
      assert (LD2 : length d2 = h) by (unfold d2, h; apply blocks_ok; auto; fold h; rewrite <- ET; [apply (taken_len _ _ _ _ _ W2)|apply (taken_bytes _ _ _ _ _ W2)]).
      replace (oo + h)%nat with (oo + length d1)%nat by lia. apply splice_splice_next. destruct W. lia.
  Qed.
End doubled.

Section history.
  Context {O : Type} (X : bc_ops O) (C : block_cipher) (iok : list Z -> Prop) (Rel : O -> option (bool * list Z * list Z) -> Prop).
  Hypothesis Hinit : forall o a (enc : bool) (key info : list Z), Rel o a -> bytes key -> bytes info -> iok info -> Z.of_nat (length key) < 2 ^ 32 -> cp_legal C (length key) = true ->
    exists o', bo_init X o enc key info = Ok (o', None) /\ Rel o' (Some (enc, key, info)).
  Hypothesis Hbad : forall o (enc : bool) (key info : list Z), Z.of_nat (length key) < 2 ^ 32 -> cp_legal C (length key) = false -> bo_init X o enc key info = Ok (o, Some InvalidKey).
  Hypothesis Henc : forall o e k i, Rel o (Some (e, k, i)) -> forall inp io out oo, window 16 inp io out oo -> bo_enc X o inp io out oo = Ok (splice out oo (cp_enc C k i (taken 16 inp io out))).
  Hypothesis Hdec : forall o (e : bool) k i, Rel o (Some (e, k, i)) -> forall inp io out oo, window 16 inp io out oo -> bo_dec X o inp io out oo = Ok (splice out oo (cp_dec C k i (taken 16 inp io out))).
  Hypothesis Htr : forall o e k i, Rel o (Some (e, k, i)) -> bo_transform X o = doubled (if e then bo_enc X o else bo_dec X o).
  Hypothesis Hsz : forall o e k i, Rel o (Some (e, k, i)) -> blockwise (cp_enc C k i) /\ blockwise (cp_dec C k i).
  Lemma bhistory_ok (cs : list bcall) : forall (on : bool) (o : O) a, Rel o (if on then Some a else None) -> bcalls_ok C iok on cs -> exists rs, bhistory X o cs = Ok rs /\ bexpected C a cs rs.
  Proof.
    induction cs as [|c cs IH]; intros on o [[e k] i] HR HC; [exists []; split; [reflexivity|exact I]|].
    assert (STEP : forall o' (on' : bool) a' r, bstep X o c = Ok (o', r) -> Rel o' (if on' then Some a' else None) -> bcalls_ok C iok on' cs ->
      (forall rs, bexpected C a' cs rs -> bexpected C (e, k, i) (c :: cs) (r :: rs)) -> exists rs, bhistory X o (c :: cs) = Ok rs /\ bexpected C (e, k, i) (c :: cs) rs).
    { intros o' on' a' r E H1 H2 H3. cbn [bhistory]. rewrite E. cbn [bind fst snd]. destruct (IH on' o' a' H1 H2) as (rs & -> & H4). cbn [bind]. eexists. split; [reflexivity|]. now apply H3. }
    destruct c as [enc key info|inp io out oo|inp io out oo|n inp io out oo]; cbn [bcalls_ok] in HC.
    - destruct HC as (B1 & B2 & I1 & S1 & HC). destruct (cp_legal C (length key)) eqn:L.
      + destruct (Hinit o _ enc key info HR B1 B2 I1 S1 L) as (o' & E & R'). apply (STEP o' true (enc, key, info) Done); [cbn [bstep]; now rewrite E|exact R'|exact HC|]. intros rs K. cbn [bexpected]. now rewrite L.
      + apply (STEP o on (e, k, i) (Failed InvalidKey)); [cbn [bstep]; now rewrite (Hbad o enc key info S1 L)|exact HR|exact HC|]. intros rs K. cbn [bexpected]. now rewrite L.
    - destruct HC as (-> & W & HC). apply (STEP o true (e, k, i) (Wrote (splice out oo (cp_enc C k i (taken 16 inp io out))))); [cbn [bstep]; now rewrite (Henc o e k i HR _ _ _ _ W)|exact HR|exact HC|].
      intros rs K. cbn [bexpected]. split; [|exact K]. eexists. split; [reflexivity|]. apply splice_written. rewrite (proj1 (proj1 (Hsz o e k i HR) _ (taken_len _ _ _ _ _ W) (taken_bytes _ _ _ _ _ W))). exact (proj1 W).
    - destruct HC as (-> & W & HC). apply (STEP o true (e, k, i) (Wrote (splice out oo (cp_dec C k i (taken 16 inp io out))))); [cbn [bstep]; now rewrite (Hdec o e k i HR _ _ _ _ W)|exact HR|exact HC|].
      intros rs K. cbn [bexpected]. split; [|exact K]. eexists. split; [reflexivity|]. apply splice_written. rewrite (proj1 (proj2 (Hsz o e k i HR) _ (taken_len _ _ _ _ _ W) (taken_bytes _ _ _ _ _ W))). exact (proj1 W).
    - destruct HC as (-> & HN & W & HC). set (F := (if e then cp_enc C else cp_dec C) k i).
      assert (BW : blockwise F) by (unfold F; destruct (Hsz o _ k i HR), e; assumption).
      assert (D : bo_transform X o n inp io out oo = Ok (splice out oo (concat (map F (chunks 16 (taken (16 * 2 ^ n) inp io out)))))).
      { rewrite (Htr o e k i HR). apply doubled_ok; unfold F; [destruct e; [exact (Henc o _ k i HR)|exact (Hdec o _ k i HR)]|exact BW|exact W]. }
      apply (STEP o true (e, k, i) (Wrote (splice out oo (concat (map F (chunks 16 (taken (16 * 2 ^ n) inp io out))))))); [cbn [bstep]; now rewrite D|exact HR|exact HC|].
      intros rs K. cbn [bexpected]. split; [|exact K]. eexists. split; [reflexivity|]. fold F. apply splice_written. rewrite (proj1 (blocks_ok F (2 ^ n) BW _ (taken_len _ _ _ _ _ W) (taken_bytes _ _ _ _ _ W))). exact (proj1 W).
  Qed.
End history.
