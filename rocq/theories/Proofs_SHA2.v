(** Generic part of the SHA-2 block function proofs: ring-buffer schedule = FIPS schedule, rounds by induction. *)
From Verif Require Import BaseLemmas Model_Straight Spec_SHA2.
Open Scope Z_scope.

Lemma exec_app w p q s : exec w (p ++ q) s = exec w q (exec w p s).
Proof. apply fold_left_app. Qed.
Definition rot (n : nat) (s : list Z) : list Z := skipn n s ++ firstn n s.

Lemma ADD_comm w a b : ADD w a b = ADD w b a.
Proof. unfold ADD. now rewrite Z.add_comm. Qed.
Lemma ADD_swap w x k y : 0 <= w -> ADD w (ADD w x k) y = ADD w (ADD w x y) k.
Proof.
  intros Hw. unfold ADD. assert (0 < 2 ^ w) by (apply Z.pow_pos_nonneg; lia).
  rewrite !Zplus_mod_idemp_l. f_equal. lia.
Qed.
Lemma ADD_assoc w x k y : 0 <= w -> ADD w (ADD w x k) y = ADD w x (ADD w k y).
Proof.
  intros Hw. unfold ADD. assert (0 < 2 ^ w) by (apply Z.pow_pos_nonneg; lia).
  rewrite Zplus_mod_idemp_l, Zplus_mod_idemp_r. f_equal. lia.
Qed.
Lemma ADD_range w x y : 0 <= w -> is_word w (ADD w x y).
Proof. intros. apply Z.mod_pos_bound. apply Z.pow_pos_nonneg; lia. Qed.

Section gen.
Variables (w : Z) (Sum0 Sum1 sig0 sig1 : Z -> Z) (Ks : list Z).
Hypothesis Hw : 0 <= w.

(** facts about the FIPS schedule *)
Lemma sched_len m n : length m = 16%nat -> length (Nat.iter n (fun ws => ws ++ [next_W w sig0 sig1 ws]) m) = (16 + n)%nat.
Proof. intros H. induction n; [cbn; lia|]. cbn [Nat.iter nat_rect]. unfold Nat.iter in *. rewrite app_length. cbn [length]. rewrite IHn. lia. Qed.
Lemma sched_stable m n i k : length m = 16%nat -> (i < 16 + n)%nat ->
  nth i (Nat.iter (k + n) (fun ws => ws ++ [next_W w sig0 sig1 ws]) m) 0 = nth i (Nat.iter n (fun ws => ws ++ [next_W w sig0 sig1 ws]) m) 0.
Proof.
  intros H Hi. induction k; [reflexivity|]. rewrite <- IHk. apply app_nth1.
  pose proof (sched_len m (k + n) H) as L. unfold Nat.iter in *. lia.
Qed.
Lemma sched_first m n i : length m = 16%nat -> (16 <= n)%nat -> (i < 16)%nat -> nth i (schedule w sig0 sig1 n m) 0 = nth i m 0.
Proof. intros H Hn Hi. unfold schedule. replace (n - 16)%nat with (n - 16 + 0)%nat by lia. rewrite sched_stable by lia. reflexivity. Qed.
Lemma sched_rec m n i : length m = 16%nat -> (16 <= i < n)%nat ->
  let W := schedule w sig0 sig1 n m in
  nth i W 0 = ADD w (ADD w (ADD w (sig1 (nth (i - 2) W 0)) (nth (i - 7) W 0)) (sig0 (nth (i - 15) W 0))) (nth (i - 16) W 0).
Proof.
  intros H Hi W. set (g := fun ws => ws ++ [next_W w sig0 sig1 ws]).
  assert (E : forall j, (j <= i)%nat -> nth j W 0 = nth j (Nat.iter (S (i - 16)) g m) 0).
  { intros j Hj. unfold W, schedule. replace (n - 16)%nat with ((n - 16 - S (i - 16)) + S (i - 16))%nat by lia. apply sched_stable; lia. }
  assert (F : forall j, (j < i)%nat -> nth j W 0 = nth j (Nat.iter (i - 16) g m) 0).
  { intros j Hj. unfold W, schedule. replace (n - 16)%nat with ((n - 16 - (i - 16)) + (i - 16))%nat by lia. apply sched_stable; lia. }
  rewrite (E i) by lia. cbn [Nat.iter nat_rect]. change (nat_rect _ m (fun _ => g) (i - 16)%nat) with (Nat.iter (i - 16) g m).
  pose proof (sched_len m (i - 16) H) as L. fold g in L.
  unfold g at 1. rewrite app_nth2 by lia. rewrite L. replace (i - (16 + (i - 16)))%nat with 0%nat by lia. cbn [nth].
  unfold next_W. rewrite L. replace (16 + (i - 16))%nat with i by lia. rewrite !F by lia. reflexivity.
Qed.
Lemma schedule_len m n : length m = 16%nat -> (16 <= n)%nat -> length (schedule w sig0 sig1 n m) = n.
Proof. intros H Hn. unfold schedule. rewrite sched_len by auto. lia. Qed.

(** the ring buffer of 16 words *)
Definition rW (ws : list Z) (j : nat) : Z :=
  ADD w (nth j ws 0) (ADD w (ADD w (sig1 (nth ((j + 14) mod 16) ws 0)) (nth ((j + 9) mod 16) ws 0)) (sig0 (nth ((j + 1) mod 16) ws 0))).
Definition ring (u : bool) (j : nat) (ws : list Z) : list Z := if u then upd ws j (rW ws j) else ws.
Definition RI (m : list Z) (n t : nat) (ws : list Z) : Prop :=
  length ws = 16%nat /\ forall i, (Nat.max t 16 - 16 <= i < Nat.max t 16)%nat -> nth (i mod 16) ws 0 = nth i (schedule w sig0 sig1 n m) 0.
Lemma RI_start m n : length m = 16%nat -> (16 <= n)%nat -> RI m n 0 m.
Proof. intros H Hn. split; [exact H|]. intros i Hi. rewrite sched_first by lia. rewrite Nat.mod_small by lia. reflexivity. Qed.
Lemma RI_step m n t ws : length m = 16%nat -> (t < n)%nat -> (16 <= n)%nat -> RI m n t ws ->
  let ws' := ring (16 <=? t)%nat (t mod 16) ws in
  nth (t mod 16) ws' 0 = nth t (schedule w sig0 sig1 n m) 0 /\ RI m n (S t) ws'.
Proof.
  intros Hm Ht Hn (L & P). cbv zeta. unfold ring. destruct (Nat.leb_spec 16 t) as [T|T].
  - assert (E : rW ws (t mod 16) = nth t (schedule w sig0 sig1 n m) 0).
    { rewrite sched_rec by lia. unfold rW.
      replace ((t mod 16 + 14) mod 16)%nat with ((t - 2) mod 16)%nat by lia.
      replace ((t mod 16 + 9) mod 16)%nat with ((t - 7) mod 16)%nat by lia.
      replace ((t mod 16 + 1) mod 16)%nat with ((t - 15) mod 16)%nat by lia.
      replace (nth (t mod 16) ws 0) with (nth ((t - 16) mod 16) ws 0) by (f_equal; lia).
      rewrite !P by lia. apply ADD_comm. }
    split; [rewrite nth_upd_same by lia; exact E|]. split; [now rewrite length_upd|].
    intros i Hi. destruct (Nat.eq_dec i t) as [->|Ne]; [rewrite nth_upd_same by lia; exact E|].
    rewrite nth_upd_other by lia. apply P. lia.
  - split; [|split; [exact L|]].
    + apply P. lia.
    + intros i Hi. apply P. lia.
Qed.

Lemma round_len s kw : length s = 8%nat -> length (sha2_round w Sum0 Sum1 s kw) = 8%nat.
Proof. intros H. do 8 (destruct s as [|? s]; [discriminate H|]). destruct s; [|discriminate H]. reflexivity. Qed.
Lemma fold_round_len l : forall s, length s = 8%nat -> length (fold_left (sha2_round w Sum0 Sum1) l s) = 8%nat.
Proof. induction l; intros s H; [exact H|]. apply IHl. now apply round_len. Qed.

Variable tmpl : nat -> Z -> bool -> prog.
Hypothesis Hstep : forall u j k s r ws rest, (j < 16)%nat -> length s = 8%nat -> length ws = 16%nat ->
  exists r', exec w (tmpl j k u) (rot (j mod 8) s ++ r :: ws ++ rest) =
    rot (S j mod 8) (sha2_round w Sum0 Sum1 s (k, nth j (ring u j ws) 0)) ++ r' :: ring u j ws ++ rest.
Definition round_prog (t : nat) : prog := tmpl (t mod 16) (nth t Ks 0) (16 <=? t)%nat.

Lemma rounds_ok m (Hm : length m = 16%nat) (Hn : (16 <= length Ks)%nat) rest : forall n t s r ws, (t + n <= length Ks)%nat -> length s = 8%nat -> RI m (length Ks) t ws ->
  exists r' ws', exec w (concat (map round_prog (seq t n))) (rot (t mod 8) s ++ r :: ws ++ rest) =
    rot ((t + n) mod 8) (fold_left (sha2_round w Sum0 Sum1) (combine (slice Ks t n) (slice (schedule w sig0 sig1 (length Ks) m) t n)) s) ++ r' :: ws' ++ rest /\ length ws' = 16%nat.
Proof.
  induction n as [|n IH]; intros t s r ws Ht Hs Hr.
  - exists r, ws. split; [|apply Hr]. cbn. now rewrite Nat.add_0_r.
  - cbn [seq map concat]. rewrite exec_app.
    destruct (RI_step m (length Ks) t ws) as (E & R'); auto; try lia.
    change (round_prog t) with (tmpl (t mod 16) (nth t Ks 0) (16 <=? t)%nat). destruct (Hstep (16 <=? t)%nat (t mod 16) (nth t Ks 0) s r ws rest) as (r1 & E1); auto; try lia; [apply Hr|].
    replace ((t mod 16) mod 8)%nat with (t mod 8)%nat in E1 by lia. rewrite E1. rewrite E.
    replace (S (t mod 16) mod 8)%nat with (S t mod 8)%nat by lia.
    destruct (IH (S t) (sha2_round w Sum0 Sum1 s (nth t Ks 0, nth t (schedule w sig0 sig1 (length Ks) m) 0)) r1 _ ltac:(lia) ltac:(now apply round_len) R') as (r2 & ws2 & E2 & L2).
    exists r2, ws2. rewrite E2. split; [|exact L2]. replace (S t + n)%nat with (t + S n)%nat by lia. f_equal. f_equal.
    assert (SL : forall l : list Z, (t < length l)%nat -> slice l t (S n) = nth t l 0 :: slice l (S t) n).
    { intros l Hl. replace (S n) with (1 + n)%nat by lia. rewrite slice_app. replace (t + 1)%nat with (S t) by lia.
      assert (Q : slice l t 1 = [nth t l 0]).
      { apply (list_ext 0); [rewrite length_slice by lia; reflexivity|]. intros i Hi. rewrite length_slice in Hi by lia. assert (i = 0)%nat by lia. subst.
        rewrite nth_slice by lia. now rewrite Nat.add_0_r. }
      rewrite Q. reflexivity. }
    rewrite !SL by (rewrite ?schedule_len by auto; lia). reflexivity.
Qed.

Definition head : prog := map (fun i => (i, R (25 + i))) (seq 0 8) ++ map (fun i => (9 + i, R (33 + i)))%nat (seq 0 16).
Definition tailp : prog := map (fun i => (25 + i, Ad (R (25 + i)) (R i)))%nat (seq 0 8).
Lemma head_ok junk st m : length junk = 25%nat -> length st = 8%nat -> length m = 16%nat ->
  exec w head (junk ++ st ++ m) = rot 0 st ++ nth 8 junk 0 :: m ++ st ++ m.
Proof.
  intros H1 H2 H3.
  do 25 (destruct junk as [|? junk]; [discriminate H1|]). destruct junk; [|discriminate H1].
  do 8 (destruct st as [|? st]; [discriminate H2|]). destruct st; [|discriminate H2].
  do 16 (destruct m as [|? m]; [discriminate H3|]). destruct m; [|discriminate H3].
  reflexivity.
Qed.
Lemma tail_ok s r ws st m : length s = 8%nat -> length ws = 16%nat -> length st = 8%nat ->
  slice (exec w tailp (s ++ r :: ws ++ st ++ m)) 25 8 = map (fun p => ADD w (fst p) (snd p)) (combine st s).
Proof.
  intros H1 H2 H3.
  do 8 (destruct s as [|? s]; [discriminate H1|]). destruct s; [|discriminate H1].
  do 16 (destruct ws as [|? ws]; [discriminate H2|]). destruct ws; [|discriminate H2].
  do 8 (destruct st as [|? st]; [discriminate H3|]). destruct st; [|discriminate H3].
  reflexivity.
Qed.
Lemma compress_ok junk st m : length junk = 25%nat -> length st = 8%nat -> length m = 16%nat -> (16 <= length Ks)%nat -> (length Ks mod 8 = 0)%nat ->
  slice (exec w (head ++ concat (map round_prog (seq 0 (length Ks))) ++ tailp) (junk ++ st ++ m)) 25 8 = sha2_compress w Sum0 Sum1 sig0 sig1 Ks st m.
Proof.
  intros H1 H2 H3 H4 H5. rewrite !exec_app. rewrite head_ok by auto.
  destruct (rounds_ok m H3 H4 (st ++ m) (length Ks) 0 st (nth 8 junk 0) m) as (r & ws & E & L); [lia|auto|now apply RI_start|].
  rewrite Nat.add_0_l, H5 in E. rewrite Nat.mod_0_l in E by lia. rewrite E. clear E.
  set (fs := fold_left _ _ _). assert (Lf : length fs = 8%nat) by (apply fold_round_len; auto).
  unfold rot. rewrite skipn_O, firstn_O, app_nil_r. rewrite tail_ok by auto. unfold sha2_compress, fs.
  rewrite !slice_all; [reflexivity| |]; [now rewrite schedule_len|reflexivity].
Qed.
End gen.
