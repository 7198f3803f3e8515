(** Serpent: the block functions of SHX compute Spec_Serpent; decryption and encryption are inverses. *)
From Verif Require Import Base BaseLemmas Spec_Serpent Model_IntegerTools Model_Modes Model_Straight Model_SerpentGen Model_Serpent Proofs_IntegerTools Proofs_Windows Proofs_SHA2obj Proofs_Serpent.
Open Scope Z_scope.

Lemma chunk_at n : (0 < n)%nat -> forall i (l : list Z), (n * i + n <= length l)%nat -> nth i (chunks n l) [] = slice l (n * i) n.
Proof.
  intros Hn. induction i as [|i IH]; intros l L.
  - rewrite <- (firstn_skipn n l) at 1. rewrite chunks_app by (try lia; rewrite firstn_length; lia). cbn [nth]. unfold slice. rewrite Nat.mul_0_r. reflexivity.
  - rewrite <- (firstn_skipn n l) at 1. rewrite chunks_app by (try lia; rewrite firstn_length; lia). cbn [nth]. rewrite IH by (rewrite skipn_length; lia). unfold slice. rewrite skipn_skipn. do 2 f_equal. lia.
Qed.
Lemma chunks_len n k : (0 < n)%nat -> forall l : list Z, length l = (n * k)%nat -> length (chunks n l) = k.
Proof.
  intros Hn. induction k as [|k IH]; intros l L; [destruct l; [reflexivity|cbn [length] in L; lia]|]. rewrite <- (firstn_skipn n l). rewrite chunks_app by (try lia; rewrite firstn_length; lia). cbn [length]. rewrite IH by (rewrite skipn_length; lia). reflexivity.
Qed.
Lemma xorl_words4 a b : words4 a -> words4 b -> words4 (xorl a b).
Proof.
  intros Wa Wb. destruct (words4_cases a Wa) as (? & ? & ? & ? & -> & ? & ? & ? & ?), (words4_cases b Wb) as (? & ? & ? & ? & -> & ? & ? & ? & ?). cbn [xorl]. apply words4_mk; (apply lxor_range; [lia|assumption|assumption]).
Qed.
Lemma xorl_back4 a b : words4 a -> words4 b -> xorl (xorl a b) b = a.
Proof.
  intros Wa Wb. destruct (words4_cases a Wa) as (? & ? & ? & ? & -> & _), (words4_cases b Wb) as (? & ? & ? & ? & -> & _). cbn [xorl]. rewrite !Z.lxor_assoc, !Z.lxor_nilpotent, !Z.lxor_0_r. reflexivity.
Qed.

(** ** the rounds *)
Section cipher.
  Variable ks : list (list Z).
  Hypothesis Hks : Forall words4 ks.
  Hypothesis Hlen : (2 <= length ks)%nat.
  Lemma key4 i : (i < length ks)%nat -> words4 (nth i ks []).
  Proof. intros Hi. apply (proj1 (Forall_forall _ _) Hks). now apply nth_In. Qed.
  Lemma sub_words i x : words4 x -> words4 (substituted ks i x). Proof. intros. apply side_words. Qed.
  Lemma unsub_words i x : (i < length ks)%nat -> words4 (unsubstituted ks i x).
  Proof. intros Hi. apply xorl_words4; [apply side_words|now apply key4]. Qed.
  Lemma mod8 i : (i mod 8 < 8)%nat. Proof. apply Nat.mod_upper_bound. lia. Qed.
  Lemma unsub_sub i x : (i < length ks)%nat -> words4 x -> unsubstituted ks i (substituted ks i x) = x.
  Proof. intros Hi W. unfold unsubstituted, substituted. rewrite (proj1 (boxes_inverse (i mod 8) _ (mod8 i) (xorl_words4 _ _ W (key4 i Hi)))). apply xorl_back4; [exact W|now apply key4]. Qed.
  Lemma sub_unsub i x : (i < length ks)%nat -> words4 x -> substituted ks i (unsubstituted ks i x) = x.
  Proof. intros Hi W. unfold unsubstituted, substituted. rewrite xorl_back4 by (try apply side_words; now apply key4). apply (boxes_inverse (i mod 8) x (mod8 i) W). Qed.
  Lemma fold_words l : forall x, words4 x -> words4 (fold_left (fun x i => LT (substituted ks i x)) l x).
  Proof. induction l as [|i l IH]; intros x W; [exact W|]. cbn [fold_left]. apply IH, LT_words, sub_words, W. Qed.
  Lemma unfold_words l : (forall i, In i l -> (i < length ks)%nat) -> forall x, words4 x -> words4 (fold_right (fun i x => unsubstituted ks i (LT_inv x)) x l).
  Proof. induction l as [|i l IH]; intros H x W; [exact W|]. cbn [fold_right]. apply unsub_words, H. left. reflexivity. Qed.
  Lemma fold_back l : (forall i, In i l -> (i < length ks)%nat) -> forall x, words4 x ->
    fold_right (fun i x => unsubstituted ks i (LT_inv x)) (fold_left (fun x i => LT (substituted ks i x)) l x) l = x.
  Proof.
    induction l as [|i l IH]; intros H x W; [reflexivity|]. cbn [fold_left fold_right]. rewrite IH; [|intros j Hj; apply H; right; exact Hj|apply LT_words, sub_words, W].
    rewrite LT_back by (apply sub_words, W). apply unsub_sub; [apply H; left; reflexivity|exact W].
  Qed.
  Lemma fold_forth l : (forall i, In i l -> (i < length ks)%nat) -> forall x, words4 x ->
    fold_left (fun x i => LT (substituted ks i x)) l (fold_right (fun i x => unsubstituted ks i (LT_inv x)) x l) = x.
  Proof.
    induction l as [|i l IH]; intros H x W; [reflexivity|]. cbn [fold_left fold_right]. assert (HL : forall j, In j l -> (j < length ks)%nat) by (intros j Hj; apply H; right; exact Hj).
    pose proof (unfold_words l HL x W) as WU. rewrite sub_unsub by (try (apply H; left; reflexivity); apply LTi_words; exact WU). rewrite LT_forth by exact WU. now apply IH.
  Qed.
  Lemma in_seq0 n : (n <= length ks)%nat -> forall i, In i (seq 0 n) -> (i < length ks)%nat. Proof. intros H i Hi. apply in_seq in Hi. lia. Qed.
  Lemma words_back x : words4 x -> words4 (serpent_words ks x) /\ inv_serpent_words ks (serpent_words ks x) = x.
  Proof.
    intros W. unfold serpent_words, inv_serpent_words. cbv zeta. set (n := (length ks - 2)%nat). set (y := fold_left _ (seq 0 n) x). assert (Wy : words4 y) by (apply fold_words, W).
    split; [apply xorl_words4; [now apply sub_words|apply key4; unfold n; lia]|]. rewrite xorl_back4 by (try (now apply sub_words); apply key4; unfold n; lia). rewrite unsub_sub by (try assumption; unfold n; lia).
    apply fold_back; [apply in_seq0; unfold n; lia|exact W].
  Qed.
  Lemma words_forth x : words4 x -> words4 (inv_serpent_words ks x) /\ serpent_words ks (inv_serpent_words ks x) = x.
  Proof.
    intros W. unfold serpent_words, inv_serpent_words. cbv zeta. set (n := (length ks - 2)%nat).
    assert (Wk : words4 (xorl x (nth (n + 1) ks []))) by (apply xorl_words4; [exact W|apply key4; unfold n; lia]).
    set (z := unsubstituted ks n (xorl x (nth (n + 1) ks []))). assert (Wz : words4 z) by (apply unsub_words; unfold n; lia).
    split; [apply unfold_words; [apply in_seq0; unfold n; lia|exact Wz]|]. rewrite fold_forth by (try exact Wz; apply in_seq0; unfold n; lia).
    unfold z. rewrite sub_unsub by (try assumption; unfold n; lia). apply xorl_back4; [exact W|apply key4; unfold n; lia].
  Qed.
End cipher.

(** ** the loops *)
Definition keys_are (rk : list Z) (m : nat) : Prop := length rk = (32 * m + 4)%nat /\ (1 <= m)%nat /\ Forall (is_word 32) rk.
Lemma Forall_skipn {A} (P : A -> Prop) n l : Forall P l -> Forall P (skipn n l).
Proof. intros F. rewrite <- (firstn_skipn n l) in F. now apply Forall_app in F. Qed.
Lemma slice_words4 rk i : (i + 4 <= length rk)%nat -> Forall (is_word 32) rk -> words4 (slice rk i 4).
Proof. intros L F. split; [rewrite length_slice; lia|]. unfold slice. now apply Forall_firstn, Forall_skipn. Qed.
Section loops.
  Variables (rk : list Z) (m : nat).
  Hypothesis HK : keys_are rk m.
  Notation ks := (chunks 4 rk).
  Lemma ks_len : length ks = (8 * m + 1)%nat. Proof. apply chunks_len; [lia|]. destruct HK as (L & _). lia. Qed.
  Lemma ks_words : Forall words4 ks.
  Proof.
    apply Forall_forall. intros k Hk. apply (In_nth _ _ []) in Hk. destruct Hk as (i & Hi & <-). rewrite ks_len in Hi. destruct HK as (L & _ & F). rewrite chunk_at by lia. apply slice_words4; [lia|exact F].
  Qed.
  Lemma key_in_ok i c x : c = (4 * i)%nat -> (i <= 8 * m)%nat -> key_in rk c x = Ok (xorl x (nth i ks [])).
  Proof. intros -> Hi. destruct HK as (L & _). unfold key_in. rewrite rd_ok by lia. cbn [bind]. rewrite chunk_at by lia. reflexivity. Qed.
  Lemma key_out_ok i c x : c = (4 * i + 4)%nat -> (i <= 8 * m)%nat -> key_out rk c x = Ok (xorl x (nth i ks [])).
  Proof. intros -> Hi. unfold key_out. destruct (Nat.leb_spec 4 (4 * i + 4)); [|lia]. cbn [safe bind]. apply key_in_ok; lia. Qed.
  Lemma mod8_of t c : (c < 8)%nat -> ((8 * t + c) mod 8 = c)%nat.
  Proof. intros Hc. rewrite Nat.add_comm, Nat.mul_comm, Nat.mod_add by lia. now apply Nat.mod_small. Qed.
  Lemma Sb_step t c x : (c < 8)%nat -> (t < m)%nat -> words4 x -> Sb c (xorl x (nth (8 * t + c) ks [])) = substituted ks (8 * t + c) x.
  Proof.
    intros Hc Ht W. unfold substituted. rewrite mod8_of by exact Hc. apply Sb_ok; [exact Hc|]. apply xorl_words4; [exact W|]. apply key4; [exact ks_words|rewrite ks_len; lia].
  Qed.
  Lemma LSb_step t c x : (c < 8)%nat -> (t < m)%nat -> words4 x -> LinearTransform (Sb c (xorl x (nth (8 * t + c) ks []))) = LT (substituted ks (8 * t + c) x).
  Proof. intros Hc Ht W. rewrite Sb_step by assumption. apply LT_ok, side_words. Qed.
  Lemma round_words t c x : words4 x -> words4 (LT (substituted ks (8 * t + c) x)). Proof. intros W. apply LT_words, side_words. Qed.
  Lemma enc_blocks_ok d : forall t fuel x, (t + S d = m)%nat -> (S d <= fuel)%nat -> words4 x ->
    enc_blocks fuel rk (32 * t) x = Ok (substituted ks (8 * m - 1) (fold_left (fun x i => LT (substituted ks i x)) (seq (8 * t) (8 * S d - 1)) x), (32 * m)%nat).
  Proof.
    induction d as [|d IH]; intros t fuel x Ht Hf W; (destruct fuel as [|fuel]; [lia|]); cbn [enc_blocks].
    all: rewrite (key_in_ok (8 * t + 0)) by lia; cbn [bind]; rewrite LSb_step by (assumption || lia); set (x1 := LT _); assert (W1 : words4 x1) by (now apply round_words).
    all: rewrite (key_in_ok (8 * t + 1)) by lia; cbn [bind]; rewrite LSb_step by (assumption || lia); set (x2 := LT (substituted _ _ x1)); assert (W2 : words4 x2) by (now apply round_words).
    all: rewrite (key_in_ok (8 * t + 2)) by lia; cbn [bind]; rewrite LSb_step by (assumption || lia); set (x3 := LT (substituted _ _ x2)); assert (W3 : words4 x3) by (now apply round_words).
    all: rewrite (key_in_ok (8 * t + 3)) by lia; cbn [bind]; rewrite LSb_step by (assumption || lia); set (x4 := LT (substituted _ _ x3)); assert (W4 : words4 x4) by (now apply round_words).
    all: rewrite (key_in_ok (8 * t + 4)) by lia; cbn [bind]; rewrite LSb_step by (assumption || lia); set (x5 := LT (substituted _ _ x4)); assert (W5 : words4 x5) by (now apply round_words).
    all: rewrite (key_in_ok (8 * t + 5)) by lia; cbn [bind]; rewrite LSb_step by (assumption || lia); set (x6 := LT (substituted _ _ x5)); assert (W6 : words4 x6) by (now apply round_words).
    all: rewrite (key_in_ok (8 * t + 6)) by lia; cbn [bind]; rewrite LSb_step by (assumption || lia); set (x7 := LT (substituted _ _ x6)); assert (W7 : words4 x7) by (now apply round_words).
    all: rewrite (key_in_ok (8 * t + 7)) by lia; cbn [bind]; rewrite Sb_step by (assumption || lia).
    all: assert (LK : (length rk - 4 = 32 * m)%nat) by (destruct HK as (L & _); lia); rewrite LK.
    all: assert (EX : x7 = fold_left (fun x i => LT (substituted ks i x)) (seq (8 * t) 7) x) by (cbn [seq fold_left]; unfold x7, x6, x5, x4, x3, x2, x1; repeat (f_equal; try lia)).
    - destruct (Nat.eqb_spec (32 * t + 32) (32 * m)); [|lia]. cbn [negb]. rewrite EX. do 2 f_equal; [|lia]. f_equal. lia.
    - destruct (Nat.eqb_spec (32 * t + 32) (32 * m)); [lia|]. cbn [negb]. rewrite LT_ok by apply side_words. replace (32 * t + 32)%nat with (32 * (t + 1))%nat by lia. rewrite IH by (try lia; apply LT_words, side_words).
      do 3 f_equal. replace (8 * S (S d) - 1)%nat with (7 + (1 + (8 * S d - 1)))%nat by lia. rewrite !seq_app, !fold_left_app, <- EX. cbn [seq fold_left]. do 2 f_equal. lia.
  Qed.
  Definition down (t : nat) (x : list Z) : list Z := fold_right (fun i x => unsubstituted ks i (LT_inv x)) (unsubstituted ks (8 * t - 1) x) (seq 0 (8 * t - 1)).
  Lemma Ib_step t c x : (c < 8)%nat -> words4 x -> xorl (Ib c x) (nth (8 * t + c) ks []) = unsubstituted ks (8 * t + c) x.
  Proof. intros Hc W. unfold unsubstituted. rewrite mod8_of by exact Hc. rewrite Ib_ok by assumption. reflexivity. Qed.
  Lemma uround_words i x : (i <= 8 * m)%nat -> words4 (LT_inv (unsubstituted ks i x)).
  Proof. intros Hi. apply LTi_words, unsub_words; [exact ks_words|rewrite ks_len; lia]. Qed.
  Lemma dec_blocks_ok : forall t fuel x, (S t <= m)%nat -> (S t <= fuel)%nat -> words4 x ->
    exists y, dec_blocks fuel rk (32 * S t) x = Ok (y, 4%nat) /\ xorl y (nth 0 ks []) = down (S t) x.
  Proof.
    assert (US : forall i x, (i <= 8 * m)%nat -> words4 (unsubstituted ks i x)) by (intros i x Hi; apply unsub_words; [exact ks_words|rewrite ks_len; lia]).
    induction t as [|t IH]; intros fuel x Ht Hf W; (destruct fuel as [|fuel]; [lia|]); cbn [dec_blocks].
    1: pose (T := 0%nat); change (32 * 1)%nat with (32 * S T)%nat; change 1%nat with (S T) in Ht, Hf. 2: set (T := S t) in *.
    all: replace (32 * S T - 4)%nat with (4 * (8 * T + 6) + 4)%nat by lia; replace (32 * S T - 8)%nat with (4 * (8 * T + 5) + 4)%nat by lia; replace (32 * S T - 12)%nat with (4 * (8 * T + 4) + 4)%nat by lia;
      replace (32 * S T - 16)%nat with (4 * (8 * T + 3) + 4)%nat by lia; replace (32 * S T - 20)%nat with (4 * (8 * T + 2) + 4)%nat by lia; replace (32 * S T - 24)%nat with (4 * (8 * T + 1) + 4)%nat by lia;
      replace (32 * S T - 28)%nat with (4 * (8 * T + 0) + 4)%nat by lia; replace (32 * S T)%nat with (4 * (8 * T + 7) + 4)%nat by lia.
    all: rewrite (key_out_ok (8 * T + 7)) by (try reflexivity; lia); cbn [bind]; rewrite Ib_step by (assumption || lia); rewrite LTi_ok by (apply US; lia); set (x1 := LT_inv _); assert (W1 : words4 x1) by (apply uround_words; lia).
    all: rewrite (key_out_ok (8 * T + 6)) by (try reflexivity; lia); cbn [bind]; rewrite Ib_step by (assumption || lia); rewrite LTi_ok by (apply US; lia); set (x2 := LT_inv (unsubstituted _ _ x1)); assert (W2 : words4 x2) by (apply uround_words; lia).
    all: rewrite (key_out_ok (8 * T + 5)) by (try reflexivity; lia); cbn [bind]; rewrite Ib_step by (assumption || lia); rewrite LTi_ok by (apply US; lia); set (x3 := LT_inv (unsubstituted _ _ x2)); assert (W3 : words4 x3) by (apply uround_words; lia).
    all: rewrite (key_out_ok (8 * T + 4)) by (try reflexivity; lia); cbn [bind]; rewrite Ib_step by (assumption || lia); rewrite LTi_ok by (apply US; lia); set (x4 := LT_inv (unsubstituted _ _ x3)); assert (W4 : words4 x4) by (apply uround_words; lia).
    all: rewrite (key_out_ok (8 * T + 3)) by (try reflexivity; lia); cbn [bind]; rewrite Ib_step by (assumption || lia); rewrite LTi_ok by (apply US; lia); set (x5 := LT_inv (unsubstituted _ _ x4)); assert (W5 : words4 x5) by (apply uround_words; lia).
    all: rewrite (key_out_ok (8 * T + 2)) by (try reflexivity; lia); cbn [bind]; rewrite Ib_step by (assumption || lia); rewrite LTi_ok by (apply US; lia); set (x6 := LT_inv (unsubstituted _ _ x5)); assert (W6 : words4 x6) by (apply uround_words; lia).
    all: rewrite (key_out_ok (8 * T + 1)) by (try reflexivity; lia); cbn [bind]; rewrite Ib_step by (assumption || lia); rewrite LTi_ok by (apply US; lia); set (x7 := LT_inv (unsubstituted _ _ x6)); assert (W7 : words4 x7) by (apply uround_words; lia).
    - destruct (Nat.eqb_spec (4 * (8 * T + 0) + 4) 4) as [_|N]; [|unfold T in N; lia]. cbn [negb]. exists (Ib 0 x7). split; [reflexivity|]. change (nth 0 ks []) with (nth (8 * T + 0) ks []). rewrite (Ib_step T 0) by (assumption || lia). reflexivity.
    - destruct (Nat.eqb_spec (4 * (8 * T + 0) + 4) 4) as [N|_]; [unfold T in N; lia|]. cbn [negb]. rewrite (key_out_ok (8 * T + 0)) by (try reflexivity; lia). cbn [bind]. rewrite Ib_step by (assumption || lia). rewrite LTi_ok by (apply US; lia).
      set (x8 := LT_inv (unsubstituted _ _ x7)). destruct (Nat.eqb_spec (4 * (8 * T + 0) + 4 - 4) 4) as [N|_]; [lia|]. cbn [negb]. replace (4 * (8 * T + 0) + 4 - 4)%nat with (32 * S t)%nat by (unfold T; lia).
      destruct (IH fuel x8) as (y & E & EY); [lia|lia|apply uround_words; lia|]. exists y. split; [exact E|]. rewrite EY. unfold down. replace (8 * S T - 1)%nat with ((8 * S t - 1) + 8)%nat by (unfold T; lia). rewrite seq_app, fold_right_app.
      f_equal. cbn [seq fold_right Nat.add]. unfold x8, x7, x6, x5, x4, x3, x2, x1. assert (E0 : (8 * S t - 1 = 8 * t + 7)%nat) by lia. rewrite E0. unfold T. repeat (f_equal; try lia).
  Qed.
End loops.
