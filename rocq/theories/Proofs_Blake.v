(** The block functions of Blake.h equal the compression function of Spec_Blake. *)
From Verif Require Import BaseLemmas Model_IntegerTools Proofs_IntegerTools Model_Straight Model_BlakeGen Model_Blake Spec_ChaCha Spec_SHA2 Spec_Blake Proofs_SHA2 Proofs_SHA2obj Proofs_ChaCha Proofs_Block.
Open Scope Z_scope.

Definition g_prog (w : Z) (rot : quad Z) (p : quad nat * (nat * nat)) : prog :=
  let '(i, j, k, l) := fst p in let '(r1, r2, r3, r4) := rot in let '(x, y) := snd p in
  [(i, Ad (R i) (Ad (R j) (R (16 + x)))); (l, Xo (R l) (R i)); (l, Or (SR (R l) r1) (SL (R l) (w - r1)));
   (k, Ad (R k) (R l)); (j, Xo (R j) (R k)); (j, Or (SR (R j) r2) (SL (R j) (w - r2)));
   (i, Ad (R i) (Ad (R j) (R (16 + y)))); (l, Xo (R l) (R i)); (l, Or (SR (R l) r3) (SL (R l) (w - r3)));
   (k, Ad (R k) (R l)); (j, Xo (R j) (R k)); (j, Or (SR (R j) r4) (SL (R j) (w - r4)))].
Definition round_prog (w : Z) (rot : quad Z) (s : list nat) : prog := concat (map (g_prog w rot) (combine blake_lines (pairs s))).
Definition rounds_prog (w : Z) (rot : quad Z) (n : nat) : prog := concat (map (fun i => round_prog w rot (nth (i mod 10) sigma [])) (seq 0 n)).
Definition b_load : prog := combine (seq 16 16 ++ seq 0 16) (map R (seq 48 16 ++ seq 32 16)).
Definition b_fin : prog := map (fun i => ((32 + i)%nat, Xo (R (32 + i)) (Xo (R i) (R (8 + i))))) (seq 0 8).

Lemma blake256_U_text : blake256_U = b_load ++ rounds_prog 32 (16, 12, 8, 7) 10 ++ b_fin. Proof. vm_compute. reflexivity. Qed.
Lemma blake512_U_text : blake512_U = b_load ++ rounds_prog 64 (32, 24, 16, 63) 12 ++ b_fin. Proof. vm_compute. reflexivity. Qed.
Lemma blake256_C_text : blake256_C = round_prog 32 (16, 12, 8, 7) (seq 0 16). Proof. vm_compute. reflexivity. Qed.
Lemma blake512_C_text : blake512_C = round_prog 64 (32, 24, 16, 63) (seq 0 16). Proof. vm_compute. reflexivity. Qed.
Lemma blake256_C_fin_text : blake256_C_fin = b_fin. Proof. vm_compute. reflexivity. Qed.
Lemma blake512_C_fin_text : blake512_C_fin = b_fin. Proof. vm_compute. reflexivity. Qed.
Lemma iv256_text : IV256 = H256. Proof. vm_compute. reflexivity. Qed.
Lemma iv512_text : IV512 = H512. Proof. vm_compute. reflexivity. Qed.
Lemma sigma256_text : Sigma256 = concat (map (fun i => nth (i mod 10) sigma []) (seq 0 12)). Proof. vm_compute. reflexivity. Qed.
Lemma sigma512_text : Sigma512 = concat (map (fun i => nth (i mod 10) sigma []) (seq 0 12)). Proof. vm_compute. reflexivity. Qed.

(** the mixing function with the additions grouped as in the code *)
Definition mixc (w : Z) (rot : quad Z) (v : quad Z) (x y : Z) : quad Z :=
  let '(a, b, c, d) := v in let '(r1, r2, r3, r4) := rot in
  let a := wadd w a (wadd w b x) in let d := ROTR w r1 (Z.lxor d a) in
  let c := wadd w c d in let b := ROTR w r2 (Z.lxor b c) in
  let a := wadd w a (wadd w b y) in let d := ROTR w r3 (Z.lxor d a) in
  let c := wadd w c d in let b := ROTR w r4 (Z.lxor b c) in
  (a, b, c, d).
Lemma wadd3 w a b c : wadd w a (wadd w b c) = (a + b + c) mod 2 ^ w.
Proof. unfold wadd. rewrite Zplus_mod_idemp_r. f_equal. lia. Qed.
Lemma mixc_mix w rot v x y : mixc w rot v x y = mix w rot v x y.
Proof. destruct v as (((a, b), c), d), rot as (((r1, r2), r3), r4). unfold mixc, mix. rewrite !wadd3. reflexivity. Qed.
Lemma g_code w rot p v t : In (fst p) blake_lines -> length v = 16%nat -> exec w (g_prog w rot p) (v ++ t) = mix_at w rot t v p ++ t.
Proof.
  destruct p as (q, (x, y)), rot as (((r1, r2), r3), r4). cbn [fst]. intros HI HL. split16 v HL. destruct v; [|discriminate HL]. clear HL.
  unfold mix_at. cbn [fst snd].
  unfold blake_lines in HI. repeat (destruct HI as [<-|HI]; [rewrite <- mixc_mix; unfold mixc; cbv beta iota zeta delta [g_prog fst snd exec fold_left exec1 ev upd nth app Nat.add wadd wshl wshr ROTR]; reflexivity|]). destruct HI.
Qed.
Lemma mix_at_len w rot t v p : length (mix_at w rot t v p) = length v.
Proof. destruct p as ((((i, j), k), l), r). unfold mix_at. cbn [fst snd]. destruct (mix _ _ _ _ _) as (((a, b), c), d). now rewrite !length_upd. Qed.
Lemma fold_mix_len w rot t l : forall v, length (fold_left (mix_at w rot t) l v) = length v.
Proof. induction l as [|p l IH]; intros v; cbn [fold_left]; auto. now rewrite IH, mix_at_len. Qed.
Lemma round_len w rot t v s : length (blake_round w rot t v s) = length v. Proof. apply fold_mix_len. Qed.
Lemma round_code w rot s v t : length v = 16%nat -> exec w (round_prog w rot s) (v ++ t) = blake_round w rot t v s ++ t.
Proof.
  intros H. unfold round_prog, blake_round.
  assert (HI : forall p, In p (combine blake_lines (pairs s)) -> In (fst p) blake_lines) by (intros (q, r) HI; apply in_combine_l in HI; exact HI).
  revert HI v H. generalize (combine blake_lines (pairs s)). induction l as [|p l IH]; intros HI v H; [reflexivity|].
  cbn [map concat fold_left]. rewrite exec_app. rewrite g_code; [|apply HI; now left|exact H].
  apply IH; [intros; apply HI; now right|now rewrite mix_at_len].
Qed.
(** only the first sixteen words of the tail count *)
Lemma mix_at_ext w rot t t' v p : nth (fst (snd p)) t 0 = nth (fst (snd p)) t' 0 -> nth (snd (snd p)) t 0 = nth (snd (snd p)) t' 0 -> mix_at w rot t v p = mix_at w rot t' v p.
Proof. intros A B. unfold mix_at. now rewrite A, B. Qed.
Lemma fold_mix_ext w rot t t' l : (forall p, In p l -> nth (fst (snd p)) t 0 = nth (fst (snd p)) t' 0 /\ nth (snd (snd p)) t 0 = nth (snd (snd p)) t' 0) ->
  forall v, fold_left (mix_at w rot t) l v = fold_left (mix_at w rot t') l v.
Proof.
  induction l as [|p l IH]; intros H v; [reflexivity|]. cbn [fold_left]. rewrite (mix_at_ext w rot t t' v p) by (apply H; now left).
  apply IH. intros q Hq. apply H. now right.
Qed.
Lemma pairs_in s : forall p, In p (pairs s) -> In (fst p) s /\ In (snd p) s.
Proof.
  assert (G : forall n s, (length s <= n)%nat -> forall p, In p (pairs s) -> In (fst p) s /\ In (snd p) s).
  { induction n as [|n IH]; intros l HL p HI; [destruct l; [destruct HI|cbn in HL; lia]|].
    destruct l as [|a [|b l]]; try (destruct HI; fail). cbn [pairs] in HI. destruct HI as [<-|HI]; [cbn; auto|].
    destruct (IH l ltac:(cbn in HL; lia) p HI). cbn. auto. }
  apply (G (length s)). lia.
Qed.
Lemma round_ext w rot t t' v s : (forall k, In k s -> nth k t 0 = nth k t' 0) -> blake_round w rot t v s = blake_round w rot t' v s.
Proof.
  intros H. apply fold_mix_ext. intros (q, r) HI. apply in_combine_r in HI. cbn [snd]. apply pairs_in in HI. destruct HI. split; apply H; auto.
Qed.
Lemma sigma_small i k : In k (nth (i mod 10) sigma []) -> (k < 16)%nat.
Proof.
  assert (G : forallb (fun s => forallb (fun k => (k <? 16)%nat) s) sigma = true) by reflexivity.
  intros H. assert (L : (i mod 10 < length sigma)%nat) by (change (length sigma) with 10%nat; apply Nat.mod_upper_bound; lia).
  pose proof (nth_In sigma [] L) as HI. rewrite forallb_forall in G. specialize (G _ HI). rewrite forallb_forall in G. specialize (G _ H). now apply Nat.ltb_lt in G.
Qed.
Definition all_rounds (w : Z) (rot : quad Z) (m : list Z) (n : nat) (v : list Z) : list Z :=
  fold_left (fun v i => blake_round w rot m v (nth (i mod 10) sigma [])) (seq 0 n) v.
Lemma all_rounds_len w rot m n v : length (all_rounds w rot m n v) = length v.
Proof. unfold all_rounds. generalize (seq 0 n). intros l. revert v. induction l as [|i l IH]; intros v; cbn [fold_left]; auto. now rewrite IH, round_len. Qed.
Lemma rounds_code w rot n m rest v : length v = 16%nat -> length m = 16%nat -> exec w (rounds_prog w rot n) (v ++ m ++ rest) = all_rounds w rot m n v ++ m ++ rest.
Proof.
  intros H Hm. unfold rounds_prog, all_rounds. generalize (seq 0 n). intros l. revert v H. induction l as [|i l IH]; intros v H; [reflexivity|].
  cbn [map concat fold_left]. rewrite exec_app, round_code by exact H.
  rewrite (round_ext w rot (m ++ rest) m) by (intros k Hk; apply sigma_small in Hk; apply app_nth1; lia). apply IH. now rewrite round_len.
Qed.
Ltac split8 s H := do 8 (destruct s as [|? s]; [cbn in H; lia|]); destruct s; [|discriminate H].
Lemma load_code w h iv m : length h = 8%nat -> length iv = 8%nat -> length m = 16%nat -> exec w b_load (zeros 32 ++ h ++ iv ++ m) = (h ++ iv) ++ m ++ h ++ iv ++ m.
Proof. intros A B C. split8 h A. split8 iv B. split16 m C. destruct m; [|discriminate C]. reflexivity. Qed.
Lemma fin_code w v m h rest : length v = 16%nat -> length m = 16%nat -> length h = 8%nat ->
  slice (exec w b_fin (v ++ m ++ h ++ rest)) 32 8 = xorl (xorl h (firstn 8 v)) (skipn 8 v).
Proof.
  intros A B C. split16 v A. destruct v; [|discriminate A]. split16 m B. destruct m; [|discriminate B]. split8 h C.
  cbv beta iota zeta delta [b_fin map seq exec fold_left exec1 ev upd nth app Nat.add fst snd slice firstn skipn xorl]. rewrite !Z.lxor_assoc. reflexivity.
Qed.

(** the loaded words *)
Lemma load_le_ok size count inp io : (0 < size)%nat -> (io + size * count <= length inp)%nat -> load_le size count inp io = Ok (le_words size (slice inp io (size * count))).
Proof.
  intros Hs. unfold load_le, le_words.
  assert (G : forall c, (io + size * c <= length inp)%nat -> for_up 0 c (fun i ws => x <- LeBytesTo size inp (io + size * i) ;; Ok (ws ++ [x])) [] = Ok (map le_val (chunks size (slice inp io (size * c))))).
  { induction c as [|c IH]; intros H.
    - cbn [for_up]. rewrite Nat.mul_0_r. reflexivity.
    - replace (S c) with (c + 1)%nat by lia. rewrite for_up_split, IH by lia. cbn [bind for_up]. rewrite Nat.add_0_l.
      rewrite LeBytesTo_correct by lia. cbn [bind]. f_equal.
      replace (size * (c + 1))%nat with (size * c + size)%nat by lia. rewrite slice_app. rewrite (chunks_app_many size Hs c) by (rewrite length_slice; lia).
      rewrite map_app. f_equal. rewrite chunk1; [reflexivity|lia|rewrite length_slice; lia]. }
  apply G.
Qed.
Lemma le_words_len size k l : (0 < size)%nat -> length l = (size * k)%nat -> length (le_words size l) = k.
Proof.
  intros Hs. unfold le_words. rewrite map_length. revert l. induction k as [|k IH]; intros l H; [destruct l; [reflexivity|cbn [length] in H; lia]|].
  rewrite <- (firstn_skipn size l). rewrite chunks_app by (rewrite ?firstn_length; lia). cbn [length]. f_equal. apply IH. rewrite skipn_length. lia.
Qed.
(** the initial working vector of the code *)
Definition code_iv (iv : list Z) (T F : list Z) : list Z := xorl iv [0; 0; 0; 0; nth 0 T 0; nth 1 T 0; nth 0 F 0; nth 1 F 0].
Definition F_of (w : Z) (rounds : nat) (rot : quad Z) (h iv m : list Z) : list Z :=
  let v := all_rounds w rot m rounds (h ++ iv) in xorl (xorl h (firstn 8 v)) (skipn 8 v).
Lemma pairs_map (f : nat -> nat) l : pairs (map f l) = map (fun p => (f (fst p), f (snd p))) (pairs l).
Proof.
  assert (G : forall n l, (length l <= n)%nat -> pairs (map f l) = map (fun p => (f (fst p), f (snd p))) (pairs l)).
  { induction n as [|n IH]; intros l' HL; [destruct l'; [reflexivity|cbn in HL; lia]|].
    destruct l' as [|a [|b l']]; try reflexivity. cbn [map pairs]. f_equal. apply IH. cbn in HL. lia. }
  apply (G (length l)). lia.
Qed.
Lemma sigma_row i : length (nth (i mod 10) sigma []) = 16%nat.
Proof.
  assert (G : forallb (fun s => (length s =? 16)%nat) sigma = true) by reflexivity.
  assert (L : (i mod 10 < length sigma)%nat) by (change (length sigma) with 10%nat; apply Nat.mod_upper_bound; lia).
  pose proof (nth_In sigma [] L) as HI. rewrite forallb_forall in G. specialize (G _ HI). now apply Nat.eqb_eq in G.
Qed.
Section U.
Context (w : Z) (size rounds : nat) (rot : quad Z) (code : prog) (Hs : (0 < size)%nat).
Hypothesis text : code = b_load ++ rounds_prog w rot rounds ++ b_fin.
Lemma U_code inp io h iv : length h = 8%nat -> length iv = 8%nat -> (io + 16 * size <= length inp)%nat ->
  permute_U w size code inp io h iv = Ok (F_of w rounds rot h iv (le_words size (slice inp io (16 * size)))).
Proof.
  intros H1 H2 H3. unfold permute_U. rewrite load_le_ok by lia. cbn [bind]. f_equal. rewrite (Nat.mul_comm size 16).
  set (m := le_words size _). assert (Lm : length m = 16%nat) by (apply le_words_len; [exact Hs|rewrite length_slice; lia]).
  rewrite text, !exec_app, load_code by auto. rewrite rounds_code by (rewrite ?app_length; lia).
  unfold F_of. cbv zeta. apply fin_code; auto. rewrite all_rounds_len, app_length. lia.
Qed.
Context (sig : list nat) (body fin : prog).
Hypothesis btext : body = round_prog w rot (seq 0 16).
Hypothesis ftext : fin = b_fin.
Hypothesis stext : sig = concat (map (fun i => nth (i mod 10) sigma []) (seq 0 12)).
Hypothesis Hr : (rounds <= 12)%nat.
Lemma sig_nth i k : (i < 12)%nat -> (k < 16)%nat -> nth (i * 16 + k) sig 0%nat = nth k (nth (i mod 10) sigma []) 0%nat.
Proof.
  clear - stext. intros Hi Hk. rewrite stext. clear stext.
  do 12 (destruct i as [|i]; [do 16 (destruct k as [|k]; [reflexivity|]); lia|]). lia.
Qed.
Lemma fold_mix_perm m m' (f : nat -> nat) (ls : list (quad nat)) (ps : list (nat * nat)) :
  (forall p, In p ps -> nth (fst p) m' 0 = nth (f (fst p)) m 0 /\ nth (snd p) m' 0 = nth (f (snd p)) m 0) ->
  forall v, fold_left (mix_at w rot m') (combine ls ps) v = fold_left (mix_at w rot m) (combine ls (map (fun p => (f (fst p), f (snd p))) ps)) v.
Proof.
  clear. revert ls. induction ps as [|p ps IH]; intros [|q ls] H v; try reflexivity. cbn [map combine fold_left].
  destruct (H p (or_introl eq_refl)) as (A & B).
  assert (E : mix_at w rot m' v (q, p) = mix_at w rot m v (q, (f (fst p), f (snd p)))) by (unfold mix_at; cbn [fst snd]; now rewrite A, B).
  rewrite E. apply IH. intros p' Hp. apply H. now right.
Qed.
Lemma round_perm m s v : length s = 16%nat -> (forall k, In k s -> (k < 16)%nat) ->
  blake_round w rot (map (fun k => nth (nth k s 0%nat) m 0) (seq 0 16)) v (seq 0 16) = blake_round w rot m v s.
Proof.
  clear. intros L HS. unfold blake_round.
  assert (E : s = map (fun k => nth k s 0%nat) (seq 0 16)).
  { apply nth_ext with (d := 0%nat) (d' := nth 0 s 0%nat); [now rewrite map_length, seq_length|]. intros i Hi. rewrite (map_nth (fun k => nth k s 0%nat) (seq 0 16) 0%nat i). rewrite seq_nth by lia. reflexivity. }
  replace (pairs s) with (pairs (map (fun k => nth k s 0%nat) (seq 0 16))) by (now rewrite <- E). rewrite pairs_map. apply (fold_mix_perm m _ (fun k => nth k s 0%nat)). intros p Hp. apply pairs_in in Hp. destruct Hp as (A & B). apply in_seq in A, B.
  assert (G : forall j, (j < 16)%nat -> nth j (map (fun k => nth (nth k s 0%nat) m 0) (seq 0 16)) 0 = nth (nth j s 0%nat) m 0).
  { intros j Hj. rewrite nth_indep with (d' := (fun k => nth (nth k s 0%nat) m 0) 0%nat) by (rewrite map_length, seq_length; lia).
    rewrite (map_nth (fun k => nth (nth k s 0%nat) m 0)). now rewrite seq_nth by lia. }
  split; apply G; lia.
Qed.
Lemma C_code inp io h iv : length h = 8%nat -> length iv = 8%nat -> (io + 16 * size <= length inp)%nat ->
  permute_C w size rounds sig body fin inp io h iv = Ok (F_of w rounds rot h iv (le_words size (slice inp io (16 * size)))).
Proof.
  intros H1 H2 H3. unfold permute_C. rewrite load_le_ok by lia. cbn [bind]. cbv zeta. f_equal. rewrite (Nat.mul_comm size 16).
  set (m := le_words size _). assert (Lm : length m = 16%nat) by (apply le_words_len; [exact Hs|rewrite length_slice; lia]).
  rewrite ftext. unfold F_of. cbv zeta.
  set (v1 := fold_left _ _ _).
  assert (E : v1 = all_rounds w rot m rounds (h ++ iv)).
  { unfold v1, all_rounds. assert (HB : forall i, In i (seq 0 rounds) -> (i < 12)%nat) by (intros i Hi; apply in_seq in Hi; lia).
    assert (HV : length (h ++ iv) = 16%nat) by (rewrite app_length; lia).
    revert HB HV. generalize (h ++ iv), (seq 0 rounds). intros v l. revert v. induction l as [|i l IH]; intros v HB HV; [reflexivity|]. cbn [fold_left].
    assert (E : firstn 16 (exec w body (v ++ map (fun k => nth (nth (i * 16 + k) sig 0%nat) m 0) (seq 0 16))) = blake_round w rot m v (nth (i mod 10) sigma [])).
    { rewrite btext, round_code by exact HV. rewrite firstn_app, round_len, HV, Nat.sub_diag, firstn_O, app_nil_r, firstn_all2 by (rewrite round_len; lia).
      rewrite <- (round_perm m (nth (i mod 10) sigma []) v); [|apply sigma_row|intros k Hk; now apply sigma_small in Hk].
      f_equal. apply map_ext_in. intros k Hk. apply in_seq in Hk. rewrite sig_nth by (try lia; apply HB; now left). reflexivity. }
    rewrite E. apply IH; [intros j Hj; apply HB; now right|now rewrite round_len]. }
  rewrite E. pose proof (fin_code w (all_rounds w rot m rounds (h ++ iv)) m h []) as FC. rewrite app_nil_r in FC. apply FC; auto. rewrite all_rounds_len, app_length. lia.
Qed.
End U.
