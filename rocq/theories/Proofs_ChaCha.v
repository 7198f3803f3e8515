(** The permutations of ChaCha.h equal the block function of Spec_ChaCha. *)
From Verif Require Import BaseLemmas Model_IntegerTools Proofs_IntegerTools Model_Straight Model_ChaChaGen Model_ChaCha Spec_ChaCha Proofs_SHA2.
Open Scope Z_scope.

Definition qr_prog (p : quad nat * quad Z) : prog :=
  let '(i, j, k, l) := fst p in let '(r1, r2, r3, r4) := snd p in
  [(i, Ad (R i) (R j)); (l, RLo (Xo (R l) (R i)) r1); (k, Ad (R k) (R l)); (j, RLo (Xo (R j) (R k)) r2);
   (i, Ad (R i) (R j)); (l, RLo (Xo (R l) (R i)) r3); (k, Ad (R k) (R l)); (j, RLo (Xo (R j) (R k)) r4)].
Definition dr_prog (rots : list (quad Z)) : prog := concat (map qr_prog (combine lines rots)).
Definition load_prog : prog := combine (seq 0 16) (map R (seq 16 12 ++ [30; 31; 28; 29])%nat).
Definition out_prog (n : nat) : list (sx * nat) :=
  combine (map (fun p => Ad (R (fst p)) (R (snd p))) (combine (seq 0 16) (seq 16 12 ++ [30; 31; 28; 29])%nat)) (map (fun i => i * n)%nat (seq 0 16)).

Lemma chacha_U_text : chacha_U = load_prog ++ concat (repeat (dr_prog chacha_rots) 10). Proof. vm_compute. reflexivity. Qed.
Lemma chacha_U_out_text : chacha_U_out = out_prog 4. Proof. vm_compute. reflexivity. Qed.
Lemma chacha_C_text : chacha_C = dr_prog chacha_rots. Proof. vm_compute. reflexivity. Qed.
Lemma chacha_C_init_text : chacha_C_init = map snd load_prog. Proof. vm_compute. reflexivity. Qed.
Lemma chacha_C_out_text : chacha_C_out = out_prog 4. Proof. vm_compute. reflexivity. Qed.
Lemma csx_C_text : csx_C = dr_prog csx_rots. Proof. vm_compute. reflexivity. Qed.
Lemma csx_C_init_text : csx_C_init = map snd load_prog. Proof. vm_compute. reflexivity. Qed.
Lemma csx_C_out_text : csx_C_out = out_prog 8. Proof. vm_compute. reflexivity. Qed.

Lemma rotl_wrotl w x n : rotl w x n = wrotl w x n. Proof. reflexivity. Qed.
Lemma plus_wadd w a b : plus w a b = wadd w a b. Proof. reflexivity. Qed.
Ltac split16 s H := do 16 (destruct s as [|? s]; [cbn in H; lia|]).
Lemma qr_code w p s : In (fst p) lines -> (16 <= length s)%nat -> exec w (qr_prog p) s = on_words w s p.
Proof.
  destruct p as (q, (((r1, r2), r3), r4)). cbn [fst]. intros HI HL. split16 s HL. clear HL.
  unfold on_words, quarter_round. cbn [fst snd].
  unfold lines in HI. repeat (destruct HI as [<-|HI]; [cbv beta iota zeta delta [qr_prog fst snd exec fold_left exec1 ev upd nth plus rotl wadd wrotl wshl wshr]; reflexivity|]). destruct HI.
Qed.
Lemma on_words_len w X p : length (on_words w X p) = length X.
Proof. destruct p as ((((i, j), k), l), r). unfold on_words. cbn [fst snd]. destruct (quarter_round _ _ _) as (((a, b), c), d). now rewrite !length_upd. Qed.
Lemma upd_app1 (a b : list Z) i v : (i < length a)%nat -> upd (a ++ b) i v = upd a i v ++ b.
Proof. revert i. induction a as [|x a IH]; intros [|i] H; cbn in *; try lia; auto. f_equal. apply IH. lia. Qed.
Lemma on_words_app w X t p : In (fst p) lines -> length X = 16%nat -> on_words w (X ++ t) p = on_words w X p ++ t.
Proof.
  destruct p as (q, r). cbn [fst]. intros HI HL.
  assert (HQ : let '(i, j, k, l) := q in (i < 16 /\ j < 16 /\ k < 16 /\ l < 16)%nat).
  { unfold lines in HI. repeat (destruct HI as [<-|HI]; [lia|]). destruct HI. }
  destruct q as (((i, j), k), l). unfold on_words. cbn [fst snd]. rewrite !app_nth1 by lia.
  destruct (quarter_round _ _ _) as (((a, b), c), d). rewrite !upd_app1 by (rewrite ?length_upd; lia). reflexivity.
Qed.
Lemma double_round_len w rots X : length (double_round w rots X) = length X.
Proof. unfold double_round. generalize (combine lines rots). intros l. revert X. induction l as [|p l IH]; intros X; cbn [fold_left]; auto. now rewrite IH, on_words_len. Qed.
Lemma dr_code w rots X t : length X = 16%nat -> exec w (dr_prog rots) (X ++ t) = double_round w rots X ++ t.
Proof.
  intros H. unfold dr_prog, double_round.
  assert (HI : forall p, In p (combine lines rots) -> In (fst p) lines) by (intros (q, r) HI; apply in_combine_l in HI; exact HI).
  revert HI X H. generalize (combine lines rots). induction l as [|p l IH]; intros HI X H; [reflexivity|].
  cbn [map concat fold_left]. rewrite exec_app. rewrite qr_code; [|apply HI; now left|rewrite app_length; lia].
  rewrite on_words_app; [|apply HI; now left|exact H]. apply IH; [intros; apply HI; now right|now rewrite on_words_len].
Qed.
Lemma iter_out {A} (f : A -> A) n x : Nat.iter (S n) f x = f (Nat.iter n f x).
Proof. reflexivity. Qed.
Lemma iter_len w rots n X : length X = 16%nat -> length (Nat.iter n (double_round w rots) X) = 16%nat.
Proof. intros H. induction n as [|n IH]; [exact H|]. rewrite ?iter_out. now rewrite double_round_len. Qed.
Lemma iter_swap {A} (f : A -> A) n x : Nat.iter n f (f x) = f (Nat.iter n f x).
Proof. induction n as [|n IH]; [reflexivity|]. rewrite ?iter_out. f_equal. exact IH. Qed.
Lemma rounds_code w rots n : forall X t, length X = 16%nat -> exec w (concat (repeat (dr_prog rots) n)) (X ++ t) = Nat.iter n (double_round w rots) X ++ t.
Proof.
  induction n as [|n IH]; intros X t H; [reflexivity|]. cbn [repeat concat]. rewrite exec_app, dr_code by exact H. rewrite IH by (now rewrite double_round_len).
  f_equal. apply iter_swap.
Qed.
Lemma loop_code w rots n X t : length X = 16%nat -> Nat.iter n (exec w (dr_prog rots)) (X ++ t) = Nat.iter n (double_round w rots) X ++ t.
Proof. intros H. induction n as [|n IH]; [reflexivity|]. rewrite ?iter_out. rewrite IH. apply dr_code. now apply iter_len. Qed.
Lemma load_code w z st ctr : length z = 16%nat -> length st = 14%nat -> length ctr = 2%nat -> exec w load_prog (z ++ st ++ ctr) = input_words st ctr ++ st ++ ctr.
Proof.
  intros H1 H2 H3. split16 z H1. destruct z; [|discriminate H1]. do 14 (destruct st as [|? st]; [discriminate H2|]). destruct st; [|discriminate H2].
  destruct ctr as [|? [|? [|? ?]]]; try discriminate H3. reflexivity.
Qed.
Lemma init_code w st ctr : length st = 14%nat -> length ctr = 2%nat -> map (ev w (zeros 16 ++ st ++ ctr)) (map snd load_prog) = input_words st ctr.
Proof.
  intros H2 H3. do 14 (destruct st as [|? st]; [discriminate H2|]). destruct st; [|discriminate H2].
  destruct ctr as [|? [|? [|? ?]]]; try discriminate H3. reflexivity.
Qed.
Lemma input_len st ctr : length st = 14%nat -> length ctr = 2%nat -> length (input_words st ctr) = 16%nat.
Proof. intros H1 H2. unfold input_words. rewrite !app_length, firstn_length, skipn_length. lia. Qed.
(** the words stored *)
Lemma out_code w X st ctr : length X = 16%nat -> length st = 14%nat -> length ctr = 2%nat ->
  map (fun e => ev w (X ++ st ++ ctr) (fst e)) (out_prog (Z.to_nat (w / 8))) = map (fun p => plus w (fst p) (snd p)) (combine X (input_words st ctr)).
Proof.
  intros H1 H2 H3. unfold out_prog. generalize (Z.to_nat (w / 8)). intros n.
  split16 X H1. destruct X; [|discriminate H1]. do 14 (destruct st as [|? st]; [discriminate H2|]). destruct st; [|discriminate H2].
  destruct ctr as [|? [|? [|? ?]]]; try discriminate H3. reflexivity.
Qed.
(** consecutive stores write the concatenation *)
Lemma stores_ok n value l : forall a out oo, (oo + (a + length l) * n <= length out)%nat ->
  stores n value (combine l (map (fun i => (i * n)%nat) (seq a (length l)))) out oo = Ok (splice out (oo + a * n) (concat (map (fun e => le_bytes n (value e)) l))).
Proof.
  unfold stores. induction l as [|e l IH]; intros a out oo H; [cbn; now rewrite splice_nil|].
  cbn [length seq map combine fold_left bind fst snd concat]. unfold LeToBytes at 2. rewrite wr_ok by (rewrite length_le_bytes; cbn [length] in H; nia).
  assert (Hn : (oo + a * n + n <= length out)%nat) by (cbn [length] in H; nia).
  rewrite IH by (rewrite length_splice; rewrite ?length_le_bytes; cbn [length] in H; nia). f_equal.
  pose proof (splice_splice_next out (oo + a * n) (le_bytes n (value e)) (concat (map (fun e => le_bytes n (value e)) l))) as SS.
  rewrite length_le_bytes in SS. replace (oo + S a * n)%nat with (oo + a * n + n)%nat by lia. apply SS.
  assert (LC : length (concat (map (fun e => le_bytes n (value e)) l)) = (length l * n)%nat).
  { clear. induction l as [|e l IH]; [reflexivity|]. cbn [map concat length]. rewrite app_length, length_le_bytes, IH. lia. }
  rewrite LC. cbn [length] in H. nia.
Qed.
Lemma out_prog_stores n value X st ctr w out oo : length X = 16%nat -> length st = 14%nat -> length ctr = 2%nat -> n = Z.to_nat (w / 8) -> (oo + 16 * n <= length out)%nat ->
  (forall e, In e (map fst (out_prog n)) -> value e = ev w (X ++ st ++ ctr) e) ->
  stores n value (out_prog n) out oo = Ok (splice out oo (concat (map (le_bytes n) (map (fun p => plus w (fst p) (snd p)) (combine X (input_words st ctr)))))).
Proof.
  intros H1 H2 H3 Hn HO HV. rewrite <- (out_code w X st ctr) by auto. rewrite <- Hn. unfold out_prog at 1.
  set (es := map (fun p => Ad (R (fst p)) (R (snd p))) (combine (seq 0 16) (seq 16 12 ++ [30; 31; 28; 29])%nat)).
  assert (LE : length es = 16%nat) by reflexivity.
  pose proof (stores_ok n value es 0 out oo) as S. rewrite LE in S. rewrite S by lia. rewrite Nat.mul_0_l, Nat.add_0_r. f_equal. f_equal. f_equal. rewrite map_map.
  assert (ME : map fst (out_prog n) = es) by reflexivity. rewrite ME in HV.
  assert (MM : map (fun x => le_bytes n (ev w (X ++ st ++ ctr) (fst x))) (out_prog n) = map (fun e => le_bytes n (ev w (X ++ st ++ ctr) e)) es) by (rewrite <- ME, map_map; reflexivity).
  rewrite MM. apply map_ext_in. intros e He. now rewrite HV.
Qed.

(** * the three permutations *)
Definition block_of (w : Z) (rots : list (quad Z)) (n : nat) (st ctr : list Z) : list Z :=
  concat (map (le_bytes (Z.to_nat (w / 8))) (block_words w rots n (input_words st ctr))).
Lemma U_ok st ctr out oo : length st = 14%nat -> length ctr = 2%nat -> (oo + 64 <= length out)%nat ->
  PermuteR20P512U out oo ctr st = Ok (splice out oo (block_of 32 chacha_rots 10 st ctr)).
Proof.
  intros H1 H2 HO. unfold PermuteR20P512U. cbv zeta. rewrite chacha_U_text, chacha_U_out_text, exec_app.
  rewrite load_code by (auto; reflexivity). rewrite rounds_code by (now apply input_len).
  unfold block_of, block_words. pose proof (iter_len 32 chacha_rots 10 _ (input_len st ctr H1 H2)) as LX.
  generalize dependent (Nat.iter 10 (double_round 32 chacha_rots) (input_words st ctr)). intros X LX.
  apply (out_prog_stores 4 _ X st ctr 32 out oo LX H1 H2 eq_refl HO). reflexivity.
Qed.
Lemma csx_ok rounds st ctr out oo : Nat.even rounds = true -> length st = 14%nat -> length ctr = 2%nat -> (oo + 128 <= length out)%nat ->
  PermuteP1024C out oo ctr st rounds = Ok (splice out oo (block_of 64 csx_rots (rounds / 2) st ctr)).
Proof.
  intros He H1 H2 HO. unfold PermuteP1024C. rewrite He. cbn [safe bind]. cbv zeta. rewrite csx_C_text, csx_C_out_text, csx_C_init_text.
  rewrite init_code by auto. rewrite loop_code by (now apply input_len).
  unfold block_of, block_words. pose proof (iter_len 64 csx_rots (rounds / 2) _ (input_len st ctr H1 H2)) as LX.
  generalize dependent (Nat.iter (rounds / 2) (double_round 64 csx_rots) (input_words st ctr)). intros X LX.
  apply (out_prog_stores 8 _ X st ctr 64 out oo LX H1 H2 eq_refl HO). reflexivity.
Qed.

(** the mixed-width form: congruence modulo 2^32 *)
Fixpoint plain (e : sx) : bool :=
  match e with
  | R _ => true | Ad a b => plain a && plain b | Xo a b => plain a && plain b | RLo a n => plain a && (0 <=? n) && (n <=? 32)
  | _ => false
  end.
Lemma u32_lxor a b : u32 (Z.lxor a b) = Z.lxor (u32 a) (u32 b).
Proof. unfold u32. rewrite <- !Z.land_ones by lia. apply Z.bits_inj'. intros n Hn. rewrite !Z.land_spec, !Z.lxor_spec, !Z.land_spec. destruct (Z.testbit a n), (Z.testbit b n), (Z.testbit (Z.ones 32) n); reflexivity. Qed.
Lemma nth_map_u32 s r : nth r (map u32 s) 0 = u32 (nth r s 0).
Proof. change 0 with (u32 0) at 1. apply map_nth. Qed.
Lemma u32_wrotl x n : 0 <= x < 2 ^ 32 -> 0 <= n <= 32 -> u32 (wrotl 32 x n) = wrotl 32 x n.
Proof.
  intros Hx Hn. unfold u32. apply Z.mod_small. unfold wrotl, wshl, wshr. apply (lor_range 32).
  - lia.
  - apply Z.mod_pos_bound. lia.
  - rewrite Z.shiftr_div_pow2 by lia. split; [apply Z.div_pos; lia|]. apply Z.le_lt_trans with x; [|lia]. apply Z.div_le_upper_bound; [lia|]. assert (1 <= 2 ^ (32 - n)) by (apply (Z.pow_le_mono_r 2 0); lia). nia.
Qed.
Lemma mixed_ev s e : plain e = true -> u32 (ev_mixed s e) = ev 32 (map u32 s) e.
Proof.
  induction e; intros HP; cbn [plain] in HP; try discriminate; cbn [ev_mixed ev].
  - now rewrite nth_map_u32.
  - apply andb_true_iff in HP. destruct HP as [P1 P2]. rewrite <- IHe1, <- IHe2 by auto. unfold wadd, u32. rewrite <- Zplus_mod. 
    change (2 ^ 64) with (2 ^ 32 * 2 ^ 32). rewrite Z.rem_mul_r by lia. rewrite (Z.mul_comm (2 ^ 32) (_ mod _)), Z.mod_add by lia. now rewrite Z.mod_mod by lia.
  - apply andb_true_iff in HP. destruct HP as [P1 P2]. rewrite <- IHe1, <- IHe2 by auto. apply u32_lxor.
  - apply andb_true_iff in HP. destruct HP as [HP P3]. apply andb_true_iff in HP. destruct HP as [P1 P2]. rewrite <- IHe by auto. apply u32_wrotl; [unfold u32; apply Z.mod_pos_bound; lia|lia].
Qed.
Lemma map_upd (f : Z -> Z) l i v : map f (upd l i v) = upd (map f l) i (f v).
Proof. revert i. induction l as [|x l IH]; intros [|i]; cbn; auto. f_equal. apply IH. Qed.
Lemma mixed_exec p : forall s, forallb plain (map snd p) = true -> map u32 (exec_mixed p s) = exec 32 p (map u32 s).
Proof.
  induction p as [|(r, e) p IH]; intros s HP; [reflexivity|]. cbn [map forallb snd] in HP. apply andb_true_iff in HP. destruct HP as [P1 P2].
  unfold exec_mixed, exec in *. cbn [fold_left fst snd exec1]. rewrite IH by exact P2. f_equal. rewrite map_upd. unfold exec1. cbn [fst snd]. f_equal. now apply mixed_ev.
Qed.
Lemma plain_dr : forallb plain (map snd chacha_C) = true. Proof. vm_compute. reflexivity. Qed.
Lemma plain_out e : In e (map fst (out_prog 4)) -> plain e = true.
Proof. intros H. assert (A : forallb plain (map fst (out_prog 4)) = true) by (vm_compute; reflexivity). rewrite forallb_forall in A. now apply A. Qed.
Lemma map_u32_id l : Forall (is_word 32) l -> map u32 l = l.
Proof. induction 1 as [|x l Hx _ IH]; [reflexivity|]. cbn. rewrite IH. f_equal. unfold u32. apply Z.mod_small. exact Hx. Qed.
Lemma compact_ok rounds st ctr out oo : Nat.even rounds = true -> Forall (is_word 32) st -> Forall (is_word 32) ctr -> length st = 14%nat -> length ctr = 2%nat -> (oo + 64 <= length out)%nat ->
  PermuteP512C out oo ctr st rounds = Ok (splice out oo (block_of 32 chacha_rots (rounds / 2) st ctr)).
Proof.
  intros He Ws Wc H1 H2 HO. unfold PermuteP512C. rewrite He. cbn [safe bind]. cbv zeta.
  set (X0 := map (ev_mixed (zeros 16 ++ st ++ ctr)) chacha_C_init).
  assert (E0 : map u32 (X0 ++ st ++ ctr) = input_words st ctr ++ st ++ ctr).
  { rewrite !map_app, (map_u32_id st), (map_u32_id ctr) by auto. f_equal. unfold X0. rewrite chacha_C_init_text.
    rewrite <- (init_code 32 st ctr) by auto. rewrite map_map. apply map_ext_in. intros e He'.
    rewrite mixed_ev.
    - f_equal. rewrite !map_app, (map_u32_id st), (map_u32_id ctr) by auto. reflexivity.
    - assert (A : forallb plain (map snd load_prog) = true) by (vm_compute; reflexivity). rewrite forallb_forall in A. now apply A. }
  set (S0 := X0 ++ st ++ ctr) in *.
  assert (E1 : forall n, map u32 (Nat.iter n (exec_mixed chacha_C) S0) = Nat.iter n (double_round 32 chacha_rots) (input_words st ctr) ++ st ++ ctr).
  { induction n as [|n IH]; [exact E0|]. rewrite ?iter_out. rewrite mixed_exec by apply plain_dr. rewrite IH, chacha_C_text. apply dr_code. apply iter_len. now apply input_len. }
  rewrite chacha_C_out_text.
  specialize (E1 (rounds / 2)%nat). unfold block_of, block_words. pose proof (iter_len 32 chacha_rots (rounds / 2) _ (input_len st ctr H1 H2)) as LX.
  generalize dependent (Nat.iter (rounds / 2) (double_round 32 chacha_rots) (input_words st ctr)). intros X E1 LX.
  apply (out_prog_stores 4 _ X st ctr 32 out oo LX H1 H2 eq_refl HO).
  intros e HE. cbv beta. rewrite mixed_ev by now apply plain_out. now rewrite E1.
Qed.
