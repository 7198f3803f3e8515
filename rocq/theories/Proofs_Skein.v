(** The sequential Skein objects: every call history. *)
From Verif Require Import BaseLemmas Spec_Common Proofs_Common Spec_Feed Session_Digest Proofs_Digest Model_IntegerTools Proofs_IntegerTools Model_Modes Proofs_Windows
  Model_Absorb Proofs_Absorb Model_Keccak Proofs_SHA3 Model_CSX Proofs_CSX Spec_ChaCha Spec_Threefish Proofs_Threefish2 Model_Threefish Spec_Skein Model_SHA2Par Model_Skein.
Open Scope Z_scope.

Lemma threefish_len F r key tw v : length (f_pi F) = f_n F -> length v = f_n F -> length (threefish F r key tw v) = f_n F.
Proof. intros HP H. unfold threefish, tf_encrypt. rewrite add_words_len; [now apply fold_round_len|]. rewrite subkey_len. symmetry. now apply fold_round_len. Qed.

(** * the tweak *)
Definition bitz (b : bool) (x : Z) : Z := if b then x else 0.
Definition tw (ty : Z) (f l : bool) (t : Z) : list Z := [t mod 2 ^ 64; ty * 2 ^ 56 + bitz f (2 ^ 62) + bitz l (2 ^ 63)].
Lemma tweak_is ty f l t : tweak (2 ^ 64) ty f l t = tw ty f l t.
Proof.
  unfold tweak, tw. cbv zeta. pose proof (Z.mod_pos_bound t (2 ^ 64) eq_refl) as R.
  replace (t mod 2 ^ 64 + ty * 2 ^ 120 + (if f then 2 ^ 126 else 0) + (if l then 2 ^ 127 else 0)) with (t mod 2 ^ 64 + (ty * 2 ^ 56 + bitz f (2 ^ 62) + bitz l (2 ^ 63)) * 2 ^ 64) by (destruct f, l; unfold bitz; ring).
  rewrite Z_mod_plus_full, Z.mod_mod by discriminate. rewrite Z_div_plus_full by discriminate. rewrite Zdiv_small by exact R. now rewrite Z.add_0_l.
Qed.
Definition uty (ty : Z) : Prop := ty = 4 \/ ty = 48 \/ ty = 63.
Lemma Increase_tw ty f l t k : Increase (tw ty f l t) k = tw ty f l (t + Z.of_nat k).
Proof. unfold Increase, tw. cbn [nth]. unfold u64. now rewrite Zplus_mod_idemp_l. Qed.
Lemma SetFinal_tw ty f l t : uty ty -> SetFinal (tw ty f l t) = tw ty f true t.
Proof. intros [->|[->| ->]]; destruct f, l; reflexivity. Qed.
Lemma SetFirst_tw ty f l t v : uty ty -> SetFirst (tw ty f l t) v = tw ty v l t.
Proof. intros [->|[->| ->]]; destruct f, l, v; reflexivity. Qed.
Lemma IsFirst_tw ty f l t : uty ty -> IsFirst (tw ty f l t) = f.
Proof. intros [->|[->| ->]]; destruct f, l; reflexivity. Qed.
Lemma StartNew_tw ty : uty ty -> StartNew ty = tw ty true false 0.
Proof. intros [->|[->| ->]]; reflexivity. Qed.
Lemma tw_len ty f l t : length (tw ty f l t) = 2%nat. Proof. reflexivity. Qed.
Lemma uty4 : uty 4. Proof. now left. Qed.
Lemma uty48 : uty 48. Proof. right. now left. Qed.
Lemma uty63 : uty 63. Proof. right. now right. Qed.
#[export] Hint Resolve uty4 uty48 uty63 : core.

Section obj.
Context (F : tfish) (rounds : nat) (perm : list Z -> list Z -> list Z -> res (list Z)).
Notation n := (f_n F).
Hypothesis Hn : (4 <= n)%nat.
Hypothesis Hpi : length (f_pi F) = n.
Hypothesis Hperm : forall m t k, length m = n -> length t = 2%nat -> length k = n -> perm m t k = Ok (threefish F rounds k t m).
Notation R := (8 * n)%nat.
Notation W := (2 ^ 64).
Notation step := (ubi_step F rounds W).
Lemma step_len ty f l t G m : length m = n -> length (step ty f l t G m) = n.
Proof. clear Hperm. intros H. unfold ubi_step. rewrite length_xorl, threefish_len by auto. lia. Qed.
Definition mk (ty : Z) (G V : list Z) (f l : bool) (t : Z) : kstate := KState G V (tw ty f l t).
Lemma words_n inp io : (io + R <= length inp)%nat -> words 8 inp io n = Ok (le_words 8 (slice inp io R)).
Proof. clear Hperm. intros H. apply words_ok; lia. Qed.
Lemma lewords_n b : length b = R -> length (le_words 8 b) = n.
Proof. clear Hperm Hn. intros H. apply le_words_len; lia. Qed.
Lemma Process_mk ty G V f l t inp io k : uty ty -> length G = n -> (io + R <= length inp)%nat ->
  ProcessBlock n perm inp io (mk ty G V f l t) k = Ok (mk ty (step ty f l (t + Z.of_nat k) G (le_words 8 (slice inp io R))) V false l (t + Z.of_nat k)).
Proof.
  intros U L H. unfold ProcessBlock, mk. cbn [kS kV kT]. cbv zeta. rewrite Increase_tw, words_n by lia. cbn [bind].
  rewrite Hperm; [|apply lewords_n, length_slice; lia|apply tw_len|exact L]. cbn [bind]. unfold ubi_step. rewrite tweak_is, IsFirst_tw by auto. do 2 f_equal.
  destruct f; [now apply SetFirst_tw|reflexivity].
Qed.
(** the block function on message states *)
Definition g (s : kstate) (b : list Z) : kstate :=
  let T := Increase (kT s) R in
  KState (xorl (threefish F rounds (kS s) T (le_words 8 b)) (le_words 8 b)) (kV s) (if IsFirst T then SetFirst T false else T).
Definition I (s : kstate) : Prop := exists G V f t, length G = n /\ s = mk 48 G V f false t.
Lemma g_mk G V f t b : g (mk 48 G V f false t) b = mk 48 (step 48 f false (t + Z.of_nat R) G (le_words 8 b)) V false false (t + Z.of_nat R).
Proof.
  unfold g, mk. cbn [kS kV kT]. cbv zeta. rewrite Increase_tw, IsFirst_tw by auto. unfold ubi_step. rewrite tweak_is. f_equal.
  destruct f; [now apply SetFirst_tw|reflexivity].
Qed.
Lemma Process_ok s b o : I s -> bytes b -> (o + R <= length b)%nat -> ProcessBlock n perm b o s R = Ok (g s (slice b o R)) /\ I (g s (slice b o R)).
Proof.
  intros (G & V & f & t & L & ->) _ H. rewrite g_mk, Process_mk by auto. split; [reflexivity|].
  do 4 eexists. split; [|reflexivity]. apply step_len, lewords_n, length_slice. lia.
Qed.
Lemma fold_mk bs : Forall (blk R) bs -> forall G V f t, length G = n -> exists G', length G' = n /\
  fold_left g bs (mk 48 G V f false t) = mk 48 G' V (match bs with [] => f | _ => false end) false (t + Z.of_nat R * Z.of_nat (length bs)) /\
  (forall last, ubi_blocks F rounds W 48 f t G (bs ++ [last]) = step 48 (match bs with [] => f | _ => false end) true (t + Z.of_nat R * Z.of_nat (length bs) + Z.of_nat (length last)) G' (le_words 8 (last ++ zeros (R - length last)))) /\
  ubi_open F rounds W 48 f t G bs = G'.
Proof.
  induction 1 as [|b bs (B1 & B2) HB IH]; intros G V f t L.
  - exists G. split; [exact L|split; [cbn [fold_left length]; f_equal; lia|split; [|reflexivity]]]. intros last. cbn [app ubi_blocks length]. rewrite Z.mul_0_r, Z.add_0_r. reflexivity.
  - destruct (IH (step 48 f false (t + Z.of_nat R) G (le_words 8 b)) V false (t + Z.of_nat R)) as (G' & L' & E & HH & HO); [apply step_len, lewords_n; auto|].
    exists G'. split; [exact L'|]. split; [|split].
    + cbn [fold_left]. rewrite g_mk, E. replace (match bs with [] => false | _ :: _ => false end) with false by (destruct bs; reflexivity). f_equal. cbn [length]. lia.
    + intros last. cbn [app ubi_blocks]. destruct (bs ++ [last]) as [|b2 l2] eqn:EB; [destruct bs; discriminate|]. rewrite <- EB.
      change (nb F) with R. rewrite HH. replace (match bs with [] => false | _ :: _ => false end) with false by (destruct bs; reflexivity). f_equal. cbn [length]. lia.
    + cbn [ubi_open]. change (nb F) with R. exact HO.
Qed.
(** the blocks of a message *)
Lemma chunks_split M bs last : M = concat bs ++ last -> Forall (blk R) bs -> (length last <= R)%nat -> (M <> [] -> last <> []) ->
  (match M with [] => [[]] | _ => chunks R M end) = bs ++ [last].
Proof.
  clear Hperm. intros -> HB HL HN. assert (HR : (0 < R)%nat) by lia.
  assert (C : last <> [] -> chunks R (concat bs ++ last) = bs ++ [last]).
  { intros N. induction HB as [|b bs (B1 & B2) HB IH].
    - cbn [concat app]. rewrite chunks_cons by auto. rewrite firstn_all2, skipn_all2 by lia. now rewrite chunks_nil.
    - cbn [concat]. rewrite <- app_assoc. rewrite chunks_app by auto. rewrite IH; [reflexivity|]. intros _. exact N. }
  destruct (concat bs ++ last) as [|x m] eqn:E.
  - destruct HB as [|b bs (B1 & B2) HB]; [cbn [concat app] in E; subst; reflexivity|]. cbn [concat] in E. destruct b; [cbn [length] in B2; lia|discriminate].
  - rewrite C; [reflexivity|]. apply HN. discriminate.
Qed.

Lemma update_ok s0 dd st inp io len bl : (R <= bl)%nat -> ainv R bl g I true s0 dd st -> bytes inp -> (io + len <= length inp)%nat ->
  exists st', seq_update n perm st inp io len = Ok st' /\ ainv R bl g I true s0 (dd ++ slice inp io len) st'.
Proof.
  intros Hbl. destruct st as ((s & buf) & pos). intros (Is & Bb & Lb & (P & P') & bs & Hbs & Hd & Hs) Hi Hl. unfold seq_update. unfold rate. cbv zeta.
  destruct (Nat.eqb_spec len 0) as [->|N].
  { eexists. split; [reflexivity|]. rewrite slice_n0, app_nil_r. split; [exact Is|split; [exact Bb|split; [exact Lb|split; [now split|]]]]. now exists bs. }
  assert (HR : (0 < R <= bl)%nat) by lia.
  set (f := fun (s : kstate) (inp : list Z) (io : nat) => ProcessBlock n perm inp io s R).
  destruct (negb (pos =? 0) && (R <? pos + len))%nat eqn:C.
  - apply andb_prop in C. destruct C as (_ & L). apply Nat.ltb_lt in L.
    replace (pos <=? R)%nat with true by (symmetry; apply Nat.leb_le; lia). cbn [safe bind].
    assert (Lw : length (slice inp io (R - pos)) = (R - pos)%nat) by (apply length_slice; lia).
    assert (EB : (if (R - pos =? 0)%nat then Ok buf else wcopy inp io buf pos (R - pos)) = Ok (splice buf pos (slice inp io (R - pos)))).
    { destruct (Nat.eqb_spec (R - pos) 0) as [E0|E0]; [rewrite E0, slice_n0, splice_nil; reflexivity|]. rewrite wcopy_ok by lia. reflexivity. }
    rewrite EB. cbn [bind].
    destruct (buf_block R bl g HR buf pos (slice inp io (R - pos))) as (B1 & B2 & B3); auto using bytes_slice; try lia.
    set (buf1 := splice buf pos _) in *.
    destruct (Process_ok s buf1 0%nat Is B1 ltac:(lia)) as (-> & I2). cbn [bind].
    destruct (lazy_blocks_ok R bl f g I HR Process_ok inp Hi (len - (R - pos)) (g s (slice buf1 0 R)) (io + (R - pos)) (len - (R - pos))) as (bs2 & rl & E & I3 & Hbs2 & R1 & R2 & D); auto; try lia.
    rewrite E. cbn [bind]. replace (rl =? 0)%nat with false by (symmetry; apply Nat.eqb_neq; lia).
    rewrite wcopy_ok by lia. cbn [bind]. rewrite Nat.add_0_l. eexists. split; [reflexivity|].
    assert (DD : dd ++ slice inp io len = concat (bs ++ slice buf1 0 R :: bs2) ++ slice inp (io + (R - pos) + (len - (R - pos) - rl)) rl).
    { rewrite Hd. replace len with ((R - pos) + (len - (R - pos)))%nat at 1 by lia. rewrite slice_app, D, concat_app. cbn [concat]. rewrite B3, <- !app_assoc. reflexivity. }
    set (t := slice inp _ rl) in *. assert (Lt : length t = rl) by (apply length_slice; lia).
    split; [exact I3|split; [apply bytes_splice; auto; now apply bytes_slice|split; [rewrite length_splice; lia|split; [split; [lia|intros; lia]|]]]].
    exists (bs ++ slice buf1 0 R :: bs2). split; [|split].
    + apply Forall_app. split; [exact Hbs|]. constructor; [|exact Hbs2]. apply (blk_slice R); auto; lia.
    + rewrite DD. f_equal. rewrite slice_wcopy_front by lia. reflexivity.
    + rewrite fold_left_app, <- Hs. reflexivity.
  - cbn [bind].
    destruct (lazy_blocks_ok R bl f g I HR Process_ok inp Hi len s io len) as (bs2 & rl & E & I3 & Hbs2 & R1 & R2 & D); auto; try lia.
    rewrite E. cbn [bind]. replace (rl =? 0)%nat with false by (symmetry; apply Nat.eqb_neq; lia).
    assert (K : pos = 0%nat \/ (rl = len /\ bs2 = [] /\ (pos + len <= R)%nat)).
    { destruct (Nat.eqb_spec pos 0) as [P0|P0]; [now left|right]. cbn [negb andb] in C. apply Nat.ltb_ge in C.
      assert (bs2 = []).
      { destruct bs2 as [|b t]; [reflexivity|]. exfalso. inversion Hbs2 as [|? ? (_ & Lb2)]; subst.
        apply (f_equal (@length Z)) in D. rewrite length_slice in D by lia. cbn [concat] in D. rewrite !app_length, length_slice in D by lia. lia. }
      subst bs2. cbn [concat app] in D. apply (f_equal (@length Z)) in D. rewrite !length_slice in D by lia. auto. }
    assert (PP : (pos + rl <= R)%nat) by (destruct K as [K|(K1 & K2 & K3)]; lia).
    rewrite wcopy_ok by lia. cbn [bind]. eexists. split; [reflexivity|].
    set (t := slice inp _ rl) in *. assert (Lt : length t = rl) by (apply length_slice; lia).
    split; [exact I3|split; [apply bytes_splice; auto; now apply bytes_slice|split; [rewrite length_splice; lia|split; [split; [lia|intros; lia]|]]]].
    exists (bs ++ bs2). split; [apply Forall_app; now split|split; [|rewrite fold_left_app, <- Hs; reflexivity]].
    rewrite slice_wcopy_front by lia. rewrite Hd, D, concat_app.
    destruct K as [->|(-> & -> & K3)]; [rewrite slice_n0; cbn [app]; rewrite app_nil_r, <- app_assoc; reflexivity|].
    cbn [concat app]. now rewrite app_nil_r, <- app_assoc.
Qed.

(** * the end of a message *)
Lemma out_block G V ty f l t : length G = n ->
  ProcessBlock n perm (zeros R) 0 (KState (kS (mk ty G V f l t)) (kV (mk ty G V f l t)) (SetFinal (StartNew 63))) 8 = Ok (mk 63 (output F rounds W G) V false true 8).
Proof.
  intros L. cbn [mk kS kV]. rewrite StartNew_tw, SetFinal_tw by auto. change (KState G V (tw 63 true true 0)) with (mk 63 G V true true 0).
  rewrite Process_mk by (auto; rewrite length_zeros; lia). f_equal. f_equal. unfold output, ubi. change (Z.of_nat 8) with 8. rewrite Z.add_0_l.
  change (zeros 8) with (0 :: zeros 7) at 1. cbv iota. change (0 :: zeros 7) with (zeros 8).
  assert (C : chunks (nb F) (zeros 8) = [zeros 8]).
  { rewrite chunks_cons; [|unfold nb; lia|discriminate]. rewrite firstn_all2, skipn_all2 by (rewrite length_zeros; unfold nb; lia). now rewrite chunks_nil. }
  rewrite C. cbn [ubi_blocks]. rewrite Z.add_0_l, length_zeros. change (Z.of_nat 8) with 8. f_equal. f_equal.
  rewrite slice_all by (now rewrite length_zeros). unfold zeros. rewrite <- repeat_app. f_equal. unfold nb. lia.
Qed.
Lemma final_one fuel inp io k s : (0 < k <= R)%nat -> (k <= fuel)%nat -> final_blocks n perm fuel inp io k s = ProcessBlock n perm inp io s k.
Proof.
  clear. intros H1 H2. destruct fuel as [|m]; [lia|]. cbn [final_blocks]. replace (k =? 0)%nat with false by (symmetry; apply Nat.eqb_neq; lia). unfold rate.
  assert (E : (if (8 * n <=? k)%nat then (8 * n)%nat else k) = k) by (destruct (Nat.leb_spec (8 * n) k); lia). rewrite E. rewrite Nat.sub_diag.
  destruct (ProcessBlock n perm inp io s k) as [s'| |]; [|reflexivity|reflexivity]. cbn [bind]. destruct m; reflexivity.
Qed.
Lemma HashFinal_one inp io k G V f t : (k <= R)%nat -> (io + R <= length inp)%nat -> length G = n ->
  HashFinal n perm inp io k (mk 48 G V f false t) = Ok (mk 63 (output F rounds W (step 48 f true (t + Z.of_nat k) G (le_words 8 (slice inp io R)))) V false true 8).
Proof.
  intros H1 H2 L. unfold HashFinal, rate. cbv zeta. cbn [mk kS kV kT]. rewrite SetFinal_tw by auto. change (KState G V (tw 48 f true t)) with (mk 48 G V f true t).
  assert (LL : length (le_words 8 (slice inp io R)) = n) by (apply lewords_n, length_slice; lia).
  destruct (Nat.eqb_spec k 0) as [->|K].
  - rewrite Process_mk by auto. cbn [bind]. rewrite out_block by (now apply step_len). reflexivity.
  - rewrite final_one by lia. rewrite Process_mk by auto. cbn [bind]. rewrite out_block by (now apply step_len). reflexivity.
Qed.

Lemma ubi_len m : length (ubi F rounds W 63 m (zeros 8)) = n.
Proof.
  unfold ubi. change (zeros 8) with (0 :: zeros 7) at 1. cbv iota.
  assert (C : chunks (nb F) (zeros 8) = [zeros 8]).
  { rewrite chunks_cons; [|unfold nb; lia|discriminate]. rewrite firstn_all2, skipn_all2 by (rewrite length_zeros; unfold nb; lia). now rewrite chunks_nil. }
  change (0 :: zeros 7) with (zeros 8). rewrite C. cbn [ubi_blocks]. apply step_len, lewords_n. rewrite app_length, !length_zeros. unfold nb. lia.
Qed.
(** * the object *)
Context (G0 : list Z) (HG0 : length G0 = n).
Definition s0 : kstate := mk 48 G0 G0 true false 0.
Definition fresh : kobj := ([s0], zeros R, 0%nat).
Definition A (o : kobj) (m : list Z) : Prop := exists s buf pos, o = ([s], buf, pos) /\ ainv R R g I true s0 m (s, buf, pos).
Definition H (m : list Z) : list Z := to_bytes (output F rounds W (ubi F rounds W 48 G0 m)).
Lemma s0_I : I s0. Proof. exists G0, G0, true, 0. split; [exact HG0|reflexivity]. Qed.
Lemma A_fresh : A fresh [].
Proof. exists s0, (zeros R), 0%nat. split; [reflexivity|]. apply ainv_start; [lia|apply s0_I|apply bytes_zeros|apply length_zeros]. Qed.
Lemma A_upd o m p : A o m -> p_ok p -> exists o', Skein_Update n perm o (p_in p) (p_off p) (p_len p) = Ok o' /\ A o' (m ++ p_data p).
Proof.
  intros (s & buf & pos & -> & HA) (P1 & P2). unfold Skein_Update.
  destruct (update_ok s0 m (s, buf, pos) (p_in p) (p_off p) (p_len p) R ltac:(lia) HA P2 P1) as (((s' & buf') & pos') & -> & A'). cbn [bind].
  eexists. split; [reflexivity|]. do 3 eexists. split; [reflexivity|]. exact A'.
Qed.
Lemma tobytes_len G : length (to_bytes G) = (8 * length G)%nat.
Proof. clear. unfold to_bytes. induction G as [|x G IH]; [reflexivity|]. cbn [map concat]. rewrite app_length, IH, length_le_bytes. cbn [length]. lia. Qed.
Lemma H_len m : length (H m) = R.
Proof. unfold H. rewrite tobytes_len. unfold output. rewrite ubi_len. lia. Qed.
Lemma A_bad o out oo : (oo <= length out)%nat -> (length out < oo + R)%nat -> Skein_Finalize n perm o out oo = Throw InvalidSize.
Proof.
  intros H1 H2. unfold Skein_Finalize, rate. replace (oo <=? length out)%nat with true by (symmetry; apply Nat.leb_le; lia).
  replace (length out - oo <? 8 * n)%nat with true by (symmetry; apply Nat.ltb_lt; lia). reflexivity.
Qed.
Lemma A_fin o m out oo : A o m -> (oo + R <= length out)%nat -> Skein_Finalize n perm o out oo = Ok (fresh, splice out oo (H m)).
Proof.
  intros (s & buf & pos & -> & (Is & Bb & Lb & (P & P') & bs & Hbs & Hd & Hs)) Ho. unfold Skein_Finalize, rate.
  replace (length out - oo <? 8 * n)%nat with false by (symmetry; apply Nat.ltb_ge; lia). rewrite Bool.andb_false_r. cbn [negb guard bind].
  unfold clear_from. replace (pos <=? length buf)%nat with true by (symmetry; apply Nat.leb_le; lia). cbn [safe bind].
  rewrite wr_ok by (rewrite length_zeros; lia). cbn [bind].
  destruct (fold_mk bs Hbs G0 G0 true 0 HG0) as (G' & L' & E & HH & _). unfold s0 in Hs. rewrite E in Hs.
  assert (LB : length (splice buf pos (zeros (length buf - pos))) = R) by (rewrite length_splice; [exact Lb|rewrite length_zeros; lia]).
  rewrite Hs, HashFinal_one by (auto; lia). cbn [bind]. cbn [mk kS].
  assert (EQ : slice (splice buf pos (zeros (length buf - pos))) 0 R = slice buf 0 pos ++ zeros (R - pos)).
  { rewrite slice_wcopy_front by (rewrite length_zeros; lia). now rewrite Lb. }
  rewrite EQ.
  assert (EU : ubi F rounds W 48 G0 m = step 48 match bs with [] => true | _ :: _ => false end true (0 + Z.of_nat R * Z.of_nat (length bs) + Z.of_nat pos) G' (le_words 8 (slice buf 0 pos ++ zeros (R - pos)))).
  { unfold ubi. change (nb F) with R. rewrite (chunks_split m bs (slice buf 0 pos) Hd).
    - rewrite HH. rewrite length_slice by lia. reflexivity.
    - exact Hbs.
    - rewrite length_slice; lia.
    - intros N. specialize (P' N). intros Z0. apply (f_equal (@length Z)) in Z0. rewrite length_slice in Z0 by lia. cbn [length] in Z0. lia. }
  rewrite <- EU. fold (to_bytes (output F rounds W (ubi F rounds W 48 G0 m))). fold (H m).
  rewrite wr_ok by (rewrite H_len; lia). cbn [bind]. do 2 f_equal. cbn [KReset map mk kV]. rewrite LB, StartNew_tw by auto. reflexivity.
Qed.
Theorem seq_history cs : Forall dcall_ok cs -> exists rs, dhistory (Skein_Update n perm) (Skein_Finalize n perm) (Skein_Compute n perm) fresh fresh cs = Ok rs /\ expected H R [] cs rs.
Proof.
  intros HC. apply (history_ok _ _ _ fresh A H R) with (m := []); auto.
  - apply A_fresh.
  - intros. now apply A_upd.
  - intros. now apply A_fin.
  - intros. now apply A_bad.
  - apply H_len.
  - apply A_fresh.
Qed.
End obj.
