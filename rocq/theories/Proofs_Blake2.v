(** The sequential Blake objects: every call history. *)
From Verif Require Import BaseLemmas Spec_Common Proofs_Common Spec_Feed Session_Digest Session_Blake Model_IntegerTools Proofs_IntegerTools Model_Modes Proofs_Windows
  Model_Absorb Proofs_Absorb Model_Keccak Model_Straight Model_BlakeGen Model_Blake Spec_ChaCha Proofs_ChaCha2 Spec_SHA2 Proofs_SHA2obj Spec_Blake Proofs_Blake Proofs_SHA3.
Open Scope Z_scope.

Lemma firstn_zeros k n : (k <= n)%nat -> firstn k (zeros n) = zeros k.
Proof. revert n. induction k as [|k IH]; intros [|n] H; try lia; try reflexivity. unfold zeros in *. cbn [repeat firstn]. f_equal. apply IH. lia. Qed.
Lemma skipn_zeros k n : skipn k (zeros n) = zeros (n - k).
Proof. revert n. induction k as [|k IH]; intros [|n]; try reflexivity. unfold zeros in *. cbn [repeat skipn Nat.sub]. apply IH. Qed.

Section obj.
Context (w : Z) (size rounds : nat) (rot : quad Z) (IV : list Z) (perm : list Z -> nat -> list Z -> list Z -> res (list Z))
  (GetConfig : bparams -> list Z -> res (list Z)) (kmin kmax slen : nat).
Hypothesis Hw : 8 < w.
Hypothesis Hsize : (0 < size <= 8)%nat.
Hypothesis HIV : length IV = 8%nat.
Hypothesis Hperm : forall inp io h iv, length h = 8%nat -> length iv = 8%nat -> (io + 16 * size <= length inp)%nat ->
  perm inp io h iv = Ok (F_of w rounds rot h iv (le_words size (slice inp io (16 * size)))).
Notation R := (16 * size)%nat.
Notation cmp := (compress w size rounds rot IV).
Lemma small_len k : (k <= R)%nat -> 0 <= Z.of_nat k < 2 ^ w.
Proof. clear - Hw Hsize. intros H. assert (2 ^ 8 <= 2 ^ w) by (apply Z.pow_le_mono_r; lia). change (2 ^ 8) with 256 in *. lia. Qed.
Lemma F_of_cmp h b t (f0 f1 : bool) : F_of w rounds rot h (xorl IV [0; 0; 0; 0; t mod 2 ^ w; t / 2 ^ w mod 2 ^ w; if f0 then ones w else 0; if f1 then ones w else 0]) (le_words size b) = cmp h b t f0 f1.
Proof. reflexivity. Qed.
Lemma F_of_len h iv m : length h = 8%nat -> length iv = 8%nat -> length (F_of w rounds rot h iv m) = 8%nat.
Proof. intros A B. unfold F_of. cbv zeta. rewrite !length_xorl, firstn_length, skipn_length, all_rounds_len, app_length. lia. Qed.
Lemma civ_len a b c d : length (xorl IV [0; 0; 0; 0; a; b; c; d]) = 8%nat.
Proof. rewrite length_xorl. cbn [length]. lia. Qed.
Lemma cmp_len h b t f0 f1 : length h = 8%nat -> length (cmp h b t f0 f1) = 8%nat.
Proof. intros A. rewrite <- F_of_cmp. apply F_of_len; [exact A|apply civ_len]. Qed.

(** the state with hash words [h] and byte counter [t] *)
Definition mk (h : list Z) (t : Z) : bstate := ([0; 0], h, counter_words w t).
Definition I (s : bstate) : Prop := exists h t, length h = 8%nat /\ s = mk h t.
Definition tval (T : list Z) : Z := nth 0 T 0 + 2 ^ w * nth 1 T 0.
Definition g (s : bstate) (b : list Z) : bstate :=
  let '(F, H, T) := s in let t := tval T + Z.of_nat R in (F, cmp H b t false false, counter_words w t).
Lemma tval_counter t : tval (counter_words w t) = t mod 2 ^ (2 * w).
Proof. clear - Hw. unfold tval, counter_words. cbn [nth]. apply counter_val. lia. Qed.
Lemma words_mod t k : counter_words w (t mod 2 ^ (2 * w) + k) = counter_words w (t + k).
Proof.
  clear - Hw. destruct (counter_range w (t mod 2 ^ (2 * w) + k) ltac:(lia)) as [A B]. unfold counter_words at 1. apply counter_uniq; auto; try lia.
  rewrite counter_val by lia. apply Zplus_mod_idemp_l.
Qed.
Lemma cmp_counter h b t t' f0 f1 : counter_words w t = counter_words w t' -> cmp h b t f0 f1 = cmp h b t' f0 f1.
Proof. intros E. unfold counter_words in E. injection E as E1 E2. unfold compress. now rewrite E1, E2. Qed.
Lemma g_mk h t b : g (mk h t) b = mk (cmp h b (t + Z.of_nat R) false false) (t + Z.of_nat R).
Proof. unfold g, mk. cbv zeta. rewrite tval_counter, words_mod. f_equal. f_equal. apply cmp_counter, words_mod. Qed.
Lemma Increase_mk h t k F : (k <= R)%nat -> Increase w (F, h, counter_words w t) k = Ok (F, h, counter_words w (t + Z.of_nat k)).
Proof. intros H. unfold Increase. rewrite increase_counter; [reflexivity|lia|reflexivity|now apply small_len]. Qed.
Lemma Permute_mk h t (f0 f1 : bool) b io : length h = 8%nat -> (io + R <= length b)%nat ->
  Permute perm IV ([if f0 then ones w else 0; if f1 then ones w else 0], h, counter_words w t) b io =
  Ok ([if f0 then ones w else 0; if f1 then ones w else 0], cmp h (slice b io R) t f0 f1, counter_words w t).
Proof. intros A B. unfold Permute. rewrite Hperm; [|exact A|apply civ_len|exact B]. cbn [bind nth counter_words]. f_equal. Qed.
Lemma Process_ok s b o : I s -> bytes b -> (o + R <= length b)%nat -> Process w size perm IV s b o = Ok (g s (slice b o R)) /\ I (g s (slice b o R)).
Proof.
  intros (h & t & L & ->) _ H. rewrite g_mk. split; [|eexists _, _; split; [|reflexivity]; now apply cmp_len].
  unfold Process, mk. unfold rate. rewrite Increase_mk by lia. cbn [bind]. apply (Permute_mk h _ false false b o L H).
Qed.
Definition fold_ok := fun s => fold_left g s.
Lemma fold_mk bs : Forall (blk R) bs -> forall h t, length h = 8%nat -> exists h', length h' = 8%nat /\ fold_left g bs (mk h t) = mk h' (t + Z.of_nat R * Z.of_nat (length bs)) /\
  forall last, (length last <= R)%nat -> (length last = 0%nat -> bs = []) ->
    hash_blocks w size rounds rot IV h t (bs ++ chunks R last) = cmp h' (last ++ zeros (R - length last)) (t + Z.of_nat R * Z.of_nat (length bs) + Z.of_nat (length last)) true false.
Proof.
  induction 1 as [|b bs (B1 & B2) HB IH]; intros h t L.
  - exists h. split; [exact L|split; [cbn [fold_left length]; f_equal; lia|]]. intros last H1 _. cbn [app length].
    destruct last as [|x last]; [cbn [length]; rewrite chunks_nil; cbn [hash_blocks app]; rewrite Nat.sub_0_r; apply cmp_counter; f_equal; lia|].
    assert (E : chunks R (x :: last) = [x :: last]).
    { rewrite chunks_cons by (try lia; discriminate). rewrite firstn_all2, skipn_all2 by lia. now rewrite chunks_nil. }
    rewrite E. cbn [hash_blocks]. apply cmp_counter. f_equal. lia.
  - destruct (IH (cmp h b (t + Z.of_nat R) false false) (t + Z.of_nat R)) as (h' & L' & E & HH); [now apply cmp_len|].
    exists h'. split; [exact L'|split; [cbn [fold_left]; rewrite g_mk, E; f_equal; cbn [length]; lia|]].
    intros last H1 H2. cbn [app]. assert (NE : bs ++ chunks R last <> []).
    { destruct bs; [|discriminate]. cbn [app]. destruct last as [|x last]; [specialize (H2 eq_refl); discriminate|]. rewrite chunks_cons by (try lia; discriminate). discriminate. }
    cbn [hash_blocks]. destruct (bs ++ chunks R last) as [|b2 l2] eqn:EB; [congruence|]. rewrite <- EB, HH by (auto; intros Z0; specialize (H2 Z0); discriminate).
    apply cmp_counter. f_equal. cbn [length]. lia.
Qed.

Lemma update_ok s0 d st inp io len bl : (R <= bl)%nat -> ainv R bl g I true s0 d st -> bytes inp -> (io + len <= length inp)%nat ->
  exists st', Blake_update w size perm IV st inp io len = Ok st' /\ ainv R bl g I true s0 (d ++ slice inp io len) st'.
Proof.
  intros Hbl. destruct st as ((s & buf) & pos). intros (Is & Bb & Lb & (P & P') & bs & Hbs & Hd & Hs) Hi Hl. unfold Blake_update. unfold rate at 1 2 3 4.
  destruct (Nat.eqb_spec len 0) as [->|N].
  { eexists. split; [reflexivity|]. rewrite slice_n0, app_nil_r. split; [exact Is|split; [exact Bb|split; [exact Lb|split; [now split|]]]]. now exists bs. }
  assert (HR : (0 < R <= bl)%nat) by lia.
  destruct (Nat.ltb_spec R (pos + len)) as [L|L].
  - replace (pos <=? R)%nat with true by (symmetry; apply Nat.leb_le; lia). cbn [safe bind].
    assert (Lw : length (slice inp io (R - pos)) = (R - pos)%nat) by (apply length_slice; lia).
    assert (EB : (if (R - pos =? 0)%nat then Ok buf else wcopy inp io buf pos (R - pos)) = Ok (splice buf pos (slice inp io (R - pos)))).
    { destruct (Nat.eqb_spec (R - pos) 0) as [E0|E0]; [rewrite E0, slice_n0, splice_nil; reflexivity|]. rewrite wcopy_ok by lia. reflexivity. }
    rewrite EB. cbn [bind].
    destruct (buf_block R bl g HR buf pos (slice inp io (R - pos))) as (B1 & B2 & B3); auto using bytes_slice; try lia.
    set (buf1 := splice buf pos _) in *.
    destruct (Process_ok s buf1 0%nat Is B1 ltac:(lia)) as (-> & I2). cbn [bind].
    destruct (lazy_blocks_ok R bl (Process w size perm IV) g I HR Process_ok inp Hi (len - (R - pos)) (g s (slice buf1 0 R)) (io + (R - pos)) (len - (R - pos))) as (bs2 & rl & E & I3 & Hbs2 & R1 & R2 & D); auto; try lia.
    unfold rate. rewrite E. cbn [bind]. replace (rl =? 0)%nat with false by (symmetry; apply Nat.eqb_neq; lia).
    rewrite wcopy_ok by lia. cbn [bind]. rewrite Nat.add_0_l. eexists. split; [reflexivity|].
    assert (DD : d ++ slice inp io len = concat (bs ++ slice buf1 0 R :: bs2) ++ slice inp (io + (R - pos) + (len - (R - pos) - rl)) rl).
    { rewrite Hd. replace len with ((R - pos) + (len - (R - pos)))%nat at 1 by lia. rewrite slice_app, D, concat_app. cbn [concat]. rewrite B3, <- !app_assoc. reflexivity. }
    set (t := slice inp _ rl) in *. assert (Lt : length t = rl) by (apply length_slice; lia).
    split; [exact I3|split; [apply bytes_splice; auto; now apply bytes_slice|split; [rewrite length_splice; lia|split; [split; [lia|intros; lia]|]]]].
    exists (bs ++ slice buf1 0 R :: bs2). split; [|split].
    + apply Forall_app. split; [exact Hbs|]. constructor; [|exact Hbs2]. apply (blk_slice R); auto; lia.
    + rewrite DD. f_equal. rewrite slice_wcopy_front by lia. reflexivity.
    + rewrite fold_left_app, <- Hs. reflexivity.
  - cbn [bind]. assert (EL : lazy_blocks (rate size) (Process w size perm IV) len s inp io len = Ok (s, io, len)).
    { destruct len; [lia|]. cbn [lazy_blocks]. unfold rate. replace (R <? S len)%nat with false by (symmetry; apply Nat.ltb_ge; lia). reflexivity. }
    rewrite EL. cbn [bind]. replace (len =? 0)%nat with false by (symmetry; apply Nat.eqb_neq; lia).
    rewrite wcopy_ok by lia. cbn [bind]. eexists. split; [reflexivity|].
    assert (Lt : length (slice inp io len) = len) by (apply length_slice; lia).
    split; [exact Is|split; [apply bytes_splice; auto; now apply bytes_slice|split; [rewrite length_splice; lia|split; [split; [lia|intros; lia]|]]]].
    exists bs. split; [exact Hbs|split; [|exact Hs]]. rewrite slice_wcopy_front by lia. now rewrite Hd, app_assoc.
Qed.

(** * the object *)
Context (par : nat -> bparams) (param : nat -> list Z).
Hypothesis Hkm : (0 < kmin /\ kmax <= R /\ kmax < 256 /\ slen = 2 * size)%nat.
Hypothesis Hcfg : forall kk cfg, (kk <= kmax)%nat -> length cfg = 8%nat -> nth 3 cfg 0 = 0 -> GetConfig (par kk) cfg = Ok (le_words size (param kk)).
Hypothesis Hnoff : forall kk, set_noff (par kk) 0 = par kk.
Hypothesis Hkey : forall kk k, set_key (par kk) (Z.of_nat k) = par k.
Hypothesis Hparam : forall kk, length (param kk) = (size * 8)%nat.
Context (bl : nat) (Hbl : (R <= bl)%nat).
Notation hash kk data := (blake2_data w size rounds rot IV (param kk) data).
Definition s0 (kk : nat) : bstate := mk (xorl IV (le_words size (param kk))) 0.
Lemma h0_len kk : length (xorl IV (le_words size (param kk))) = 8%nat.
Proof. rewrite length_xorl, (le_words_len size 8) by (auto; lia). lia. Qed.
Lemma s0_I kk : I (s0 kk). Proof. exists (xorl IV (le_words size (param kk))), 0. split; [apply h0_len|reflexivity]. Qed.
Lemma Load_ok kk cfg : (kk <= kmax)%nat -> length cfg = 8%nat -> nth 3 cfg 0 = 0 -> LoadState IV GetConfig (par kk) cfg = Ok (s0 kk).
Proof. intros A B C. unfold LoadState. rewrite Hcfg by auto. cbn [bind]. unfold s0, mk, counter_words. rewrite Zdiv_0_l, Zmod_0_l. reflexivity. Qed.
Definition fresh (kk : nat) : bobj := ((s0 kk, zeros bl, 0%nat), par kk).
Definition A (kk : nat) (m : list Z) (o : bobj) : Prop := (kk <= kmax)%nat /\ snd o = par kk /\ ainv R bl g I true (s0 kk) m (fst o).
Lemma A_fresh kk : (kk <= kmax)%nat -> A kk [] (fresh kk).
Proof. intros H. split; [exact H|split; [reflexivity|]]. apply ainv_start; [lia|apply s0_I|apply bytes_zeros|apply length_zeros]. Qed.
Lemma Reset_ok kk s buf pos : (kk <= kmax)%nat -> length buf = bl -> Blake_Reset IV GetConfig ((s, buf, pos), par kk) = Ok (fresh kk).
Proof. intros H L. unfold Blake_Reset. cbv zeta. rewrite Hnoff, Load_ok by (auto; reflexivity). cbn [bind]. unfold fresh. now rewrite L. Qed.
Lemma start_ok kk : (kk <= kmax)%nat -> Blake_start IV GetConfig bl (par kk) = Ok (fresh kk).
Proof. intros H. unfold Blake_start. apply Reset_ok; auto. apply length_zeros. Qed.
Lemma Update_ok kk m o inp io len : A kk m o -> bytes inp -> (io + len <= length inp)%nat ->
  exists o', Blake_Update w size perm IV o inp io len = Ok o' /\ A kk (m ++ slice inp io len) o'.
Proof.
  intros (K & P & V) HB HL. unfold Blake_Update. destruct (update_ok _ _ _ inp io len bl Hbl V HB HL) as (st & -> & V'). cbn [bind]. exists (st, snd o). split; [reflexivity|].
  split; [exact K|split; [exact P|exact V']].
Qed.
Lemma hash_len kk data : (exists h, length h = 8%nat /\ hash kk data = concat (map (le_bytes size) h)) -> length (hash kk data) = dsize size.
Proof.
  intros (h & L & ->). unfold dsize. rewrite <- L. clear. induction h as [|x h IH]; [reflexivity|]. cbn [map concat length]. rewrite app_length, length_le_bytes, IH. lia.
Qed.
Lemma hash_of kk m s buf pos : ainv R bl g I true (s0 kk) m (s, buf, pos) -> exists h t, length h = 8%nat /\ s = mk h t /\ (pos <= R)%nat /\ length buf = bl /\
  hash kk m = concat (map (le_bytes size) (cmp h (slice buf 0 pos ++ zeros (R - pos)) (t + Z.of_nat pos) true false)).
Proof.
  intros (Is & Bb & Lb & (P & P') & bs & Hbs & Hd & Hs).
  destruct (fold_mk bs Hbs (xorl IV (le_words size (param kk))) 0 (h0_len kk)) as (h & L & E & HH).
  exists h, (0 + Z.of_nat R * Z.of_nat (length bs)). split; [exact L|]. split; [rewrite Hs; exact E|]. split; [exact P|]. split; [exact Lb|].
  unfold blake2_data. do 2 f_equal. rewrite Hd, chunks_concat by (auto; lia). rewrite HH.
  - now rewrite length_slice by lia.
  - rewrite length_slice by lia. exact P.
  - rewrite length_slice by lia. intros Z0. subst pos. rewrite slice_n0, app_nil_r in Hd. destruct m as [|x m]; [|exfalso; specialize (P' ltac:(discriminate)); lia].
    destruct bs as [|b bs]; [reflexivity|]. exfalso. inversion Hbs as [|? ? (_ & B2)]; subst. apply (f_equal (@length Z)) in Hd. cbn [concat length] in Hd. rewrite app_length in Hd. lia.
Qed.
Lemma hash_size kk m : length (hash kk m) = dsize size.
Proof.
  apply hash_len. unfold blake2_data. eexists. split; [|reflexivity].
  assert (G : forall bs h t, length h = 8%nat -> length (hash_blocks w size rounds rot IV h t bs) = 8%nat).
  { induction bs as [|b [|b' bs] IH]; intros h t L; cbn [hash_blocks]; try (now apply cmp_len). apply IH. now apply cmp_len. }
  apply G, h0_len.
Qed.
Lemma Finalize_ok kk m o out oo : A kk m o -> (oo + dsize size <= length out)%nat ->
  Blake_Finalize w size perm IV GetConfig o out oo = Ok (fresh kk, splice out oo (hash kk m)).
Proof.
  destruct o as (((s, buf), pos), p). intros (K & P & V) HO. cbn [fst snd] in *. destruct (hash_of kk m s buf pos V) as (h & t & L & -> & LP & LB & HE).
  unfold Blake_Finalize. replace (negb _) with true.
  2:{ symmetry. apply Bool.negb_true_iff. apply Bool.andb_false_iff. right. apply Nat.ltb_ge. lia. }
  cbn [guard bind]. rewrite clear_from_ok by lia. cbn [bind]. unfold mk. cbn [put]. change (put [0; 0] 0 (ones w)) with (Ok [ones w; 0]). cbn [bind].
  rewrite Increase_mk by lia. cbn [bind].
  pose proof (Permute_mk h (t + Z.of_nat pos) true false (slice buf 0 pos ++ zeros (length buf - pos)) 0 L) as PM. cbn iota in PM.
  rewrite PM by (rewrite app_length, length_slice, length_zeros; lia). cbn [bind].
  assert (SL : slice (slice buf 0 pos ++ zeros (length buf - pos)) 0 R = slice buf 0 pos ++ zeros (R - pos)).
  { unfold slice at 1. cbn [skipn]. rewrite firstn_app, length_slice by lia. rewrite firstn_all2 by (rewrite length_slice; lia). f_equal.
    rewrite firstn_zeros by lia. reflexivity. }
  rewrite SL, <- HE. pose proof (hash_size kk m) as HS. rewrite wr_ok by lia. cbn [bind]. rewrite P, Reset_ok; [reflexivity|exact K|].
  rewrite app_length, length_slice, length_zeros by lia. lia.
Qed.
Lemma Finalize_bad o out oo : (oo <= length out)%nat -> (length out < oo + dsize size)%nat -> Blake_Finalize w size perm IV GetConfig o out oo = Throw InvalidSize.
Proof.
  intros H1 H2. unfold Blake_Finalize. replace (negb _) with false; [reflexivity|]. symmetry. apply Bool.negb_false_iff. apply andb_true_intro. split; [apply Nat.leb_le; lia|apply Nat.ltb_lt; lia].
Qed.
Lemma put_config (cfg : list Z) i a b : length cfg = 8%nat -> nth 3 cfg 0 = 0 -> (4 <= i)%nat -> (i < 7)%nat ->
  exists cfg', (cfg <- put cfg i a ;; put cfg (S i) b) = Ok cfg' /\ length cfg' = 8%nat /\ nth 3 cfg' 0 = 0.
Proof.
  clear. intros L N H1 H2. rewrite put_ok by lia. cbn [bind]. rewrite put_ok by (rewrite length_upd; lia). eexists. split; [reflexivity|]. rewrite !length_upd. split; [exact L|].
  rewrite !nth_upd_other by lia. exact N.
Qed.
Lemma Initialize_bad o key iv info e : key_error kmin kmax slen key iv info = Some e -> Blake_Initialize size IV GetConfig kmin kmax slen o key iv info = Throw e.
Proof.
  unfold key_error, Blake_Initialize. intros E.
  destruct ((length key <? kmin) || (kmax <? length key))%nat; [injection E as <-; reflexivity|]. cbn [negb guard bind].
  destruct (Nat.eqb_spec (length iv) 0) as [E0|E0].
  - cbn [orb negb bind] in *. destruct (Nat.eqb_spec (length info) 0) as [E1|E1]; cbn [orb negb] in E; [discriminate|]. destruct (length info =? slen)%nat; [discriminate|]. injection E as <-. reflexivity.
  - cbn [orb] in E. destruct (Nat.eqb_spec (length iv) slen) as [E2|E2]; cbn [negb] in E; [|injection E as <-; reflexivity]. cbn [guard bind].
    destruct Hkm as (_ & _ & _ & HS). rewrite !LeBytesTo_correct by lia. cbn [bind].
    destruct (put_config (zeros 8) 4 (le_val (slice iv 0 size)) (le_val (slice iv size size))) as (cfg & -> & C1 & C2); try reflexivity; try lia. cbn [bind].
    destruct (Nat.eqb_spec (length info) 0) as [E1|E1]; cbn [orb negb] in E; [discriminate|]. destruct (length info =? slen)%nat; [discriminate|]. injection E as <-. reflexivity.
Qed.
Lemma Initialize_good o key iv info : key_error kmin kmax slen key iv info = None ->
  exists cfg, length cfg = 8%nat /\ nth 3 cfg 0 = 0 /\ Blake_Initialize size IV GetConfig kmin kmax slen o key iv info =
    (let '(_, buf, _, p) := o in
     mkey <- wcopy key 0 (zeros R) 0 (Nat.min (length key) R) ;;
     buf <- wcopy mkey 0 buf 0 (length mkey) ;;
     s <- LoadState IV GetConfig (set_key p (u8 (Z.of_nat (length key)))) cfg ;; Ok ((s, buf, R), set_key p (u8 (Z.of_nat (length key))))).
Proof.
  unfold key_error, Blake_Initialize. intros E. destruct Hkm as (_ & _ & _ & HS).
  destruct ((length key <? kmin) || (kmax <? length key))%nat; [discriminate|]. cbn [negb guard bind].
  assert (C1 : exists c1, length c1 = 8%nat /\ nth 3 c1 0 = 0 /\ (if (length iv =? 0)%nat then Ok (zeros 8) else
            _ <- guard (length iv =? slen)%nat InvalidNonce ;;
            a <- LeBytesTo size iv 0 ;; b <- LeBytesTo size iv size ;; cfg <- put (zeros 8) 4 a ;; put cfg 5 b) = Ok c1).
  { destruct (Nat.eqb_spec (length iv) 0) as [E0|E0]; [exists (zeros 8); auto|]. cbn [orb] in E.
    destruct (Nat.eqb_spec (length iv) slen) as [E2|E2]; cbn [negb] in E; [|discriminate]. cbn [guard bind]. rewrite !LeBytesTo_correct by lia. cbn [bind].
    destruct (put_config (zeros 8) 4 (le_val (slice iv 0 size)) (le_val (slice iv size size))) as (cfg & -> & C1 & C2); try reflexivity; try lia. exists cfg. auto. }
  destruct C1 as (c1 & L1 & N1 & ->). cbn [bind].
  assert (E' : ((length info =? 0) || (length info =? slen))%nat = true).
  { destruct (negb ((length iv =? 0) || (length iv =? slen)))%nat; [discriminate|]. destruct ((length info =? 0) || (length info =? slen))%nat; [reflexivity|discriminate]. }
  assert (C2 : exists c2, length c2 = 8%nat /\ nth 3 c2 0 = 0 /\ (if (length info =? 0)%nat then Ok c1 else
            _ <- guard (length info =? slen)%nat InvalidInfo ;;
            a <- LeBytesTo size info 0 ;; b <- LeBytesTo size info size ;; cfg <- put c1 6 a ;; put cfg 7 b) = Ok c2).
  { destruct (Nat.eqb_spec (length info) 0) as [E0|E0]; [exists c1; auto|]. cbn [orb] in E'. rewrite E'. apply Nat.eqb_eq in E'. cbn [guard bind]. rewrite !LeBytesTo_correct by lia. cbn [bind].
    destruct (put_config c1 6 (le_val (slice info 0 size)) (le_val (slice info size size))) as (cfg & -> & D1 & D2); auto; try lia. exists cfg. auto. }
  destruct C2 as (c2 & L2 & N2 & ->). cbn [bind]. exists c2. split; [exact L2|split; [exact N2|]]. destruct o as (((s, buf), pos), p). reflexivity.
Qed.
Lemma Initialize_ok kk m o key iv info : A kk m o -> bytes key -> key_error kmin kmax slen key iv info = None ->
  exists o', Blake_Initialize size IV GetConfig kmin kmax slen o key iv info = Ok o' /\ A (length key) (key ++ zeros (R - length key)) o'.
Proof.
  intros (K & P & V) HB HE. destruct (Initialize_good o key iv info HE) as (cfg & C1 & C2 & ->).
  assert (HK : (kmin <= length key <= kmax)%nat).
  { unfold key_error in HE. destruct (Nat.ltb_spec (length key) kmin); [discriminate|]. destruct (Nat.ltb_spec kmax (length key)); [discriminate|]. lia. }
  destruct Hkm as (H1 & H2 & H3 & _).
  destruct o as (((s, buf), pos), p). cbn [fst snd] in *. destruct V as (_ & Bb & Lb & _).
  rewrite wcopy_ok by (rewrite ?length_zeros; lia). cbn [bind]. rewrite Nat.min_l by lia. rewrite slice_all by reflexivity.
  assert (MK : splice (zeros R) 0 key = key ++ zeros (R - length key)).
  { unfold splice. cbn [firstn app]. f_equal. apply skipn_zeros. }
  rewrite MK. set (mkey := key ++ zeros (R - length key)). assert (LM : length mkey = R) by (unfold mkey; rewrite app_length, length_zeros; lia).
  rewrite LM. rewrite wcopy_ok by lia. cbn [bind]. rewrite slice_all by (now symmetry).
  assert (U8 : u8 (Z.of_nat (length key)) = Z.of_nat (length key)) by (unfold u8; rewrite Z.mod_small; lia).
  rewrite U8, P, Hkey. rewrite Load_ok by (auto; lia). cbn [bind]. eexists. split; [reflexivity|]. split; [lia|split; [reflexivity|]]. cbn [fst].
  assert (BM : bytes mkey) by (unfold mkey; apply bytes_app; split; [exact HB|apply bytes_zeros]).
  split; [apply s0_I|split; [now apply bytes_splice|split; [rewrite length_splice; lia|split; [split; [lia|intros; lia]|]]]].
  exists []. split; [constructor|split; [|reflexivity]]. cbn [concat app]. unfold slice, splice. cbn [skipn firstn app]. rewrite firstn_app, LM, Nat.sub_diag, firstn_O, app_nil_r, firstn_all2 by lia. reflexivity.
Qed.
Lemma bhistory_ok cs : forall kk m o, A kk m o -> Forall bcall_ok cs ->
  exists rs, bhistory (Blake_Initialize size IV GetConfig kmin kmax slen) (Blake_Update w size perm IV) (Blake_Finalize w size perm IV GetConfig) (Blake_Compute w size perm IV GetConfig) (Blake_Reset IV GetConfig) o cs = Ok rs /\
    bexpected (fun kk data => hash kk data) (dsize size) R kmin kmax slen kk m cs rs.
Proof.
  induction cs as [|c cs IH]; intros kk m o Ho Hc; [exists []; split; [reflexivity|exact Logic.I]|].
  inversion Hc as [|? ? C1 C2]; subst. cbn [bhistory].
  destruct c as [key iv info|[p|out oo|inp out|]]; cbn [bstep bcall_ok dcall_ok] in *.
  - destruct (key_error kmin kmax slen key iv info) as [e|] eqn:EK.
    + rewrite (Initialize_bad o key iv info e EK). cbn [bind fst snd]. destruct (IH kk m o Ho C2) as (rs & -> & E). cbn [bind]. eexists. split; [reflexivity|]. cbn [bexpected]. rewrite EK. auto.
    + destruct (Initialize_ok kk m o key iv info Ho C1 EK) as (o' & -> & Ho'). cbn [bind fst snd]. destruct (IH _ _ o' Ho' C2) as (rs & -> & E). cbn [bind]. eexists. split; [reflexivity|]. cbn [bexpected]. rewrite EK. auto.
  - destruct C1 as (P1 & P2). destruct (Update_ok kk m o (p_in p) (p_off p) (p_len p) Ho P2 P1) as (o' & -> & A'). cbn [bind fst snd]. destruct (IH kk _ o' A' C2) as (rs & -> & E). cbn [bind]. eexists. split; [reflexivity|]. cbn [bexpected]. auto.
  - destruct Ho as (K & Ho). pose proof (conj K Ho : A kk m o) as HA. destruct (Nat.leb_spec (oo + dsize size) (length out)).
    + rewrite (Finalize_ok kk m) by auto. cbn [caught bind fst snd]. destruct (IH kk _ _ (A_fresh kk K) C2) as (rs & -> & E). cbn [bind]. eexists. split; [reflexivity|]. cbn [bexpected].
      replace (oo + dsize size <=? length out)%nat with true by (symmetry; apply Nat.leb_le; lia). split; [|exact E]. eexists. split; [reflexivity|]. apply splice_written. rewrite hash_size. lia.
    + rewrite Finalize_bad by lia. cbn [caught bind fst snd]. destruct (IH kk m o HA C2) as (rs & -> & E). cbn [bind]. eexists. split; [reflexivity|]. cbn [bexpected].
      replace (oo + dsize size <=? length out)%nat with false by (symmetry; apply Nat.leb_gt; lia). auto.
  - assert (CE : Blake_Compute w size perm IV GetConfig o inp out = (_ <- guard (negb (length out <? dsize size)%nat) InvalidSize ;; o <- Blake_Update w size perm IV o inp 0 (length inp) ;; Blake_Finalize w size perm IV GetConfig o out 0)) by reflexivity.
    rewrite CE. clear CE. destruct (Nat.ltb_spec (length out) (dsize size)).
    + cbn [negb guard bind caught fst snd]. destruct (IH kk m o Ho C2) as (rs & -> & E). cbn [bind]. eexists. split; [reflexivity|]. cbn [bexpected].
      replace (dsize size <=? length out)%nat with false by (symmetry; apply Nat.leb_gt; lia). auto.
    + cbn [negb guard bind]. destruct (Update_ok kk m o inp 0 (length inp) Ho C1) as (o' & -> & A'); [lia|]. rewrite slice_all in A' by reflexivity. cbn [bind].
      rewrite (Finalize_ok kk _ o' out 0 A') by lia. cbn [caught bind fst snd]. destruct Ho as (K & Ho). destruct (IH kk _ _ (A_fresh kk K) C2) as (rs & -> & E). cbn [bind]. eexists. split; [reflexivity|]. cbn [bexpected].
      replace (dsize size <=? length out)%nat with true by (symmetry; apply Nat.leb_le; lia). split; [|exact E]. eexists. split; [reflexivity|]. apply splice_written. rewrite hash_size. lia.
  - destruct o as (((s, buf), pos), p). destruct Ho as (K & P & V). cbn [fst snd] in *. rewrite P. rewrite Reset_ok; [|exact K|now destruct V as (_ & _ & LB & _)]. cbn [bind fst snd].
    destruct (IH kk _ _ (A_fresh kk K) C2) as (rs & -> & E). cbn [bind]. eexists. split; [reflexivity|]. cbn [bexpected]. auto.
Qed.
End obj.
