(** the stream form of CipherStream over an abstract engine *)
From Verif Require Import BaseLemmas Spec_Common Spec_File Model_Modes Model_Padding Model_Stream Model_KDF Model_CipherStream Proofs_Windows Proofs_Stream Proofs_KDF Proofs_KDF2 Proofs_CipherStream.
Open Scope Z_scope.
Ltac Zify.zify_post_hook ::= idtac.

Lemma put_at_splice d p w : (p <= length d)%nat -> put_at d p w = firstn p d ++ w ++ skipn (p + length w) d.
Proof. intros H. unfold put_at. rewrite (proj2 (Nat.leb_le _ _)) by lia. reflexivity. Qed.
Lemma put_at_nil d p : (p <= length d)%nat -> put_at d p [] = d.
Proof. intros H. rewrite put_at_splice by auto. cbn [app length]. rewrite Nat.add_0_r. apply firstn_skipn. Qed.
Lemma put_at_app d p a c : (p <= length d)%nat -> put_at (put_at d p a) (p + length a) c = put_at d p (a ++ c).
Proof.
  intros H. rewrite (put_at_splice _ (p + length a)) by (rewrite put_len; lia). rewrite !put_at_splice by lia.
  set (f := firstn p d). assert (Lf : length f = p) by (unfold f; rewrite firstn_length; lia).
  assert (E1 : firstn (p + length a) (f ++ a ++ skipn (p + length a) d) = f ++ a).
  { rewrite app_assoc, firstn_app, app_length, Lf, Nat.sub_diag, firstn_O, app_nil_r. apply firstn_all2. rewrite app_length. lia. }
  assert (E2 : skipn (p + length a + length c) (f ++ a ++ skipn (p + length a) d) = skipn (p + length (a ++ c)) d).
  { rewrite app_assoc, skipn_app, skipn_all2 by (rewrite app_length; lia). cbn [app]. rewrite skipn_skipn, !app_length, Lf. f_equal. lia. }
  rewrite E1, E2, <- !app_assoc. reflexivity.
Qed.
Lemma put_at_app_eq d p a c q : (p <= length d)%nat -> q = (p + length a)%nat -> put_at (put_at d p a) q c = put_at d p (a ++ c).
Proof. intros H ->. now apply put_at_app. Qed.
Lemma msize_rel s f : srel s f -> msize s = Z.of_nat (length (f_bytes f)).
Proof. intros (E & _). unfold msize. now rewrite E. Qed.

Section WS.
  Context (en : engine) (F : list Z -> list Z -> list Z * list Z) (I : list Z -> Prop) (okn : nat -> Prop).
  Let b := en_bs en.
  Hypothesis Hb : (0 < b)%nat.
  Hypothesis okb : forall n, (n mod b = 0)%nat -> okn n.
  Hypothesis HT : forall k l io out oo len st, I st -> okn len -> (io + len <= length l)%nat -> (oo + len <= length out)%nat ->
    en_T en k l io out oo len st = Ok (splice out oo (fst (F st (slice l io len))), snd (F st (slice l io len))).
  Hypothesis F_ok : forall st m, I st -> okn (length m) -> length (fst (F st m)) = length m /\ I (snd (F st m)).
  Hypothesis F_app : forall st a c, I st -> (length a mod b = 0)%nat -> okn (length c) ->
    F st (a ++ c) = (fst (F st a) ++ fst (F (snd (F st a)) c), snd (F (snd (F st a)) c)).
  Hypothesis F_nil : forall st, I st -> F st [] = ([], st).
  Hypothesis Hpar : en_par en = true -> (0 < en_pblk en)%nat /\ (en_pblk en mod b = 0)%nat.

  Lemma stream_loop_ok d od op step : (step mod b = 0)%nat -> (0 < step)%nat -> Z.of_nat (length d) < 2 ^ 63 -> Z.of_nat step < 2 ^ 63 -> (op <= length od)%nat ->
    forall k fuel ins outs inp otp p w plen e st, I st -> e = (plen + k * step)%nat -> (k <= fuel)%nat ->
    srel ins (File d p) -> srel outs (File (put_at od op w) (op + length w)) -> length inp = step -> length otp = step ->
    (p + k * step <= length d)%nat -> Z.of_nat (op + length w + k * step) < 2 ^ 63 ->
    exists ins' outs' inp' otp',
      cs_stream_loop fuel en step e (ins, outs, inp, otp) plen st = Ok (ins', outs', inp', otp', snd (F st (slice d p (k * step)))) /\
      srel ins' (File d (p + k * step)) /\ srel outs' (File (put_at od op (w ++ fst (F st (slice d p (k * step))))) (op + length w + k * step)) /\
      length inp' = step /\ length otp' = step.
  Proof.
    intros Hs Hp Ld Lst Lop. induction k as [|k IH]; intros fuel ins outs inp otp p w plen e st Hi He Hf Ri Ro Li Lo H1 H2.
    - cbn [Nat.mul] in *. rewrite Nat.add_0_r in He. exists ins, outs, inp, otp. unfold slice. cbn [firstn]. rewrite F_nil by auto. cbn [fst snd].
      rewrite app_nil_r, !Nat.add_0_r. split; [|auto]. destruct fuel; cbn [cs_stream_loop]; rewrite (proj2 (Nat.eqb_eq _ _)) by lia; reflexivity.
    - destruct fuel as [|fuel]; [lia|]. cbn [cs_stream_loop]. destruct (Nat.eqb_spec plen e); [lia|].
      destruct (read_rel ins (File d p) inp 0 step Ri) as (ins1 & E1 & R1); cbn [f_bytes f_pos] in *; [lia|lia| |].
      { rewrite (proj2 (Nat.ltb_ge _ _)) by lia. left. lia. }
      rewrite (proj2 (Nat.ltb_ge _ _)) in E1, R1 by lia. rewrite (proj2 (Nat.eqb_neq step 0)) in E1 by lia.
      change (Z.of_nat 0) with 0 in E1. rewrite E1. cbn [bind]. rewrite Nat2Z.id.
      set (x := slice d p step) in *. assert (Lx : length x = step) by (unfold x; rewrite length_slice; lia).
      assert (Ox : okn (length x)) by (rewrite Lx; auto). destruct (F_ok st x Hi Ox) as (L1 & I1). rewrite Lx in L1.
      rewrite (splice_all inp x) by lia.
      rewrite HT by (auto; try lia; rewrite <- Lx; auto). cbn [bind]. rewrite (slice_all x) by lia. rewrite (splice_all otp) by lia.
      destruct (write_rel outs _ (fst (F st x)) 0 step Ro) as (outs1 & E2 & R2); cbn [f_bytes f_pos] in *; [lia|lia|].
      change (Z.of_nat 0) with 0 in E2. rewrite E2. cbn [bind].
      rewrite (slice_all (fst (F st x))) in R2 by lia. rewrite put_at_app in R2 by auto.
      replace (op + length w + step)%nat with (op + length (w ++ fst (F st x)))%nat in R2 by (rewrite app_length; lia).
      destruct (IH fuel ins1 outs1 x (fst (F st x)) (p + step)%nat (w ++ fst (F st x)) (plen + step)%nat e (snd (F st x))) as (ins2 & outs2 & inp2 & otp2 & E3 & R3 & R4 & L3 & L4); auto; try lia.
      { rewrite app_length. lia. }
      exists ins2, outs2, inp2, otp2. rewrite E3.
      replace (slice d p (S k * step)) with (x ++ slice d (p + step) (k * step)) by (unfold x; rewrite <- slice_app; f_equal; lia).
      assert (Lc : length (slice d (p + step) (k * step)) = (k * step)%nat) by (rewrite length_slice; lia).
      assert (Oc : okn (length (slice d (p + step) (k * step)))). { apply okb. rewrite Lc. destruct (div_rest step b Hb) as (X & _). rewrite Hs, Nat.add_0_r in X. apply (mod_mult _ b (k * (step / b))); [exact Hb|]. rewrite X at 1. apply Nat.mul_assoc. }
      rewrite (F_app st x) by (auto; rewrite Lx; auto). cbn [fst snd]. rewrite app_assoc. split; [reflexivity|].
      split; [replace (p + S k * step)%nat with (p + step + k * step)%nat by lia; exact R3|].
      split; [|auto]. replace (op + length w + S k * step)%nat with (op + length (w ++ fst (F st x)) + k * step)%nat by (rewrite app_length; lia). exact R4.
  Qed.

  (** the part of a stream Write after the loops *)
  Definition srest (pd : option padding) (counter enc : bool) (n : nat) (ins outs : mstream) (inp otp : list Z) (st : list Z) : res (mstream * mstream * list Z) :=
    let aln := aln_len counter enc n b in
    r <- (if (aln =? n)%nat then Ok (ins, outs, st) else
    if counter then
      let fnl := (n - aln)%nat in
      r <- MemoryStream_Read ins (zeros (length inp)) 0 (Z.of_nat fnl) ;;
      let '(ins, inp, k) := r in
      r <- en_T en aln inp 0 (zeros (length otp)) 0 (Z.to_nat k) st ;;
      outs <- MemoryStream_Write outs (fst r) 0 k ;;
      Ok (ins, outs, snd r)
    else if enc then
      let fnl := (n - aln)%nat in
      r <- MemoryStream_Read ins inp 0 (Z.of_nat fnl) ;;
      let '(ins, inp, k) := r in
      inp <- (if (fnl =? b)%nat then Ok inp else pd <- the_padding pd ;; pd_add pd inp (Z.to_nat k) (length inp)) ;;
      r <- en_EB en inp 0 otp 0 st ;;
      outs <- MemoryStream_Write outs (fst r) 0 (Z.of_nat b) ;;
      Ok (ins, outs, snd r)
    else
      r <- MemoryStream_Read ins inp 0 (Z.of_nat b) ;;
      let '(ins, inp, _) := r in
      r <- en_DB en inp 0 otp 0 st ;;
      pd <- the_padding pd ;;
      k <- pd_len pd (fst r) ;;
      outs <- MemoryStream_Write outs (fst r) 0 k ;;
      Ok (ins, outs, snd r)) ;;
    let '(ins, outs, st) := r in
    outs <- (if ms_pos outs =? msize outs then Ok outs else MemoryStream_SetLength outs (ms_pos outs)) ;;
    Ok (ins, outs, st).
  Notation reach := (reach en).
  Lemma Stream_split pd counter enc ins outs d p od op st : I st -> srel ins (File d p) -> srel outs (File od op) -> (p <= length d)%nat -> (op <= length od)%nat ->
    let n := (length d - p)%nat in let a := reach counter enc n in
    counter = true \/ enc = true \/ (n mod b = 0)%nat -> Z.of_nat (op + n) < 2 ^ 63 ->
    exists ins' outs' inp otp, length inp = b /\ length otp = b /\ srel ins' (File d (p + a)) /\
      srel outs' (File (put_at od op (fst (F st (slice d p a)))) (op + a)) /\
      CipherStream_WriteStream en pd counter enc ins outs st = srest pd counter enc n ins' outs' inp otp (snd (F st (slice d p a))).
  Proof.
    intros Hi Ri Ro Lp Lop n a HC Ho. pose proof Ri as (_ & Ep & _ & Ld). cbn [f_bytes f_pos] in Ep, Ld.
    unfold CipherStream_WriteStream. rewrite (msize_rel _ _ Ri). cbn [f_bytes]. rewrite Ep. unfold safe at 1. rewrite (proj2 (Z.leb_le _ _)) by lia. cbn [bind].
    replace (Z.to_nat (Z.of_nat (length d) - Z.of_nat p)) with n by lia. cbv zeta. fold b.
    destruct (reach_block en F I okn Hb okb HT Hpar counter enc n) as (Q1 & Q2). fold a in Q1, Q2. fold b in Q1.
    assert (Ro' : srel outs (File (put_at od op []) (op + length (@nil Z)))). { rewrite put_at_nil by auto. cbn [length]. rewrite Nat.add_0_r. exact Ro. }
    assert (Mb : (b mod b = 0)%nat) by (apply Nat.mod_same; lia).
    destruct (en_par en && (en_pblk en <? n)%nat)%bool eqn:C.
    - apply andb_true_iff in C. destruct C as (C1 & C2). apply Nat.ltb_lt in C2. destruct (Hpar C1) as (P1 & P2).
      unfold safe at 1. destruct (Nat.eqb_spec (en_pblk en) 0); [lia|]. cbn [negb bind].
      destruct (prc_aln en F I okn Hb okb HT Hpar counter enc n C1 C2 HC) as (q & E1 & E2 & E3 & k & K1 & K2). fold b in E3, K1.
      set (e := prc_len counter enc n (en_pblk en)) in *.
      assert (Bn : (b < n)%nat). { destruct (div_rest (en_pblk en) b Hb) as (X & _). rewrite P2, Nat.add_0_r in X. clear - X P1 C2. destruct (en_pblk en / b)%nat; nia. }
      assert (Ea : a = aln_len counter enc n b) by (unfold a, Proofs_CipherStream.reach; rewrite (proj2 (Nat.ltb_lt _ _)) by exact Bn; reflexivity).
      assert (Le : (e <= a)%nat) by lia.
      destruct (stream_loop_ok d od op (en_pblk en) P2 P1 Ld ltac:(lia) Lop q n ins outs (zeros (en_pblk en)) (zeros (en_pblk en)) p [] 0 e st) as (i1 & o1 & inp1 & otp1 & X1 & X2 & X3 & X4 & X5);
        auto; try lia; try apply length_zeros. { cbn [length]. lia. }
      rewrite X1. cbn [bind fst snd]. unfold safe. destruct (Nat.eqb_spec b 0); [lia|]. cbn [negb bind]. rewrite (proj2 (Nat.ltb_lt _ _)) by exact Bn.
      rewrite <- E1 in *. cbn [app length] in X3. rewrite Nat.add_0_r in X3.
      assert (Lx : length (slice d p e) = e) by (rewrite length_slice; lia).
      assert (Me : (e mod b = 0)%nat). { destruct (div_rest (en_pblk en) b Hb) as (X & _). rewrite P2, Nat.add_0_r in X. apply (mod_mult _ b (q * (en_pblk en / b))); [exact Hb|]. rewrite E1, X at 1. apply Nat.mul_assoc. }
      destruct (F_ok st (slice d p e) Hi) as (L1 & I1); [rewrite Lx; auto|]. rewrite Lx in L1.
      destruct (stream_loop_ok d od op b Mb Hb Ld ltac:(lia) Lop k n i1 o1 (resized inp1 b) (resized otp1 b) (p + e)%nat (fst (F st (slice d p e))) e (aln_len counter enc n b) (snd (F st (slice d p e))))
        as (i2 & o2 & inp2 & otp2 & Y1 & Y2 & Y3 & Y4 & Y5); auto; try apply resized_len; try lia. { rewrite L1. exact X3. }
      rewrite Y1. cbn [bind]. rewrite <- K1, <- Ea in *.
      assert (SA : slice d p a = slice d p e ++ slice d (p + e) (a - e)) by (rewrite <- slice_app; f_equal; lia). rewrite SA.
      assert (Oc : okn (length (slice d (p + e) (a - e)))). { apply okb. rewrite length_slice by lia. rewrite K1. apply Nat.mod_mul. lia. }
      rewrite (F_app st (slice d p e)) by (auto; rewrite Lx; auto). cbn [fst snd].
      exists i2, o2, inp2, otp2. split; [exact Y4|]. split; [exact Y5|]. split; [replace (p + a)%nat with (p + e + (a - e))%nat by lia; exact Y2|].
      split; [replace (op + a)%nat with (op + length (fst (F st (slice d p e))) + (a - e))%nat by lia; exact Y3|].
      unfold srest. rewrite <- Ea. reflexivity.
    - cbn [bind fst snd]. unfold safe. destruct (Nat.eqb_spec b 0); [lia|]. cbn [negb bind]. unfold a, Proofs_CipherStream.reach in *. fold b. fold b in Q1, Q2. destruct (Nat.ltb_spec b n).
      + set (al := aln_len counter enc n b) in *. destruct (div_rest al b Hb) as (E1 & _). rewrite Q1, Nat.add_0_r in E1.
        assert (al / b <= n)%nat by (clear - E1 Q2 Hb; nia).
        destruct (stream_loop_ok d od op b Mb Hb Ld ltac:(lia) Lop (al / b) n ins outs (resized [] b) (resized [] b) p [] 0 al st)
          as (i2 & o2 & inp2 & otp2 & Y1 & Y2 & Y3 & Y4 & Y5); auto; try apply resized_len; try lia. { cbn [length]. lia. }
        rewrite Y1. cbn [bind]. rewrite <- E1 in *. cbn [app length] in Y3. rewrite Nat.add_0_r in Y3. exists i2, o2, inp2, otp2. repeat split; auto; try apply Y2; try apply Y3.
      + cbn [bind]. exists ins, outs, (resized [] b), (resized [] b). unfold slice. cbn [firstn]. rewrite F_nil by auto. cbn [fst snd]. rewrite put_at_nil by auto. rewrite !Nat.add_0_r.
        split; [apply resized_len|]. split; [apply resized_len|]. split; [auto|]. split; [auto|]. reflexivity.
  Qed.
  Lemma finish_ok ins outs st f : srel outs f ->
    (outs <- (if ms_pos outs =? msize outs then Ok outs else MemoryStream_SetLength outs (ms_pos outs)) ;; Ok (ins, outs, st)) = Ok (ins, outs, st : list Z) :> res (mstream * mstream * list Z).
  Proof.
    intros (E1 & E2 & E3 & E4). destruct (ms_pos outs =? msize outs); [reflexivity|]. unfold MemoryStream_SetLength. rewrite E2. rewrite (proj2 (Z.leb_gt _ _)) by lia. reflexivity.
  Qed.
  (** what a Write does: the input is used up, the output receives [c] *)
  Definition stream_result (m : res (mstream * mstream * list Z)) (d : list Z) (p : nat) (od : list Z) (op : nat) (c : list Z) (st' : list Z) : Prop :=
    exists ins' outs', m = Ok (ins', outs', st') /\ srel ins' (File d p) /\ srel outs' (File (put_at od op c) (op + length c)).

  Lemma Stream_counter pd enc ins outs d p od op st : (forall n, okn n) -> I st -> srel ins (File d p) -> srel outs (File od op) -> (p <= length d)%nat -> (op <= length od)%nat ->
    (length d - p <> b)%nat -> Z.of_nat (op + (length d - p)) < 2 ^ 63 ->
    stream_result (CipherStream_WriteStream en pd true enc ins outs st) d (length d) od op (fst (F st (skipn p d))) (snd (F st (skipn p d))).
  Proof.
    intros OK Hi Ri Ro Lp Lop Hn Ho. rewrite <- slice_to_end by auto. set (n := (length d - p)%nat) in *.
    destruct (Stream_split pd true enc ins outs d p od op st Hi Ri Ro Lp Lop (or_introl eq_refl) Ho) as (ins1 & outs1 & inp & otp & L1 & L2 & R1 & R2 & ->). fold n.
    assert (Ea : reach true enc n = aln_len true enc n b) by (apply (reach_aln en F I okn Hb okb HT Hpar); auto). fold n in R1, R2. rewrite Ea in *.
    destruct (aln_block en F I okn Hb okb HT Hpar true enc n) as (A1 & A2). fold b in A1, A2. set (a := aln_len true enc n b) in *.
    assert (Lx : length (slice d p a) = a) by (rewrite length_slice; lia).
    destruct (F_ok st (slice d p a) Hi) as (L3 & I1); [auto|]. rewrite Lx in L3.
    unfold srest. fold a. destruct (Nat.eqb_spec a n) as [E|E].
    - cbn [bind]. rewrite (finish_ok _ _ _ _ R2). rewrite E in *. exists ins1, outs1. split; [reflexivity|]. split; [replace (length d) with (p + n)%nat by lia; exact R1|]. rewrite L3. exact R2.
    - assert (Hf : (n - a < b)%nat). { unfold a, aln_len. cbn [orb]. destruct (div_rest n b Hb). lia. }
      destruct (read_rel ins1 (File d (p + a)) (zeros (length inp)) 0 (n - a) R1) as (ins2 & E1 & R3); cbn [f_bytes f_pos] in *; [lia|lia| |].
      { rewrite length_zeros. rewrite (proj2 (Nat.ltb_ge _ _)) by lia. left. lia. }
      rewrite (proj2 (Nat.ltb_ge _ _)) in E1, R3 by lia. rewrite (proj2 (Nat.eqb_neq (n - a) 0)) in E1 by lia.
      change (Z.of_nat 0) with 0 in E1. cbv zeta. rewrite E1. cbn [bind]. rewrite Nat2Z.id.
      set (x := slice d (p + a) (n - a)) in *. assert (Ly : length x = (n - a)%nat) by (unfold x; rewrite length_slice; lia).
      set (bk := splice (zeros (length inp)) 0 x). assert (Lb : length bk = b) by (unfold bk; rewrite length_splice; rewrite length_zeros; lia).
      assert (Sb : slice bk 0 (n - a) = x) by (unfold bk; apply slice_back; rewrite ?length_zeros; lia).
      rewrite HT by (auto; rewrite ?length_zeros; lia). cbn [bind fst snd]. rewrite Sb.
      destruct (F_ok (snd (F st (slice d p a))) x I1) as (L4 & I2); [auto|]. rewrite Ly in L4.
      set (y := fst (F (snd (F st (slice d p a))) x)) in *.
      assert (LZ : length (splice (zeros (length otp)) 0 y) = b) by (rewrite length_splice; rewrite length_zeros; lia).
      destruct (write_rel outs1 _ (splice (zeros (length otp)) 0 y) 0 (n - a) R2) as (outs2 & E2 & R4); cbn [f_bytes f_pos] in *; [lia|lia|].
      change (Z.of_nat 0) with 0 in E2. rewrite E2. cbn [bind].
      rewrite (slice_back (zeros (length otp)) y 0 (n - a)) in R4 by (rewrite ?length_zeros; lia).
      rewrite put_at_app_eq in R4 by (auto; lia).
      rewrite (finish_ok _ _ _ _ R4).
      assert (SA : slice d p n = slice d p a ++ x) by (unfold x; rewrite <- slice_app; f_equal; lia). rewrite SA. rewrite F_app by (auto; rewrite Lx; auto). cbn [fst snd]. fold y.
      exists ins2, outs2. split; [reflexivity|]. split; [replace (length d) with (p + a + (n - a))%nat by lia; exact R3|].
      rewrite app_length, L3, L4. replace (op + (a + (n - a)))%nat with (op + a + (n - a))%nat by lia. exact R4.
  Qed.
  Lemma Stream_one pd counter enc ins outs d p od op st : I st -> srel ins (File d p) -> srel outs (File od op) -> (p <= length d)%nat -> (op <= length od)%nat ->
    (length d - p)%nat = b -> (counter || enc)%bool = true -> Z.of_nat (op + (length d - p)) < 2 ^ 63 ->
    stream_result (CipherStream_WriteStream en pd counter enc ins outs st) d p od op [] st.
  Proof.
    intros Hi Ri Ro Lp Lop Hn HC Ho.
    assert (HC' : counter = true \/ enc = true \/ ((length d - p) mod b = 0)%nat) by (destruct counter; auto).
    destruct (Stream_split pd counter enc ins outs d p od op st Hi Ri Ro Lp Lop HC' Ho) as (ins1 & outs1 & inp & otp & L1 & L2 & R1 & R2 & ->).
    assert (R : reach counter enc (length d - p) = 0%nat) by (unfold Proofs_CipherStream.reach; fold b; rewrite Hn, Nat.ltb_irrefl; reflexivity). rewrite R in *.
    unfold slice in *. cbn [firstn] in *. rewrite F_nil in * by auto. cbn [fst snd] in *. rewrite put_at_nil, !Nat.add_0_r in * by auto.
    unfold srest. rewrite Hn. unfold aln_len. rewrite HC, Nat.div_same, Nat.mul_1_l, Nat.eqb_refl by lia. cbn [bind]. rewrite (finish_ok _ _ _ _ R2).
    exists ins1, outs1. cbn [length]. rewrite put_at_nil, Nat.add_0_r by auto. auto.
  Qed.
  Lemma Stream_aligned pd ins outs d p od op st : I st -> srel ins (File d p) -> srel outs (File od op) -> (p <= length d)%nat -> (op <= length od)%nat ->
    let n := (length d - p)%nat in (n mod b = 0)%nat -> n <> b -> Z.of_nat (op + (length d - p)) < 2 ^ 63 ->
    stream_result (CipherStream_WriteStream en pd false true ins outs st) d (length d) od op (fst (F st (skipn p d))) (snd (F st (skipn p d))).
  Proof.
    intros Hi Ri Ro Lp Lop n Hm Hn Ho. rewrite <- slice_to_end by auto. fold n. fold n in Ho.
    assert (Ea : reach false true n = n). { rewrite (reach_aln en F I okn Hb okb HT Hpar) by auto. unfold aln_len. cbn [orb]. fold b. destruct (div_rest n b Hb). lia. }
    destruct (Stream_split pd false true ins outs d p od op st Hi Ri Ro Lp Lop (or_intror (or_introl eq_refl)) Ho) as (ins1 & outs1 & inp & otp & L1 & L2 & R1 & R2 & ->). fold n. fold n in R1, R2. rewrite Ea in *.
    assert (Eb : aln_len false true n b = n) by (unfold b; rewrite <- (reach_aln en F I okn Hb okb HT Hpar) by auto; exact Ea).
    assert (Lx : length (slice d p n) = n) by (rewrite length_slice; lia).
    destruct (F_ok st (slice d p n) Hi) as (L3 & _); [rewrite Lx; auto|].
    unfold srest. rewrite Eb, Nat.eqb_refl. cbn [bind]. rewrite (finish_ok _ _ _ _ R2).
    exists ins1, outs1. split; [reflexivity|]. split; [replace (length d) with (p + n)%nat by lia; exact R1|]. rewrite L3, Lx. exact R2.
  Qed.
  Hypothesis HEB : forall l io out oo st, I st -> (io + b <= length l)%nat ->
    en_EB en l io out oo st = if (oo + b <=? length out)%nat then Ok (splice out oo (fst (F st (slice l io b))), snd (F st (slice l io b))) else UB.
  Lemma Stream_padded pd pads ins outs d p od op st : I st -> srel ins (File d p) -> srel outs (File od op) -> (p <= length d)%nat -> (op <= length od)%nat ->
    let n := (length d - p)%nat in let r := (n mod b)%nat in (r <> 0)%nat -> Z.of_nat (op + n + b) < 2 ^ 63 -> length pads = (b - r)%nat ->
    (forall bk, length bk = b -> pd_add pd bk r b = Ok (firstn r bk ++ pads)) ->
    stream_result (CipherStream_WriteStream en (Some pd) false true ins outs st) d (length d) od op (fst (F st (skipn p d ++ pads))) (snd (F st (skipn p d ++ pads))).
  Proof.
    intros Hi Ri Ro Lp Lop n r Hr Ho Lpd HP. destruct (div_rest n b Hb) as (E & L). fold r in E, L.
    assert (NB : n <> b) by (intros X; unfold r in Hr; rewrite X, Nat.mod_same in Hr; lia).
    assert (Ea : reach false true n = (n / b * b)%nat) by (rewrite (reach_aln en F I okn Hb okb HT Hpar) by auto; reflexivity).
    destruct (Stream_split (Some pd) false true ins outs d p od op st Hi Ri Ro Lp Lop (or_intror (or_introl eq_refl)) ltac:(fold n; lia)) as (ins1 & outs1 & inp & otp & L1 & L2 & R1 & R2 & ->). fold n. fold n in R1, R2. rewrite Ea in *.
    unfold srest, aln_len. cbn [orb]. set (a := (n / b * b)%nat) in *. destruct (Nat.eqb_spec a n); [lia|]. cbv zeta.
    replace (n - a)%nat with r by lia.
    destruct (read_rel ins1 (File d (p + a)) inp 0 r R1) as (ins2 & E1 & R3); cbn [f_bytes f_pos] in *; [lia|lia| |].
    { rewrite (proj2 (Nat.ltb_ge _ _)) by lia. left. lia. }
    rewrite (proj2 (Nat.ltb_ge _ _)) in E1, R3 by lia. rewrite (proj2 (Nat.eqb_neq r 0)) in E1 by lia.
    change (Z.of_nat 0) with 0 in E1. rewrite E1. cbn [bind]. rewrite Nat2Z.id.
    assert (Ls : length (slice d (p + a) r) = r) by (rewrite length_slice; lia).
    assert (LB : length (splice inp 0 (slice d (p + a) r)) = b) by (rewrite length_splice; lia).
    destruct (Nat.eqb_spec r b); [lia|]. cbn [the_padding bind]. rewrite LB, HP by exact LB. cbn [bind].
    replace (firstn r (splice inp 0 (slice d (p + a) r))) with (slice d (p + a) r).
    2:{ unfold splice. cbn [firstn app]. rewrite firstn_app, Ls, Nat.sub_diag, firstn_O, app_nil_r. symmetry. apply firstn_all2. lia. }
    set (x := slice d p a) in *. assert (Lx : length x = a) by (unfold x; rewrite length_slice; lia).
    assert (Mx : (length x mod b = 0)%nat) by (rewrite Lx; apply Nat.mod_mul; lia).
    destruct (F_ok st x Hi) as (L3 & I1); [apply okb; auto|]. rewrite Lx in L3.
    rewrite HEB by (auto; rewrite app_length; lia). rewrite L2. cbn [Nat.add]. rewrite Nat.leb_refl. cbn [bind fst snd].
    rewrite (slice_all (_ ++ pads)) by (rewrite app_length; lia).
    assert (Oc : okn (length (slice d (p + a) r ++ pads))) by (apply okb; rewrite app_length, Ls, Lpd; replace (r + (b - r))%nat with b by lia; apply Nat.mod_same; lia).
    destruct (F_ok (snd (F st x)) _ I1 Oc) as (L4 & _). rewrite app_length, Ls, Lpd in L4.
    assert (Sk : skipn p d = x ++ slice d (p + a) r). { unfold x. rewrite <- slice_app. replace (a + r)%nat with n by lia. symmetry. apply slice_to_end. auto. }
    rewrite Sk, <- app_assoc. rewrite (F_app st x) by auto. cbn [fst snd].
    set (y := fst (F (snd (F st x)) _)) in *. rewrite (splice_all otp y) by lia.
    destruct (write_rel outs1 _ y 0 b R2) as (outs2 & E2 & R4); cbn [f_bytes f_pos] in *; [lia|lia|].
    change (Z.of_nat 0) with 0 in E2. rewrite E2. cbn [bind]. rewrite (slice_all y) in R4 by lia. rewrite put_at_app_eq in R4 by (auto; lia).
    rewrite (finish_ok _ _ _ _ R4). exists ins2, outs2. split; [reflexivity|]. split; [replace (length d) with (p + a + r)%nat by lia; exact R3|].
    rewrite app_length, L3. replace (op + (a + length y))%nat with (op + a + b)%nat by lia. exact R4.
  Qed.
  Hypothesis HDB : forall l io out oo st, I st -> (io + b <= length l)%nat -> (oo + b <= length out)%nat ->
    en_DB en l io out oo st = Ok (splice out oo (fst (F st (slice l io b))), snd (F st (slice l io b))).
  Lemma Stream_unpad pd k ins outs d p od op st : I st -> srel ins (File d p) -> srel outs (File od op) -> (p <= length d)%nat -> (op <= length od)%nat ->
    let n := (length d - p)%nat in (n mod b = 0)%nat -> (0 < n)%nat -> Z.of_nat (op + n) < 2 ^ 63 -> (k <= b)%nat ->
    pd_len pd (skipn (n - b) (fst (F st (skipn p d)))) = Ok (Z.of_nat k) ->
    stream_result (CipherStream_WriteStream en (Some pd) false false ins outs st) d (length d) od op (firstn (n - b + k) (fst (F st (skipn p d)))) (snd (F st (skipn p d))).
  Proof.
    clear HEB. intros Hi Ri Ro Lp Lop n Hm Hn Ho Hk HP. destruct (div_rest n b Hb) as (E & L). rewrite Hm, Nat.add_0_r in E.
    assert (1 <= n / b)%nat by (clear - E Hn Hb; destruct (n / b)%nat; lia). assert (Hnb : (b <= n)%nat) by (clear - E H; nia).
    assert (Ea : reach false false n = (n - b)%nat). { rewrite (reach_aln en F I okn Hb okb HT Hpar) by auto. fold b. unfold aln_len. cbn [orb]. rewrite (proj2 (Nat.ltb_ge _ _)) by lia. lia. }
    destruct (Stream_split (Some pd) false false ins outs d p od op st Hi Ri Ro Lp Lop (or_intror (or_intror Hm)) Ho) as (ins1 & outs1 & inp & otp & L1 & L2 & R1 & R2 & ->). fold n. fold n in R1, R2. rewrite Ea in *.
    assert (Eb : aln_len false false n b = (n - b)%nat) by (unfold b; rewrite <- (reach_aln en F I okn Hb okb HT Hpar) by auto; exact Ea).
    unfold srest. rewrite Eb. set (a := (n - b)%nat) in *. destruct (Nat.eqb_spec a n); [lia|].
    assert (Ma : (a mod b = 0)%nat) by (apply (mod_mult _ b (n / b - 1)); [exact Hb|rewrite Nat.mul_sub_distr_r; lia]).
    destruct (read_rel ins1 (File d (p + a)) inp 0 b R1) as (ins2 & E1 & R3); cbn [f_bytes f_pos] in *; [lia|lia| |].
    { rewrite (proj2 (Nat.ltb_ge _ _)) by lia. left. lia. }
    rewrite (proj2 (Nat.ltb_ge _ _)) in E1, R3 by lia. rewrite (proj2 (Nat.eqb_neq b 0)) in E1 by lia.
    change (Z.of_nat 0) with 0 in E1. rewrite E1. cbn [bind].
    set (x := slice d p a) in *. assert (Lx : length x = a) by (unfold x; rewrite length_slice; lia).
    assert (Mx : (length x mod b = 0)%nat) by (rewrite Lx; auto).
    destruct (F_ok st x Hi) as (L3 & I1); [apply okb; auto|]. rewrite Lx in L3.
    set (y := slice d (p + a) b) in *. assert (Ly : length y = b) by (unfold y; rewrite length_slice; lia).
    assert (Oy : okn (length y)) by (apply okb; rewrite Ly; apply Nat.mod_same; lia).
    destruct (F_ok (snd (F st x)) y I1 Oy) as (L4 & I2). rewrite Ly in L4.
    assert (Sk : skipn p d = x ++ y). { unfold x, y. rewrite <- slice_app. replace (a + b)%nat with n by lia. symmetry. apply slice_to_end. auto. }
    rewrite Sk in *. rewrite (F_app st x y) in * by auto. cbn [fst snd] in *.
    rewrite (splice_all inp y) by lia. rewrite HDB by (auto; lia). cbn [bind fst snd the_padding]. rewrite (slice_all y) by lia.
    rewrite (splice_all otp) by lia.
    rewrite skipn_app, skipn_all2, L3, Nat.sub_diag in HP by lia. cbn [skipn app] in HP. rewrite HP. cbn [bind].
    set (z := fst (F (snd (F st x)) y)) in *.
    destruct (write_rel outs1 _ z 0 k R2) as (outs2 & E2 & R4); cbn [f_bytes f_pos] in *; [lia|lia|].
    change (Z.of_nat 0) with 0 in E2. rewrite E2. cbn [bind]. rewrite put_at_app_eq in R4 by (auto; lia).
    rewrite (finish_ok _ _ _ _ R4). exists ins2, outs2. split; [reflexivity|]. split; [replace (length d) with (p + a + b)%nat by lia; exact R3|].
    rewrite firstn_app, L3. rewrite (firstn_all2 (n := (a + k)%nat)) by lia. replace (a + k - a)%nat with k by lia.
    assert (Lk : length (slice z 0 k) = k) by (rewrite length_slice; lia). rewrite app_length, L3. replace (firstn k z) with (slice z 0 k) by reflexivity. rewrite Lk, Nat.add_assoc. exact R4.
  Qed.
End WS.
