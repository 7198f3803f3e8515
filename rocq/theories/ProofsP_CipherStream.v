From Verif Require Import BaseLemmas Spec_Common Spec_Modes Spec_File Spec_CipherStream Proofs_Common Model_Modes Model_Padding Model_Stream Model_KDF Model_CipherStream Session_CipherStream
  Proofs_Windows Proofs_Stream Proofs_KDF Proofs_Modes Proofs_Modes2 Proofs_Modes3 ProofsP_Modes2 Proofs_CipherStream Proofs_CipherStream2 Proofs_CipherStream3.
Open Scope Z_scope.

Section X.
  Context (x : setup) (enc : bool).
  Hypothesis HX : good_setup x.
  Definition eng : engine := engine_of (s_mode x) (s_E x) (s_D x) (s_wide x) (s_prof x) (s_sched x) enc.
  Definition go := run (s_mode x) (s_E x) (s_D x) enc.
  Lemma h_bs : en_bs eng = unit_size (s_mode x). Proof. apply en_bs_ok. Qed.
  Lemma h_b : (0 < en_bs eng)%nat. Proof. rewrite h_bs. apply unit_pos, HX. Qed.
  Lemma h_okb n : (n mod en_bs eng = 0)%nat -> lens (s_mode x) n.
  Proof. rewrite h_bs. unfold lens. destruct (counter _); auto. Qed.
  Lemma h_T : forall k l io out oo len st, rcond (s_mode x) st -> lens (s_mode x) len -> (io + len <= length l)%nat -> (oo + len <= length out)%nat ->
    en_T eng k l io out oo len st = Ok (splice out oo (fst (go st (slice l io len))), snd (go st (slice l io len))).
  Proof. intros. apply en_T_ok; auto. Qed.
  Lemma h_Fok : forall st m, rcond (s_mode x) st -> lens (s_mode x) (length m) -> length (fst (go st m)) = length m /\ rcond (s_mode x) (snd (go st m)).
  Proof. intros. apply run_ok; auto; apply HX. Qed.
  Lemma h_Fapp : forall st a c, rcond (s_mode x) st -> (length a mod en_bs eng = 0)%nat -> lens (s_mode x) (length c) ->
    go st (a ++ c) = (fst (go st a) ++ fst (go (snd (go st a)) c), snd (go (snd (go st a)) c)).
  Proof. intros st a c H1 H2 H3. rewrite h_bs in H2. apply run_app; auto; apply HX. Qed.
  Lemma h_Fnil : forall st, rcond (s_mode x) st -> go st [] = ([], st).
  Proof. intros. apply run_nil; auto; apply HX. Qed.
  Lemma h_par : en_par eng = true -> (0 < en_pblk eng)%nat /\ (en_pblk eng mod en_bs eng = 0)%nat.
  Proof. rewrite h_bs. apply en_par_ok. exact HX. Qed.
  Lemma h_EB : enc = true -> counter (s_mode x) = false -> forall l io out oo st, rcond (s_mode x) st -> (io + en_bs eng <= length l)%nat ->
    en_EB eng l io out oo st = if (oo + en_bs eng <=? length out)%nat then Ok (splice out oo (fst (go st (slice l io (en_bs eng)))), snd (go st (slice l io (en_bs eng)))) else UB.
  Proof. rewrite h_bs. intros. apply en_EB_ok; auto. Qed.
  Lemma h_DB : enc = false -> counter (s_mode x) = false -> forall l io out oo st, rcond (s_mode x) st -> (io + en_bs eng <= length l)%nat -> (oo + en_bs eng <= length out)%nat ->
    en_DB eng l io out oo st = Ok (splice out oo (fst (go st (slice l io (en_bs eng)))), snd (go st (slice l io (en_bs eng)))).
  Proof. rewrite h_bs. intros. apply en_DB_ok; auto. Qed.
  Lemma lens_all : counter (s_mode x) = true -> forall n, lens (s_mode x) n.
  Proof. intros C n. unfold lens. now rewrite C. Qed.
End X.
Ltac hyps HX := first [exact (h_b _ _ HX)|exact (h_okb _ _)|exact (h_T _ _ HX)|exact (h_Fok _ _ HX)|exact (h_Fapp _ _ HX)|exact (h_Fnil _ _ HX)|exact (h_par _ _ HX)|apply h_EB; auto; fail|apply h_DB; auto; fail|apply reg_rcond; auto; fail|apply lens_all; auto; fail|idtac].

Section Y.
  Context (x : setup).
  Hypothesis HX : good_setup x.
  Let m := s_mode x.
  Let b := unit_size m.
  Let R := run m (s_E x) (s_D x).

  Lemma counter_any enc inp io out oo st : counter m = true -> register st -> (io <= length inp)%nat -> (length inp - io <> 16)%nat -> (oo + (length inp - io) <= length out)%nat ->
    write x enc inp io out oo st = Ok (splice out oo (fst (R enc st (skipn io inp))), snd (R enc st (skipn io inp))).
  Proof.
    intros C Hs H1 H2 H3. unfold write. fold m. rewrite C. fold (eng x enc). eapply (Write_counter (eng x enc) (go x enc) (rcond (s_mode x)) (lens (s_mode x))); hyps HX; auto.
    rewrite h_bs. fold m. destruct m; try discriminate; exact H2.
  Qed.
  Lemma enc_padded inp io out oo st : counter m = false -> register st -> (io <= length inp)%nat -> let msg := skipn io inp in (length msg mod b <> 0)%nat -> (oo + length msg / b * b <= length out)%nat ->
    write x true inp io out oo st = if (oo =? 0)%nat then Ok (R true st (padded (s_pad x) b msg)) else UB.
  Proof.
    intros C Hs H1 msg H2 H3. assert (Lm : length msg = (length inp - io)%nat) by (unfold msg; apply skipn_length). rewrite Lm in *.
    unfold padded. rewrite Lm. rewrite (proj2 (Nat.eqb_neq ((length inp - io) mod b) 0)) by auto. unfold msg. set (pads := pad_bytes (s_pad x) (b - (length inp - io) mod b)).
    assert (Eb : b = en_bs (eng x true)) by (symmetry; exact (h_bs x _)).
    pose proof (unit_pos m (proj1 (proj2 HX))) as U. fold b in U. pose proof (Nat.mod_upper_bound (length inp - io) b ltac:(lia)) as MB.
    unfold write. fold m. rewrite C. fold (eng x true). change (R true) with (go x true).
    refine (Write_padded (eng x true) (go x true) (rcond (s_mode x)) (lens (s_mode x)) _ _ _ _ _ _ _ _ (padding_of (s_pad x)) pads inp io out oo st _ _ _ _ _ _); hyps HX; auto; rewrite <- ?Eb; auto.
    - unfold pads. apply pad_len. lia.
    - intros bk L. unfold pads. apply add_ok; lia.
  Qed.
  Lemma enc_aligned inp io out oo st : counter m = false -> register st -> (io <= length inp)%nat -> let msg := skipn io inp in (length msg mod b = 0)%nat -> length msg <> b -> (oo + length msg <= length out)%nat ->
    write x true inp io out oo st = Ok (splice out oo (fst (R true st msg)), snd (R true st msg)).
  Proof.
    intros C Hs H1 msg H2 H3 H4. assert (Lm : length msg = (length inp - io)%nat) by (unfold msg; apply skipn_length). rewrite Lm in *.
    assert (Eb : b = en_bs (eng x true)) by (symmetry; exact (h_bs x _)).
    unfold write. fold m. rewrite C. fold (eng x true). change (R true) with (go x true). unfold msg.
    eapply (Write_aligned (eng x true) (go x true) (rcond (s_mode x)) (lens (s_mode x))); hyps HX; auto; rewrite <- ?Eb; auto.
  Qed.
  Lemma one_block enc inp io out oo st : (counter m || enc)%bool = true -> register st -> (io <= length inp)%nat -> (length inp - io)%nat = b -> (oo <= length out)%nat ->
    write x enc inp io out oo st = Ok (out, st).
  Proof.
    intros C Hs H1 H2 H3. unfold write. fold m. fold (eng x enc).
    eapply (Write_one (eng x enc) (go x enc) (rcond (s_mode x)) (lens (s_mode x))); hyps HX; auto. rewrite h_bs. exact H2.
  Qed.
  Lemma dec_padded inp io out oo st k : counter m = false -> register st -> (io <= length inp)%nat -> let c := skipn io inp in (length c mod b = 0)%nat -> (0 < length c)%nat ->
    (k <= b)%nat -> (oo + (length c - b) + k <= length out)%nat -> pd_len (padding_of (s_pad x)) (skipn (length c - b) (fst (R false st c))) = Ok (Z.of_nat k) ->
    write x false inp io out oo st = Ok (resized (splice out oo (firstn (length c - b + k) (fst (R false st c)))) (length c - b + k), snd (R false st c)).
  Proof.
    intros C Hs H1 c H2 H3 H4 H5 H6. assert (Lm : length c = (length inp - io)%nat) by (unfold c; apply skipn_length). rewrite Lm in *.
    assert (Eb : b = en_bs (eng x false)) by (symmetry; exact (h_bs x _)).
    unfold write. fold m. rewrite C. fold (eng x false). change (R false) with (go x false) in *. unfold c in *. rewrite Eb in *.
    refine (Write_unpad (eng x false) (go x false) (rcond (s_mode x)) (lens (s_mode x)) _ _ _ _ _ _ _ _ _ k inp io out oo st _ _ _ _ _ _ _); hyps HX; auto.
  Qed.
  (** the same with streams *)
  Definition moved (r : res (mstream * mstream * list Z)) (d : list Z) (p : nat) (od : list Z) (op : nat) (c st' : list Z) : Prop :=
    exists i o, r = Ok (i, o, st') /\ ms_data i = d /\ ms_pos i = Z.of_nat p /\ ms_data o = put_at od op c /\ ms_pos o = Z.of_nat (op + length c).
  Lemma to_moved r d p od op c st' : stream_result r d p od op c st' -> moved r d p od op c st'.
  Proof. intros (i & o & E & (A1 & A2 & _) & (B1 & B2 & _)). exists i, o. auto. Qed.
  Lemma mk_srel d p q : Z.of_nat (length d) < 2 ^ 63 -> (p <= length d)%nat -> srel (MStream d (Z.of_nat p) q) (File d p).
  Proof. intros. unfold srel. cbn [ms_data ms_pos f_bytes f_pos]. repeat split; lia. Qed.
  Lemma scounter_any enc d p od op q q' st : counter m = true -> register st -> (p <= length d)%nat -> (op <= length od)%nat -> (length d - p <> 16)%nat ->
    Z.of_nat (length d) < 2 ^ 63 -> Z.of_nat (length od) < 2 ^ 63 -> Z.of_nat (op + (length d - p)) < 2 ^ 63 ->
    moved (write_stream x enc (MStream d (Z.of_nat p) q) (MStream od (Z.of_nat op) q') st) d (length d) od op (fst (R enc st (skipn p d))) (snd (R enc st (skipn p d))).
  Proof.
    intros C Hs H1 H2 H3 L1 L2 L3. unfold write_stream. fold m. rewrite C. fold (eng x enc). apply to_moved.
    eapply (Stream_counter (eng x enc) (go x enc) (rcond (s_mode x)) (lens (s_mode x))); hyps HX; auto using mk_srel.
    rewrite h_bs. fold m. destruct m; try discriminate; exact H3.
  Qed.
  Lemma senc_padded d p od op q q' st : counter m = false -> register st -> (p <= length d)%nat -> (op <= length od)%nat -> let msg := skipn p d in (length msg mod b <> 0)%nat ->
    Z.of_nat (length d) < 2 ^ 63 -> Z.of_nat (length od) < 2 ^ 63 -> Z.of_nat (op + length msg + b) < 2 ^ 63 ->
    moved (write_stream x true (MStream d (Z.of_nat p) q) (MStream od (Z.of_nat op) q') st) d (length d) od op (fst (R true st (padded (s_pad x) b msg))) (snd (R true st (padded (s_pad x) b msg))).
  Proof.
    intros C Hs H1 H1' msg H2 L1 L2 L3. assert (Lm : length msg = (length d - p)%nat) by (unfold msg; apply skipn_length). rewrite Lm in *.
    unfold padded. rewrite Lm. rewrite (proj2 (Nat.eqb_neq _ _)) by auto. unfold msg. set (pads := pad_bytes (s_pad x) (b - (length d - p) mod b)).
    assert (Eb : b = en_bs (eng x true)) by (symmetry; exact (h_bs x _)).
    pose proof (unit_pos m (proj1 (proj2 HX))) as U. fold b in U. pose proof (Nat.mod_upper_bound (length d - p) b ltac:(lia)) as MB.
    unfold write_stream. fold m. rewrite C. fold (eng x true). change (R true) with (go x true). apply to_moved.
    refine (Stream_padded (eng x true) (go x true) (rcond (s_mode x)) (lens (s_mode x)) _ _ _ _ _ _ _ _ (padding_of (s_pad x)) pads _ _ d p od op st _ _ _ _ _ _ _ _ _); hyps HX; auto using mk_srel; rewrite <- ?Eb; auto.
    - unfold pads. apply pad_len. lia.
    - intros bk L. unfold pads. apply add_ok; lia.
  Qed.
  Lemma senc_aligned d p od op q q' st : counter m = false -> register st -> (p <= length d)%nat -> (op <= length od)%nat -> let msg := skipn p d in (length msg mod b = 0)%nat -> length msg <> b ->
    Z.of_nat (length d) < 2 ^ 63 -> Z.of_nat (length od) < 2 ^ 63 -> Z.of_nat (op + length msg) < 2 ^ 63 ->
    moved (write_stream x true (MStream d (Z.of_nat p) q) (MStream od (Z.of_nat op) q') st) d (length d) od op (fst (R true st msg)) (snd (R true st msg)).
  Proof.
    intros C Hs H1 H1' msg H2 H3 L1 L2 L3. assert (Lm : length msg = (length d - p)%nat) by (unfold msg; apply skipn_length). rewrite Lm in *.
    assert (Eb : b = en_bs (eng x true)) by (symmetry; exact (h_bs x _)).
    unfold write_stream. fold m. rewrite C. fold (eng x true). change (R true) with (go x true). apply to_moved. unfold msg.
    eapply (Stream_aligned (eng x true) (go x true) (rcond (s_mode x)) (lens (s_mode x))); hyps HX; auto using mk_srel; rewrite <- ?Eb; auto.
  Qed.
  Lemma sone_block enc d p od op q q' st : (counter m || enc)%bool = true -> register st -> (p <= length d)%nat -> (op <= length od)%nat -> (length d - p)%nat = b ->
    Z.of_nat (length d) < 2 ^ 63 -> Z.of_nat (length od) < 2 ^ 63 -> Z.of_nat (op + b) < 2 ^ 63 ->
    moved (write_stream x enc (MStream d (Z.of_nat p) q) (MStream od (Z.of_nat op) q') st) d p od op [] st.
  Proof.
    intros C Hs H1 H1' H2 L1 L2 L3. unfold write_stream. fold m. fold (eng x enc). apply to_moved.
    eapply (Stream_one (eng x enc) (go x enc) (rcond (s_mode x)) (lens (s_mode x))); hyps HX; auto using mk_srel; [rewrite h_bs; exact H2|lia].
  Qed.
  Lemma sdec_padded d p od op q q' st k : counter m = false -> register st -> (p <= length d)%nat -> (op <= length od)%nat -> let c := skipn p d in (length c mod b = 0)%nat -> (0 < length c)%nat ->
    (k <= b)%nat -> pd_len (padding_of (s_pad x)) (skipn (length c - b) (fst (R false st c))) = Ok (Z.of_nat k) ->
    Z.of_nat (length d) < 2 ^ 63 -> Z.of_nat (length od) < 2 ^ 63 -> Z.of_nat (op + length c) < 2 ^ 63 ->
    moved (write_stream x false (MStream d (Z.of_nat p) q) (MStream od (Z.of_nat op) q') st) d (length d) od op (firstn (length c - b + k) (fst (R false st c))) (snd (R false st c)).
  Proof.
    intros C Hs H1 H1' c H2 H3 H4 H6 L1 L2 L3. assert (Lm : length c = (length d - p)%nat) by (unfold c; apply skipn_length). rewrite Lm in *.
    assert (Eb : b = en_bs (eng x false)) by (symmetry; exact (h_bs x _)).
    unfold write_stream. fold m. rewrite C. fold (eng x false). change (R false) with (go x false) in *. unfold c in *. rewrite Eb in *. apply to_moved.
    refine (Stream_unpad (eng x false) (go x false) (rcond (s_mode x)) (lens (s_mode x)) _ _ _ _ _ _ _ _ _ k _ _ d p od op st _ _ _ _ _ _ _ _ _ _); hyps HX; auto using mk_srel.
  Qed.
End Y.

Lemma padded_len k b msg : (0 < b)%nat -> (length (padded k b msg) mod b = 0)%nat /\ (length msg <= length (padded k b msg))%nat /\
  ((length msg mod b <> 0)%nat -> length (padded k b msg) = (length msg / b * b + b)%nat).
Proof.
  intros H. unfold padded. destruct (div_rest (length msg) b H) as (Q & L). destruct (Nat.eqb_spec (length msg mod b) 0) as [E|E]; [split; [auto|split; [lia|congruence]]|].
  rewrite app_length, pad_len by lia. assert (X : (length msg + (b - length msg mod b) = length msg / b * b + b)%nat) by lia.
  split; [|split; [lia|auto]]. rewrite X. apply (mod_mult _ b (length msg / b + 1)); [auto|]. lia.
Qed.
Lemma bytes_pad k n : (0 < n <= 16)%nat -> bytes (pad_bytes k n).
Proof.
  intros H. assert (X : forall v j, 0 <= v < 256 -> bytes (repeat v j)). { intros v j Hv. apply Forall_forall. intros y Hy. apply repeat_spec in Hy. subst. exact Hv. }
  destruct k; cbn [pad_bytes].
  - apply X. lia.
  - apply bytes_app. split; [apply X; lia|]. constructor; [unfold is_byte; lia|constructor].
  - apply Forall_forall. intros y Hy. apply in_map_iff in Hy. destruct Hy as (i & <- & Hi). apply in_seq in Hi. unfold is_byte. lia.
  - constructor; [unfold is_byte; lia|]. apply X. lia.
Qed.
Lemma bytes_padded k b msg : (0 < b <= 16)%nat -> bytes msg -> bytes (padded k b msg).
Proof. intros H B. unfold padded. destruct (_ =? _)%nat; auto. apply bytes_app. split; auto. apply bytes_pad. pose proof (Nat.mod_upper_bound (length msg) b ltac:(lia)). lia. Qed.
Lemma lens_block m n : counter m = false -> (n mod unit_size m = 0)%nat -> lens m n.
Proof. intros C H. unfold lens. rewrite C. exact H. Qed.

(** a block-mode ciphertext of a message whose last block ends in something that looks like padding *)
Section Tail.
  Context (x y : setup).
  Hypothesis HC : counterpart x y.
  Let m := s_mode x.
  Let b := unit_size m.
  Let R := run m (s_E x) (s_D x).
  Lemma tail_eval st body j : counter m = false -> register st -> bytes body -> (1 <= j <= b)%nat -> ((length body + j) mod b = 0)%nat ->
    let msg := body ++ pad_bytes (s_pad x) j in let c := fst (R true st msg) in
    R false st c = (msg, snd (R true st msg)) /\ register (snd (R true st msg)) /\ length c = (length body + j)%nat /\ (0 < length c)%nat /\ (length c mod b = 0)%nat /\
    (b <= length body + j)%nat /\ pd_len (padding_of (s_pad x)) (skipn (length c - b) msg) = Ok (Z.of_nat (b - j)).
  Proof.
    intros C Hs Bb Hj Hm msg c. destruct HC as (HX & HY & E1 & E2 & E3 & E4). pose proof (unit_pos m (proj1 (proj2 HX))) as U. pose proof (unit_two m (proj1 (proj2 HX))) as U2. fold b in U, U2.
    assert (Lm : length msg = (length body + j)%nat) by (unfold msg; rewrite app_length, pad_len; lia).
    assert (Bm : bytes msg) by (unfold msg; apply bytes_app; split; auto; apply bytes_pad; lia).
    assert (Ln : lens m (length msg)) by (apply lens_block; auto; rewrite Lm; exact Hm).
    destruct (run_inv m (s_E x) (s_D x) (proj1 HX) (proj1 (proj2 HX)) st msg Hs Bm Ln) as (A1 & A2 & _).
    destruct (run_ok m (s_E x) (s_D x) true (proj1 (proj1 HX)) (proj1 (proj2 (proj1 HX))) (proj1 (proj2 HX)) st msg (reg_rcond m st Hs) Ln) as (L1 & _).
    fold (R true) in L1, A1. change (run m (s_E x) (s_D x) true) with (R true) in *. change (run m (s_E x) (s_D x) false) with (R false) in *.
    assert (Hbm : (b <= length body + j)%nat). { destruct (div_rest (length body + j) b ltac:(lia)) as (Q & _). rewrite Hm, Nat.add_0_r in Q. destruct ((length body + j) / b)%nat; [lia|]. rewrite Q. clear - U. lia. }
    unfold c. rewrite L1, Lm. repeat split; auto; try lia; try apply A1.
    set (t := skipn (length body + j - b) body). assert (Lt : length t = (b - j)%nat) by (unfold t; rewrite skipn_length; lia).
    replace (skipn (length body + j - b) msg) with (t ++ pad_bytes (s_pad x) (b - length t)).
    2:{ unfold msg, t. rewrite skipn_app. replace (length body + j - b - length body)%nat with 0%nat by lia. cbn [skipn]. f_equal. f_equal. rewrite skipn_length. lia. }
    rewrite get_len_ok; [now rewrite Lt|unfold t; now apply bytes_skipn|lia|lia].
  Qed.
  Lemma tail_dec st body j out oo : counter m = false -> register st -> bytes body -> (1 <= j <= b)%nat -> ((length body + j) mod b = 0)%nat ->
    let msg := body ++ pad_bytes (s_pad x) j in let c := fst (R true st msg) in (oo + length body <= length out)%nat ->
    write y false c 0 out oo st = Ok (resized (splice out oo body) (length body), snd (R true st msg)).
  Proof.
    intros C Hs Bb Hj Hm msg c Ho. destruct (tail_eval st body j C Hs Bb Hj Hm) as (A1 & A2 & A3 & A4 & A5 & A6 & A7). fold msg in A1, A2, A3, A4, A5, A7. fold c in A1, A3, A4, A5, A7.
    destruct HC as (HX & HY & E1 & E2 & E3 & E4).
    assert (Rs : skipn 0 c = c) by reflexivity.
    pose proof (dec_padded y HY c 0 out oo st (b - j)) as P. cbv zeta in P. rewrite E1, E2, E3, E4 in P. fold m in P. change (run m (s_E x) (s_D x) false) with (R false) in P. fold b in P. rewrite Rs, A1 in P. cbn [fst snd] in P.
    rewrite P; auto; try lia. rewrite A3. replace (length body + j - b + (b - j))%nat with (length body) by lia.
    unfold msg. rewrite firstn_app, Nat.sub_diag, firstn_O, app_nil_r, firstn_all. reflexivity.
  Qed.
  Lemma tail_sdec st body j od op q q' : counter m = false -> register st -> bytes body -> (1 <= j <= b)%nat -> ((length body + j) mod b = 0)%nat ->
    let msg := body ++ pad_bytes (s_pad x) j in let c := fst (R true st msg) in (op <= length od)%nat -> Z.of_nat (length od) < 2 ^ 63 -> Z.of_nat (op + length msg) < 2 ^ 63 ->
    moved (write_stream y false (MStream c 0 q) (MStream od (Z.of_nat op) q') st) c (length c) od op body (snd (R true st msg)).
  Proof.
    intros C Hs Bb Hj Hm msg c Ho O1 O2. destruct (tail_eval st body j C Hs Bb Hj Hm) as (A1 & A2 & A3 & A4 & A5 & A6 & A7). fold msg in A1, A2, A3, A4, A5, A7. fold c in A1, A3, A4, A5, A7.
    assert (Lm : length msg = (length body + j)%nat) by (unfold msg; rewrite app_length, pad_len; lia).
    destruct HC as (HX & HY & E1 & E2 & E3 & E4).
    assert (Rs : skipn 0 c = c) by reflexivity.
    pose proof (sdec_padded y HY c 0 od op q q' st (b - j)) as P. cbv zeta in P. rewrite E1, E2, E3, E4 in P. fold m in P. change (run m (s_E x) (s_D x) false) with (R false) in P. fold b in P. rewrite Rs, A1 in P. cbn [fst snd] in P.
    replace (length c - b + (b - j))%nat with (length body) in P by (rewrite A3; lia).
    replace (firstn (length body) msg) with body in P by (unfold msg; rewrite firstn_app, Nat.sub_diag, firstn_O, app_nil_r, firstn_all; reflexivity).
    apply P; auto; lia.
  Qed.
End Tail.

Lemma pad_split k b msg : (0 < b)%nat -> (length msg mod b <> 0)%nat -> exists j, (1 <= j <= b)%nat /\ ((length msg + j) mod b = 0)%nat /\ padded k b msg = msg ++ pad_bytes k j.
Proof.
  intros H Hm. pose proof (Nat.mod_upper_bound (length msg) b ltac:(lia)) as MB. exists (b - length msg mod b)%nat. split; [lia|].
  destruct (padded_len k b msg H) as (P1 & _ & P3). unfold padded in *. rewrite (proj2 (Nat.eqb_neq _ _)) in * by auto.
  rewrite app_length, pad_len in P1 by lia. auto.
Qed.

(** ** the theorems *)
Lemma c44_encrypt x inp io out st : good_setup x -> counter (s_mode x) = false -> register st -> (io <= length inp)%nat ->
  let msg := skipn io inp in let b := unit_size (s_mode x) in (length msg mod b <> 0)%nat -> (length msg / b * b <= length out)%nat ->
  exists st', write x true inp io out 0 st = Ok (mode_encrypt (s_mode x) (s_E x) st (padded (s_pad x) b msg), st').
Proof.
  intros HX C Hs Hio msg b H1 H2.
  exists (snd (run (s_mode x) (s_E x) (s_D x) true st (padded (s_pad x) b msg))). rewrite (enc_padded x HX) by auto. cbn [Nat.eqb].
  fold msg b. destruct (padded_len (s_pad x) b msg) as (P1 & _); [apply unit_pos, HX|].
  assert (Ln : lens (s_mode x) (length (padded (s_pad x) b msg))) by (apply lens_block; auto).
  pose proof (run_spec (s_mode x) (s_E x) (s_D x) true (proj1 (proj2 HX)) st _ Ln) as RS. cbn iota in RS. rewrite <- RS. now rewrite <- surjective_pairing.
Qed.
Lemma c44_aligned x inp io out oo st : good_setup x -> counter (s_mode x) = false -> register st -> (io <= length inp)%nat ->
  let msg := skipn io inp in let b := unit_size (s_mode x) in (length msg mod b = 0)%nat -> length msg <> b -> (oo + length msg <= length out)%nat ->
  exists out' st', write x true inp io out oo st = Ok (out', st') /\ written out out' oo (mode_encrypt (s_mode x) (s_E x) st msg).
Proof.
  intros HX C Hs Hio msg b H1 H2 H3. rewrite (enc_aligned x HX) by auto. do 2 eexists. split; [reflexivity|]. fold msg.
  assert (Ln : lens (s_mode x) (length msg)) by (apply lens_block; auto).
  pose proof (run_spec (s_mode x) (s_E x) (s_D x) true (proj1 (proj2 HX)) st _ Ln) as RS. cbn iota in RS. rewrite <- RS.
  apply splice_written. destruct (run_ok (s_mode x) (s_E x) (s_D x) true (proj1 (proj1 HX)) (proj1 (proj2 (proj1 HX))) (proj1 (proj2 HX)) st msg (reg_rcond _ st Hs) Ln) as (L1 & _). rewrite L1. exact H3.
Qed.
Lemma c44_counter x enc inp io out oo st : good_setup x -> counter (s_mode x) = true -> register st -> (io <= length inp)%nat ->
  let msg := skipn io inp in length msg <> 16%nat -> (oo + length msg <= length out)%nat ->
  exists out' st', write x enc inp io out oo st = Ok (out', st') /\ written out out' oo (mode_encrypt (s_mode x) (s_E x) st msg).
Proof.
  intros HX C Hs Hio msg H1 H2. assert (Lm : length msg = (length inp - io)%nat) by (unfold msg; apply skipn_length).
  rewrite (counter_any x HX) by (auto; lia). do 2 eexists. split; [reflexivity|]. fold msg.
  assert (Ln : lens (s_mode x) (length msg)) by (unfold lens; rewrite C; exact I).
  replace (mode_encrypt (s_mode x) (s_E x) st msg) with (fst (run (s_mode x) (s_E x) (s_D x) enc st msg)) by (destruct (s_mode x); try discriminate; reflexivity).
  apply splice_written. destruct (run_ok (s_mode x) (s_E x) (s_D x) enc (proj1 (proj1 HX)) (proj1 (proj2 (proj1 HX))) (proj1 (proj2 HX)) st msg (reg_rcond _ st Hs) Ln) as (L1 & _). rewrite L1. exact H2.
Qed.
Lemma resized_exact (out d : list Z) : (length d <= length out)%nat -> resized (splice out 0 d) (length d) = d.
Proof. intros H. unfold resized, splice. cbn [firstn app Nat.add]. rewrite firstn_app, Nat.sub_diag, firstn_O, app_nil_r, firstn_all. replace (_ - _)%nat with 0%nat by (rewrite app_length; lia). cbn. apply app_nil_r. Qed.
Lemma c44_round_trip x y ms o1 st : counterpart x y -> counter (s_mode x) = false -> register st ->
  let b := unit_size (s_mode x) in
  Forall2 (fun msg out => bytes msg /\ (length msg mod b <> 0)%nat /\ (length msg / b * b <= length out)%nat) ms o1 ->
  exists cs st', writes x true (combine ms o1) st = Ok (cs, st') /\
    forall o2, Forall2 (fun msg out => (length msg <= length out)%nat) ms o2 -> writes y false (combine cs o2) st = Ok (ms, st').
Proof.
  intros HC C Hs b H. revert st Hs. induction H as [|msg o ms o1 (H1 & H2 & H3) H IH]; intros st Hs.
  - exists [], st. split; [reflexivity|]. intros o2 F. inversion F. reflexivity.
  - pose proof HC as (HX & HY & E1 & E2 & E3 & E4). destruct (unit_pos (s_mode x) (proj1 (proj2 HX))) as (U1 & U2). fold b in U1, U2.
    set (P := padded (s_pad x) b msg). destruct (pad_split (s_pad x) b msg U1 H2) as (j & J1 & J2 & J3). fold P in J3.
    destruct (tail_eval x y HC st msg j C Hs H1 J1 J2) as (_ & A2 & A3 & _). rewrite <- J3 in A2, A3.
    destruct (IH (snd (run (s_mode x) (s_E x) (s_D x) true st P)) A2) as (cs & st' & IH1 & IH2).
    exists (fst (run (s_mode x) (s_E x) (s_D x) true st P) :: cs), st'. split.
    + cbn [combine writes]. rewrite (enc_padded x HX msg 0 o 0 st C Hs (Nat.le_0_l _) H2 H3). cbn [skipn Nat.eqb bind]. fold b P. rewrite IH1. reflexivity.
    + intros o2 F. inversion F as [|? q ? o2' F1 F2]; subst. cbn [combine writes]. rewrite J3.
      rewrite (tail_dec x y HC st msg j q 0 C Hs H1 J1 J2) by exact F1. cbn [bind fst snd]. rewrite <- J3. rewrite resized_exact by auto. rewrite (IH2 _ F2). reflexivity.
Qed.
Lemma c44_counter_round_trip x y ms o1 st : counterpart x y -> counter (s_mode x) = true -> register st ->
  Forall2 (fun msg out => bytes msg /\ length msg <> 16%nat /\ length out = length msg) ms o1 ->
  exists cs st', writes x true (combine ms o1) st = Ok (cs, st') /\
    forall o2, Forall2 (fun msg out => length out = length msg) ms o2 -> writes y false (combine cs o2) st = Ok (ms, st').
Proof.
  intros HC C Hs H. revert st Hs. induction H as [|msg o ms o1 (H1 & H2 & H3) H IH]; intros st Hs.
  - exists [], st. split; [reflexivity|]. intros o2 F. inversion F. reflexivity.
  - pose proof HC as (HX & HY & E1 & E2 & E3 & E4).
    assert (Ln : lens (s_mode x) (length msg)) by (unfold lens; rewrite C; exact I).
    destruct (run_inv (s_mode x) (s_E x) (s_D x) (proj1 HX) (proj1 (proj2 HX)) st msg Hs H1 Ln) as (A1 & A2 & _).
    destruct (run_ok (s_mode x) (s_E x) (s_D x) true (proj1 (proj1 HX)) (proj1 (proj2 (proj1 HX))) (proj1 (proj2 HX)) st msg (reg_rcond _ st Hs) Ln) as (L1 & _).
    set (c := fst (run (s_mode x) (s_E x) (s_D x) true st msg)) in *. destruct (IH _ A1) as (cs & st' & IH1 & IH2).
    exists (c :: cs), st'. split.
    + cbn [combine writes]. rewrite (counter_any x HX) by (auto; lia). cbn [skipn bind fst snd]. fold c. rewrite IH1. cbn [bind fst snd]. rewrite splice_all by lia. reflexivity.
    + intros o2 F. inversion F as [|? q ? o2' F1 F2]; subst. cbn [combine writes]. assert (Cy : counter (s_mode y) = true) by now rewrite E1.
      rewrite (counter_any y HY) by (auto; lia). cbn [skipn bind fst snd]. rewrite E1, E3, E4. rewrite A2. cbn [fst snd]. rewrite (IH2 _ F2). cbn [bind fst snd]. rewrite splice_all by lia. reflexivity.
Qed.
Lemma c44_one_block x enc inp io out oo st : good_setup x -> (counter (s_mode x) || enc)%bool = true -> register st -> (io <= length inp)%nat ->
  (length inp - io)%nat = unit_size (s_mode x) -> (oo <= length out)%nat -> write x enc inp io out oo st = Ok (out, st).
Proof. intros. now apply one_block. Qed.
Lemma c44_tail x y body j o1 o2 st : counterpart x y -> counter (s_mode x) = false -> register st -> bytes body ->
  let b := unit_size (s_mode x) in let msg := body ++ pad_bytes (s_pad x) j in
  (1 <= j <= b)%nat -> (length msg mod b = 0)%nat -> length msg <> b -> length o1 = length msg -> (length body <= length o2)%nat ->
  exists c st', write x true msg 0 o1 0 st = Ok (c, st') /\ write y false c 0 o2 0 st = Ok (body, st').
Proof.
  intros HC C Hs B b msg Hj Hm Hn L1 L2. pose proof HC as (HX & _). destruct (unit_pos (s_mode x) (proj1 (proj2 HX))) as (U1 & U2). fold b in U1, U2.
  assert (Lm : length msg = (length body + j)%nat) by (unfold msg; rewrite app_length, pad_len; lia).
  assert (J2 : ((length body + j) mod b = 0)%nat) by (rewrite <- Lm; exact Hm).
  destruct (tail_eval x y HC st body j C Hs B Hj J2) as (_ & _ & A3 & _). fold msg in A3.
  rewrite (enc_aligned x HX) by (auto; cbn [skipn]; auto; lia). cbn [skipn]. do 2 eexists. split; [reflexivity|].
  rewrite splice_all by lia. unfold msg. rewrite (tail_dec x y HC st body j o2 0 C Hs B Hj J2) by exact L2. rewrite resized_exact by auto. reflexivity.
Qed.
Lemma c44_same_ciphertext x body out1 out2 st : good_setup x -> counter (s_mode x) = false -> register st ->
  let b := unit_size (s_mode x) in (length body mod b <> 0)%nat -> (b < length body)%nat -> (length body / b * b <= length out1)%nat -> length out2 = length (padded (s_pad x) b body) ->
  exists r, write x true body 0 out1 0 st = Ok r /\ write x true (padded (s_pad x) b body) 0 out2 0 st = Ok r.
Proof.
  intros HX C Hs b H1 Hb H2 H3. destruct (unit_pos (s_mode x) (proj1 (proj2 HX))) as (U1 & U2). fold b in U1, U2.
  destruct (padded_len (s_pad x) b body U1) as (P1 & P2 & P3).
  rewrite (enc_padded x HX body 0 out1 0 st C Hs (Nat.le_0_l _) H1 H2). cbn [skipn Nat.eqb]. eexists. split; [reflexivity|]. fold b.
  assert (Ln : lens (s_mode x) (length (padded (s_pad x) b body))) by (apply lens_block; auto).
  destruct (run_ok (s_mode x) (s_E x) (s_D x) true (proj1 (proj1 HX)) (proj1 (proj2 (proj1 HX))) (proj1 (proj2 HX)) st _ (reg_rcond _ st Hs) Ln) as (L1 & _).
  rewrite (enc_aligned x HX) by (auto; cbn [skipn]; auto; fold b; lia). cbn [skipn]. rewrite splice_all by lia. now rewrite <- surjective_pairing.
Qed.
Lemma c44_offset_encrypt x inp io out oo st : good_setup x -> counter (s_mode x) = false -> register st -> (io <= length inp)%nat ->
  let n := (length inp - io)%nat in let b := unit_size (s_mode x) in (n mod b <> 0)%nat -> (0 < oo)%nat -> (oo + n / b * b <= length out)%nat ->
  write x true inp io out oo st = UB.
Proof.
  intros HX C Hs Hio n b H1 H2 H3. rewrite (enc_padded x HX) by (auto; rewrite skipn_length; auto). rewrite (proj2 (Nat.eqb_neq oo 0)) by lia. reflexivity.
Qed.
Lemma c44_offset_decrypt x y msg o1 out oo st : counterpart x y -> counter (s_mode x) = false -> register st -> bytes msg ->
  let b := unit_size (s_mode x) in (length msg mod b <> 0)%nat -> (length msg / b * b <= length o1)%nat -> (oo + length msg <= length out)%nat ->
  exists c st', write x true msg 0 o1 0 st = Ok (c, st') /\ write y false c 0 out oo st = Ok (firstn (length msg) (firstn oo out ++ msg), st').
Proof.
  intros HC C Hs B b H2 H3 H4. pose proof HC as (HX & _). destruct (unit_pos (s_mode x) (proj1 (proj2 HX))) as (U1 & U2). fold b in U1, U2.
  destruct (pad_split (s_pad x) b msg U1 H2) as (j & J1 & J2 & J3).
  rewrite (enc_padded x HX msg 0 o1 0 st C Hs (Nat.le_0_l _) H2 H3). cbn [skipn Nat.eqb]. fold b. rewrite J3.
  destruct (run (s_mode x) (s_E x) (s_D x) true st (msg ++ pad_bytes (s_pad x) j)) as [c q] eqn:ER. exists c, q. split; [reflexivity|].
  pose proof (tail_dec x y HC st msg j out oo C Hs B J1 J2 H4) as T. cbv zeta in T. rewrite ER in T. cbn [fst snd] in T. rewrite T. do 2 f_equal.
  unfold resized, splice. rewrite app_assoc, firstn_app.
  assert (Lf : length (firstn oo out ++ msg) = (oo + length msg)%nat) by (rewrite app_length, firstn_length; lia).
  rewrite Lf. replace (length msg - (oo + length msg))%nat with 0%nat by lia. rewrite firstn_O, app_nil_r.
  replace (length msg - _)%nat with 0%nat by (rewrite app_length, Lf; lia). apply app_nil_r.
Qed.
(** streams *)
Lemma c44_stream_encrypt x d p od op q q' st : good_setup x -> counter (s_mode x) = false -> register st -> (p <= length d)%nat -> (op <= length od)%nat ->
  let msg := skipn p d in let b := unit_size (s_mode x) in length msg <> b ->
  Z.of_nat (length d) < 2 ^ 63 -> Z.of_nat (length od) < 2 ^ 63 -> Z.of_nat (op + length msg + b) < 2 ^ 63 ->
  exists ins outs st', write_stream x true (MStream d (Z.of_nat p) q) (MStream od (Z.of_nat op) q') st = Ok (ins, outs, st') /\
    let c := mode_encrypt (s_mode x) (s_E x) st (padded (s_pad x) b msg) in
    ms_data ins = d /\ ms_pos ins = Z.of_nat (length d) /\ ms_data outs = put_at od op c /\ ms_pos outs = Z.of_nat (op + length c).
Proof.
  intros HX C Hs Hp Hop msg b Hn L1 L2 L3. destruct (unit_pos (s_mode x) (proj1 (proj2 HX))) as (U1 & U2). fold b in U1, U2.
  destruct (padded_len (s_pad x) b msg U1) as (P1 & _).
  assert (Ln : lens (s_mode x) (length (padded (s_pad x) b msg))) by (apply lens_block; auto).
  pose proof (run_spec (s_mode x) (s_E x) (s_D x) true (proj1 (proj2 HX)) st _ Ln) as RS. cbn iota in RS. rewrite <- RS.
  destruct (Nat.eq_dec (length msg mod b) 0) as [E|E].
  - assert (Pm : padded (s_pad x) b msg = msg) by (unfold padded; rewrite E; reflexivity). rewrite Pm in *.
    destruct (senc_aligned x HX d p od op q q' st) as (i & o & R1 & R2); auto; [fold msg; lia|]. fold msg in R1, R2. exists i, o. eexists. split; [exact R1|exact R2].
  - destruct (senc_padded x HX d p od op q q' st) as (i & o & R1 & R2); auto. fold msg in R1, R2. fold b in R1, R2. exists i, o. eexists. split; [exact R1|exact R2].
Qed.
Lemma c44_stream_counter x enc d p od op q q' st : good_setup x -> counter (s_mode x) = true -> register st -> (p <= length d)%nat -> (op <= length od)%nat ->
  let msg := skipn p d in length msg <> 16%nat ->
  Z.of_nat (length d) < 2 ^ 63 -> Z.of_nat (length od) < 2 ^ 63 -> Z.of_nat (op + length msg) < 2 ^ 63 ->
  exists ins outs st', write_stream x enc (MStream d (Z.of_nat p) q) (MStream od (Z.of_nat op) q') st = Ok (ins, outs, st') /\
    let c := mode_encrypt (s_mode x) (s_E x) st msg in
    ms_data ins = d /\ ms_pos ins = Z.of_nat (length d) /\ ms_data outs = put_at od op c /\ ms_pos outs = Z.of_nat (op + length c).
Proof.
  intros HX C Hs Hp Hop msg Hn L1 L2 L3. assert (Lm : length msg = (length d - p)%nat) by (unfold msg; apply skipn_length).
  destruct (scounter_any x HX enc d p od op q q' st) as (i & o & R1 & R2); auto; try lia. fold msg in R1, R2.
  replace (mode_encrypt (s_mode x) (s_E x) st msg) with (fst (run (s_mode x) (s_E x) (s_D x) enc st msg)) by (destruct (s_mode x); try discriminate; reflexivity).
  exists i, o. eexists. split; [exact R1|exact R2].
Qed.
Lemma c44_stream_round_trip x y msg q q1 st : counterpart x y -> counter (s_mode x) = false -> register st -> bytes msg ->
  let b := unit_size (s_mode x) in (length msg mod b <> 0)%nat -> Z.of_nat (length msg + b) < 2 ^ 63 ->
  exists i o st', write_stream x true (MStream msg 0 q) MemoryStream_new st = Ok (i, o, st') /\
    exists i2 o2, write_stream y false (MStream (ms_data o) 0 q1) MemoryStream_new st = Ok (i2, o2, st') /\ ms_data o2 = msg /\ ms_pos o2 = Z.of_nat (length msg).
Proof.
  intros HC C Hs B b H2 L. pose proof HC as (HX & _). destruct (unit_pos (s_mode x) (proj1 (proj2 HX))) as (U1 & U2). fold b in U1, U2.
  destruct (pad_split (s_pad x) b msg U1 H2) as (j & J1 & J2 & J3).
  assert (L0 : Z.of_nat (length (@nil Z)) < 2 ^ 63) by (cbn [length]; lia).
  assert (L1 : Z.of_nat (length msg) < 2 ^ 63) by lia.
  destruct (senc_padded x HX msg 0 [] 0 q false st C Hs (Nat.le_0_l _) (Nat.le_0_l _) H2 L1 L0 L) as (i & o & R1 & _ & _ & R2 & _).
  cbn [skipn] in R1, R2. fold b in R1, R2. rewrite J3 in R1, R2. change (Z.of_nat 0) with 0 in R1.
  exists i, o. eexists. split; [exact R1|]. rewrite R2. unfold put_at. cbn [length Nat.leb firstn app]. rewrite skipn_nil, app_nil_r.
  assert (Lj : length (msg ++ pad_bytes (s_pad x) j) = (length msg + j)%nat) by (rewrite app_length, pad_len; lia).
  destruct (tail_sdec x y HC st msg j [] 0 q1 false C Hs B J1 J2) as (i2 & o2 & T1 & _ & _ & T2 & T3); try (cbn [length]; lia).
  exists i2, o2. split; [exact T1|]. rewrite T2, T3. unfold put_at. cbn [length Nat.leb firstn app]. rewrite skipn_nil, app_nil_r. auto.
Qed.
Lemma c44_stream_one_block x enc d p od op q q' st : good_setup x -> (counter (s_mode x) || enc)%bool = true -> register st -> (p <= length d)%nat -> (op <= length od)%nat ->
  (length d - p)%nat = unit_size (s_mode x) -> Z.of_nat (length d) < 2 ^ 63 -> Z.of_nat (length od + 16) < 2 ^ 63 ->
  exists ins outs, write_stream x enc (MStream d (Z.of_nat p) q) (MStream od (Z.of_nat op) q') st = Ok (ins, outs, st) /\ ms_data outs = od /\ ms_pos outs = Z.of_nat op /\ ms_pos ins = Z.of_nat p.
Proof.
  intros HX C Hs Hp Hop Hn L1 L2. destruct (unit_pos (s_mode x) (proj1 (proj2 HX))) as (U1 & U2).
  destruct (sone_block x HX enc d p od op q q' st) as (i & o & R1 & R2 & R3 & R4 & R5); auto; try lia.
  exists i, o. split; [exact R1|]. rewrite R4, R5. rewrite put_at_nil by auto. cbn [length]. rewrite Nat.add_0_r. auto.
Qed.
