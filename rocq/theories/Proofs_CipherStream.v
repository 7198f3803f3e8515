(** CipherStream over an abstract engine that transforms whole blocks *)
From Verif Require Import BaseLemmas Spec_Common Spec_File Model_Modes Model_Padding Model_Stream Model_KDF Model_CipherStream Proofs_Windows Proofs_Stream Proofs_KDF Proofs_KDF2.
Open Scope Z_scope.

Lemma div_rest n b : (0 < b)%nat -> (n = n / b * b + n mod b /\ n mod b < b)%nat.
Proof. intros H. split; [pose proof (Nat.div_mod n b ltac:(lia)); lia|apply Nat.mod_upper_bound; lia]. Qed.
Lemma mod_mult a b q : (0 < b)%nat -> a = (q * b)%nat -> (a mod b = 0)%nat.
Proof. intros H ->. apply Nat.mod_mul. lia. Qed.
Lemma slice_to_end (l : list Z) io : (io <= length l)%nat -> slice l io (length l - io) = skipn io l.
Proof. intros. unfold slice. apply firstn_all2. rewrite skipn_length. lia. Qed.
Lemma splice_nil (l : list Z) o : splice l o [] = l.
Proof. unfold splice. cbn [app length]. rewrite Nat.add_0_r. apply firstn_skipn. Qed.

Lemma slice_back (l d : list Z) o n : length d = n -> (o + n <= length l)%nat -> slice (splice l o d) o n = d.
Proof. intros <- H. apply slice_splice_same. exact H. Qed.

Lemma resize_put (out w y : list Z) : splice (resized (splice out 0 w) (length w + length y)) (length w) y = w ++ y.
Proof.
  assert (E : exists z, resized (splice out 0 w) (length w + length y) = w ++ z /\ length z = length y).
  { pose proof (resized_len (splice out 0 w) (length w + length y)) as L. unfold resized, splice in *. cbn [firstn app Nat.add] in *.
    rewrite firstn_app in *. replace (length w + length y - length w)%nat with (length y) in * by lia. rewrite (firstn_all2 w) in * by lia. rewrite <- app_assoc in *.
    eexists. split; [reflexivity|]. rewrite app_length in L. lia. }
  destruct E as (z & -> & Lz). unfold splice. rewrite firstn_app, firstn_all, Nat.sub_diag, firstn_O, app_nil_r. f_equal.
  rewrite skipn_all2 by (rewrite app_length; lia). apply app_nil_r.
Qed.

Section W.
  Context (en : engine) (F : list Z -> list Z -> list Z * list Z) (I : list Z -> Prop) (okn : nat -> Prop).
  Let b := en_bs en.
  Hypothesis Hb : (0 < b)%nat.
  Hypothesis okb : forall n, (n mod b = 0)%nat -> okn n.
  Hypothesis HT : forall k l io out oo len st, I st -> okn len -> (io + len <= length l)%nat -> (oo + len <= length out)%nat ->
    en_T en k l io out oo len st = Ok (splice out oo (fst (F st (slice l io len))), snd (F st (slice l io len))).
  Hypothesis F_ok : forall st m, I st -> okn (length m) -> length (fst (F st m)) = length m /\ I (snd (F st m)).
  Hypothesis F_app : forall st a c, I st -> (length a mod b = 0)%nat -> okn (length c) ->
    F st (a ++ c) = (fst (F st a) ++ fst (F (snd (F st a)) c), snd (F (snd (F st a)) c)).
  Hypothesis F_nil : forall st, I st -> F st [] = ([], st).
  Hypothesis Hpar : en_par en = true -> (0 < en_pblk en)%nat /\ (en_pblk en mod b = 0)%nat.

  Lemma loop_ok inp io step : (step mod b = 0)%nat -> forall k fuel out oo plen e st, I st -> e = (plen + k * step)%nat -> (k <= fuel)%nat ->
    (0 < step)%nat ->
    (io + e <= length inp)%nat -> (oo + e <= length out)%nat ->
    cs_loop fuel en step e inp io out oo plen st =
    Ok (splice out (oo + plen) (fst (F st (slice inp (io + plen) (e - plen)))), snd (F st (slice inp (io + plen) (e - plen)))).
  Proof.
    intros Hs. induction k as [|k IH]; intros fuel out oo plen e st Hi He Hf Hp H1 H2.
    - rewrite He. replace (plen + 0 * step - plen)%nat with 0%nat by lia. unfold slice. cbn [firstn]. rewrite F_nil by auto. cbn [fst snd]. rewrite splice_nil.
      replace (plen + 0 * step)%nat with plen by lia. destruct fuel; cbn [cs_loop]; rewrite Nat.eqb_refl; reflexivity.
    - destruct fuel as [|fuel]; [lia|]. cbn [cs_loop]. destruct (Nat.eqb_spec plen e); [lia|].
      rewrite HT by (auto; lia). cbn [bind fst snd].
      assert (Ls : length (slice inp (io + plen) step) = step) by (rewrite length_slice; lia).
      destruct (F_ok st (slice inp (io + plen) step) Hi) as (L1 & I1); [rewrite Ls; auto|]. rewrite Ls in L1.
      assert (LS : length (splice out (oo + plen) (fst (F st (slice inp (io + plen) step)))) = length out) by (apply length_splice; lia).
      rewrite IH by (auto; lia).
      replace (e - plen)%nat with (step + (e - (plen + step)))%nat by lia. rewrite slice_app.
      set (a := slice inp (io + plen) step) in *. rewrite (Nat.add_assoc io plen step). set (c := slice inp (io + plen + step) (e - (plen + step))).
      assert (Lc : length c = (k * step)%nat) by (unfold c; rewrite length_slice; lia).
      assert (Oc : okn (length c)). { apply okb. rewrite Lc. destruct (div_rest step b Hb). apply (mod_mult _ b (k * (step / b))); nia. }
      rewrite (F_app st a c) by (auto; rewrite Ls; auto). cbn [fst snd].
      destruct (F_ok _ c I1 Oc) as (L2 & _).
      f_equal. f_equal. rewrite <- (splice_splice_next out (oo + plen)) by (rewrite L1, L2, Lc; lia). rewrite L1. f_equal. lia.
  Qed.

  (** how far the two loops get *)
  Lemma aln_block counter enc n : (aln_len counter enc n b mod b = 0)%nat /\ (aln_len counter enc n b <= n)%nat.
  Proof.
    destruct (div_rest n b Hb) as (E & L). unfold aln_len. destruct (counter || enc)%bool; [split; [apply Nat.mod_mul|]; lia|].
    destruct (Nat.ltb_spec n b); [split; [apply Nat.mod_0_l|]; lia|].
    split; [|lia]. assert (1 <= n / b)%nat by (apply Nat.div_le_lower_bound; lia). apply (mod_mult _ b (n / b - 1)); nia.
  Qed.
  Lemma prc_aln counter enc n : en_par en = true -> (en_pblk en < n)%nat -> counter = true \/ enc = true \/ (n mod b = 0)%nat ->
    exists q, prc_len counter enc n (en_pblk en) = (q * en_pblk en)%nat /\ (q <= n)%nat /\ (prc_len counter enc n (en_pblk en) <= aln_len counter enc n b)%nat /\
      exists k, (aln_len counter enc n b - prc_len counter enc n (en_pblk en) = k * b)%nat /\ (k <= n)%nat.
  Proof.
    intros HP Hlt HC. destruct (Hpar HP) as (P1 & P2). destruct (aln_block counter enc n) as (A1 & A2).
    set (pb := en_pblk en) in *. destruct (div_rest pb b Hb) as (E1 & _). destruct (div_rest n pb P1) as (E2 & L2). destruct (div_rest n b Hb) as (E3 & L3).
    rewrite P2, Nat.add_0_r in E1. set (x := (pb / b)%nat) in *. set (y := (n / pb)%nat) in *. set (z := (n / b)%nat) in *.
    assert (Hy : (1 <= y)%nat) by (apply Nat.div_le_lower_bound; lia).
    assert (Hx : (1 <= x)%nat) by (clear - E1 P1; nia).
    assert (ZY : (y * x <= z)%nat). { apply Nat.div_le_lower_bound; [lia|]. clear - E1 E2 P1. nia. }
    assert (KN : forall k, (k * b <= n -> k <= n)%nat) by (intros k Hk; clear - Hk Hb; nia).
    assert (YX : (y * pb = y * x * b)%nat) by (rewrite E1 at 1; apply Nat.mul_assoc).
    assert (ZYb : (y * x * b <= z * b)%nat) by (apply Nat.mul_le_mono_r; exact ZY).
    assert (Yn : (y <= n)%nat) by (clear - E2 P1; nia).
    assert (Bpb : (b <= pb)%nat) by (clear - E1 Hx; nia).
    assert (ENC : exists q, (y * pb = q * pb)%nat /\ (q <= n)%nat /\ (y * pb <= z * b)%nat /\ exists k, (z * b - y * pb = k * b)%nat /\ (k <= n)%nat).
    { exists y. split; [reflexivity|]. split; [exact Yn|]. split; [lia|]. exists (z - y * x)%nat. rewrite Nat.mul_sub_distr_r, YX. split; [reflexivity|]. apply KN. rewrite Nat.mul_sub_distr_r. lia. }
    unfold prc_len, aln_len in *. fold pb. fold y. fold z. fold z in A1, A2.
    destruct counter; cbn [orb] in *; [|destruct enc; cbn [orb] in *].
    - rewrite Bool.orb_true_r. cbn [orb]. exact ENC.
    - rewrite !Bool.orb_true_r. cbn [orb]. exact ENC.
    - clear ENC. destruct HC as [?|[?|HC]]; [discriminate|discriminate|]. rewrite HC, Nat.add_0_r in E3. rewrite !Bool.orb_false_r.
      destruct (Nat.ltb_spec n b); [lia|]. assert (1 <= z)%nat by (apply Nat.div_le_lower_bound; lia).
      destruct (Nat.eqb_spec (n mod pb) 0) as [E0|E0]; cbn [negb].
      + rewrite E0, Nat.add_0_r in E2.
        exists (y - 1)%nat. rewrite Nat.mul_sub_distr_r, Nat.mul_1_l. split; [reflexivity|]. split; [lia|]. split; [lia|]. exists (x - 1)%nat. rewrite Nat.mul_sub_distr_r, Nat.mul_1_l. split; [lia|]. apply KN. rewrite Nat.mul_sub_distr_r. lia.
      + assert (Q : (y * x < z)%nat). { assert ((y * x * b < z * b)%nat) by lia. apply (proj2 (Nat.mul_lt_mono_pos_r b _ _ Hb)). exact H1. }
        assert (Q2 : ((y * x + 1) * b <= z * b)%nat) by (apply Nat.mul_le_mono_r; lia). rewrite Nat.mul_add_distr_r, Nat.mul_1_l in Q2.
        exists y. split; [reflexivity|]. split; [lia|]. split; [lia|]. exists (z - 1 - y * x)%nat. rewrite !Nat.mul_sub_distr_r, Nat.mul_1_l, YX. split; [lia|]. apply KN. rewrite !Nat.mul_sub_distr_r, Nat.mul_1_l. lia.
  Qed.
  Definition reach (counter enc : bool) (n : nat) : nat := if (b <? n)%nat then aln_len counter enc n b else 0%nat.
  Lemma reach_block counter enc n : (reach counter enc n mod b = 0)%nat /\ (reach counter enc n <= n)%nat.
  Proof. unfold reach. destruct (b <? n)%nat; [apply aln_block|split; [apply Nat.mod_0_l; lia|lia]]. Qed.

  (** the part of a Write after the loops *)
  Definition rest (pd : option padding) (counter enc : bool) (inp : list Z) (io : nat) (out : list Z) (oo plen : nat) (st : list Z) : res (list Z * list Z) :=
    let n := (length inp - io)%nat in
    let aln := aln_len counter enc n b in
    if (aln =? n)%nat then Ok (out, st) else
    if counter then
      let fnl := (n - aln)%nat in
      blk0 <- wcopy inp (io + plen) (zeros b) 0 fnl ;;
      r <- en_T en plen blk0 0 (zeros b) 0 fnl st ;;
      out <- wcopy (fst r) 0 out (oo + plen) fnl ;;
      Ok (out, snd r)
    else if enc then
      let fnl := (n - aln)%nat in
      blk0 <- wcopy inp (io + plen) (zeros b) 0 fnl ;;
      blk0 <- (if (fnl =? b)%nat then Ok blk0 else pd <- the_padding pd ;; pd_add pd blk0 fnl (length blk0)) ;;
      en_EB en blk0 0 (resized out (plen + b)) (oo + plen) st
    else
      r <- en_DB en inp (io + plen) (zeros b) 0 st ;;
      pd <- the_padding pd ;;
      k <- pd_len pd (fst r) ;;
      out <- wcopy (fst r) 0 out (oo + plen) (Z.to_nat k) ;;
      Ok (resized out (plen + Z.to_nat k), snd r).
  Lemma Write_split pd counter enc inp io out oo st : I st -> (io <= length inp)%nat ->
    let n := (length inp - io)%nat in let a := reach counter enc n in
    counter = true \/ enc = true \/ (n mod b = 0)%nat -> (oo + a <= length out)%nat ->
    CipherStream_Write en pd counter enc inp io out oo st =
    rest pd counter enc inp io (splice out oo (fst (F st (slice inp io a)))) oo a (snd (F st (slice inp io a))).
  Proof.
    intros Hi Hio n a HC Ho. unfold CipherStream_Write. fold b. unfold safe at 1. rewrite (proj2 (Nat.leb_le _ _)) by lia. cbn [bind]. cbv zeta. fold n.
    destruct (reach_block counter enc n) as (R1 & R2). fold a in R1, R2.
    destruct (en_par en && (en_pblk en <? n)%nat)%bool eqn:C.
    - apply andb_true_iff in C. destruct C as (C1 & C2). apply Nat.ltb_lt in C2. destruct (Hpar C1) as (P1 & P2).
      unfold safe at 1. destruct (Nat.eqb_spec (en_pblk en) 0); [lia|]. cbn [negb bind].
      destruct (prc_aln counter enc n C1 C2 HC) as (q & Q1 & Q2 & Q3 & k & K1 & K2).
      set (e := prc_len counter enc n (en_pblk en)) in *.
      assert (Bn : (b < n)%nat). { destruct (div_rest (en_pblk en) b Hb) as (X & _). rewrite P2, Nat.add_0_r in X. clear - X P1 C2. destruct (en_pblk en / b)%nat; nia. }
      assert (Ea : a = aln_len counter enc n b) by (unfold a, reach; rewrite (proj2 (Nat.ltb_lt _ _)) by exact Bn; reflexivity).
      assert (Le : (e <= a)%nat) by lia.
      rewrite (loop_ok inp io (en_pblk en) P2 q n out oo 0 e st) by (auto; lia). rewrite !Nat.add_0_r, Nat.sub_0_r. cbn [bind fst snd].
      unfold safe. destruct (Nat.eqb_spec b 0); [lia|]. cbn [negb bind]. rewrite (proj2 (Nat.ltb_lt _ _)) by exact Bn. rewrite <- Ea in *.
      assert (Lx : length (slice inp io e) = e) by (rewrite length_slice; lia).
      assert (Me : (e mod b = 0)%nat). { destruct (div_rest (en_pblk en) b Hb) as (X & _). rewrite P2, Nat.add_0_r in X. apply (mod_mult _ b (q * (en_pblk en / b))); [exact Hb|]. rewrite Q1, X at 1. apply Nat.mul_assoc. }
      destruct (F_ok st (slice inp io e) Hi) as (L1 & I1); [rewrite Lx; auto|]. rewrite Lx in L1.
      assert (LS : length (splice out oo (fst (F st (slice inp io e)))) = length out) by (rewrite length_splice; [reflexivity|lia]).
      assert (Mb : (b mod b = 0)%nat) by (apply Nat.mod_same; lia).
      rewrite (loop_ok inp io b Mb k n) by (auto; lia). cbn [bind fst snd].
      assert (SA : slice inp io a = slice inp io e ++ slice inp (io + e) (a - e)) by (rewrite <- slice_app; f_equal; lia). rewrite SA.
      assert (Lc : length (slice inp (io + e) (a - e)) = (a - e)%nat) by (rewrite length_slice; lia).
      assert (Oc : okn (length (slice inp (io + e) (a - e)))). { apply okb. rewrite Lc, K1. apply Nat.mod_mul. lia. }
      rewrite F_app by (auto; rewrite Lx; auto). cbn [fst snd]. destruct (F_ok _ _ I1 Oc) as (L2 & _).
      rewrite <- (splice_splice_next out oo) by (rewrite L1, L2, Lc; lia). rewrite L1. unfold rest. cbv zeta. fold n. rewrite <- Ea. reflexivity.
    - cbn [bind fst snd]. unfold safe. destruct (Nat.eqb_spec b 0); [lia|]. cbn [negb bind]. unfold a, reach in *. destruct (Nat.ltb_spec b n).
      + set (al := aln_len counter enc n b) in *. destruct (div_rest al b Hb) as (E1 & _).
        assert (Mb : (b mod b = 0)%nat) by (apply Nat.mod_same; lia).
        rewrite (loop_ok inp io b Mb (al / b) n) by (auto; nia). rewrite !Nat.add_0_r, Nat.sub_0_r. cbn [bind fst snd]. reflexivity.
      + cbn [bind fst snd]. unfold slice. cbn [firstn]. rewrite F_nil by auto. cbn [fst snd]. rewrite splice_nil. reflexivity.
  Qed.
  Lemma reach_aln counter enc n : n <> b \/ (counter || enc)%bool = false -> reach counter enc n = aln_len counter enc n b.
  Proof.
    intros H. unfold reach. destruct (Nat.ltb_spec b n); [reflexivity|]. unfold aln_len.
    destruct (counter || enc)%bool.
    - destruct H as [H|H]; [|discriminate]. rewrite Nat.div_small by lia. reflexivity.
    - destruct (Nat.ltb_spec n b); [reflexivity|]. assert (n = b) by lia. subst n. rewrite Nat.div_same by lia. lia.
  Qed.

  (** ** counter modes *)
  Lemma Write_counter pd enc inp io out oo st : (forall n, okn n) -> I st -> (io <= length inp)%nat ->
    (length inp - io)%nat <> b -> (oo + (length inp - io) <= length out)%nat ->
    CipherStream_Write en pd true enc inp io out oo st = Ok (splice out oo (fst (F st (skipn io inp))), snd (F st (skipn io inp))).
  Proof.
    intros OK Hi Hio Hn Ho. rewrite <- slice_to_end by auto. set (n := (length inp - io)%nat) in *.
    assert (Ea : reach true enc n = aln_len true enc n b) by (apply reach_aln; auto).
    destruct (aln_block true enc n) as (A1 & A2).
    rewrite Write_split by (auto; fold n; lia). fold n. rewrite Ea. set (a := aln_len true enc n b) in *.
    assert (Lx : length (slice inp io a) = a) by (rewrite length_slice; lia).
    destruct (F_ok st (slice inp io a) Hi) as (L1 & I1); [auto|]. rewrite Lx in L1.
    unfold rest. cbv zeta. fold n. fold a. destruct (Nat.eqb_spec a n) as [E|E]; [rewrite E; reflexivity|].
    assert (Hf : (n - a < b)%nat). { unfold a, aln_len. cbn [orb]. destruct (div_rest n b Hb). lia. }
    assert (L0 : length (zeros b) = b) by apply length_zeros.
    rewrite wcopy_ok by lia. cbn [bind]. set (bk := splice (zeros b) 0 (slice inp (io + a) (n - a))).
    assert (Ls : length (slice inp (io + a) (n - a)) = (n - a)%nat) by (rewrite length_slice; lia).
    assert (Lb : length bk = b) by (unfold bk; rewrite length_splice; lia).
    assert (Sb : slice bk 0 (n - a) = slice inp (io + a) (n - a)). { unfold bk. apply slice_back; lia. }
    rewrite HT by (auto; lia). cbn [bind fst snd]. rewrite Sb.
    destruct (F_ok _ (slice inp (io + a) (n - a)) I1) as (L2 & I2); [auto|]. rewrite Ls in L2.
    set (LS := length_splice out oo (fst (F st (slice inp io a))) ltac:(lia)).
    assert (LZ : length (splice (zeros b) 0 (fst (F (snd (F st (slice inp io a))) (slice inp (io + a) (n - a))))) = b) by (rewrite length_splice; lia).
    rewrite wcopy_ok by (rewrite ?LS, ?LZ; lia). cbn [bind].
    rewrite slice_back by lia.
    assert (SA : slice inp io n = slice inp io a ++ slice inp (io + a) (n - a)) by (rewrite <- slice_app; f_equal; lia). rewrite SA. rewrite F_app by (auto; rewrite Lx; auto). cbn [fst snd].
    rewrite <- (splice_splice_next out oo) by lia. rewrite L1. reflexivity.
  Qed.
  (** exactly one block: nothing happens *)
  Lemma Write_one pd counter enc inp io out oo st : I st -> (io <= length inp)%nat -> (length inp - io)%nat = b -> (counter || enc)%bool = true ->
    (oo <= length out)%nat -> CipherStream_Write en pd counter enc inp io out oo st = Ok (out, st).
  Proof.
    intros Hi Hio Hn HC Ho. assert (R : reach counter enc (length inp - io) = 0%nat) by (unfold reach; rewrite Hn, Nat.ltb_irrefl; reflexivity).
    rewrite Write_split; auto; [|destruct counter; auto|lia]. rewrite R. unfold slice. cbn [firstn]. rewrite F_nil by auto. cbn [fst snd]. rewrite splice_nil.
    unfold rest. cbv zeta. rewrite Hn. unfold aln_len. rewrite HC, Nat.div_same, Nat.mul_1_l, Nat.eqb_refl by lia. reflexivity.
  Qed.
  (** ** encryption with padding *)
  Lemma Write_aligned pd inp io out oo st : I st -> (io <= length inp)%nat -> let n := (length inp - io)%nat in
    (n mod b = 0)%nat -> n <> b -> (oo + n <= length out)%nat ->
    CipherStream_Write en pd false true inp io out oo st = Ok (splice out oo (fst (F st (skipn io inp))), snd (F st (skipn io inp))).
  Proof.
    intros Hi Hio n Hm Hn Ho. rewrite <- slice_to_end by auto. fold n.
    assert (Ea : reach false true n = n). { rewrite reach_aln by auto. unfold aln_len. cbn [orb]. destruct (div_rest n b Hb). lia. }
    assert (Eb : aln_len false true n b = n) by (rewrite <- reach_aln by auto; exact Ea).
    rewrite Write_split by (auto; fold n; lia). fold n. rewrite Ea. unfold rest. cbv zeta. fold n. rewrite Eb, Nat.eqb_refl. reflexivity.
  Qed.
  Hypothesis HEB : forall l io out oo st, I st -> (io + b <= length l)%nat ->
    en_EB en l io out oo st = if (oo + b <=? length out)%nat then Ok (splice out oo (fst (F st (slice l io b))), snd (F st (slice l io b))) else UB.
  Lemma Write_padded pd pads inp io out oo st : I st -> (io <= length inp)%nat -> let n := (length inp - io)%nat in let r := (n mod b)%nat in
    (r <> 0)%nat -> (oo + n / b * b <= length out)%nat -> length pads = (b - r)%nat ->
    (forall bk, length bk = b -> pd_add pd bk r b = Ok (firstn r bk ++ pads)) ->
    CipherStream_Write en (Some pd) false true inp io out oo st =
    if (oo =? 0)%nat then Ok (F st (skipn io inp ++ pads)) else UB.
  Proof.
    intros Hi Hio n r Hr Ho Lp HP. destruct (div_rest n b Hb) as (E & L). fold r in E, L.
    assert (NB : n <> b) by (intros X; unfold r in Hr; rewrite X, Nat.mod_same in Hr; lia).
    assert (Ea : reach false true n = (n / b * b)%nat) by (rewrite reach_aln by auto; reflexivity).
    rewrite Write_split by (auto; fold n; lia). fold n. rewrite Ea. unfold rest. cbv zeta. fold n.
    unfold aln_len. cbn [orb]. set (a := (n / b * b)%nat) in *. destruct (Nat.eqb_spec a n); [lia|].
    replace (n - a)%nat with r by lia.
    assert (L0 : length (zeros b) = b) by apply length_zeros.
    rewrite wcopy_ok by lia. cbn [bind]. assert (Ls : length (slice inp (io + a) r) = r) by (rewrite length_slice; lia).
    assert (LB : length (splice (zeros b) 0 (slice inp (io + a) r)) = b) by (rewrite length_splice; lia).
    destruct (Nat.eqb_spec r b); [lia|]. cbn [the_padding bind]. rewrite LB, HP by exact LB. cbn [bind].
    replace (firstn r (splice (zeros b) 0 (slice inp (io + a) r))) with (slice inp (io + a) r).
    2:{ unfold splice. cbn [firstn app]. rewrite firstn_app, Ls, Nat.sub_diag, firstn_O, app_nil_r. symmetry. apply firstn_all2. lia. }
    set (x := slice inp io a). assert (Lx : length x = a) by (unfold x; rewrite length_slice; lia).
    destruct (F_ok st x Hi) as (L1 & I1); [apply okb; rewrite Lx; apply Nat.mod_mul; lia|]. rewrite Lx in L1.
    rewrite HEB; [|auto|rewrite app_length; lia]. rewrite resized_len.
    assert (Sk : skipn io inp = x ++ slice inp (io + a) r). { unfold x. rewrite <- slice_app. replace (a + r)%nat with n by lia. symmetry. apply slice_to_end. auto. }
    rewrite Sk, <- app_assoc. rewrite (slice_all (_ ++ pads)) by (rewrite app_length; lia).
    destruct (Nat.eqb_spec oo 0) as [->|No].
    - rewrite (proj2 (Nat.leb_le _ _)) by lia. cbn [Nat.add].
      assert (Oc : okn (length (slice inp (io + a) r ++ pads))) by (apply okb; rewrite app_length, Ls, Lp; replace (r + (b - r))%nat with b by lia; apply Nat.mod_same; lia).
      assert (Mx : (length x mod b = 0)%nat) by (rewrite Lx; apply Nat.mod_mul; lia).
      rewrite (F_app st x) by auto.
      f_equal. f_equal. set (y := fst (F (snd (F st x)) _)). assert (Ly : length y = b).
      { unfold y. destruct (F_ok (snd (F st x)) (slice inp (io + a) r ++ pads) I1 Oc) as (L2 & _). rewrite L2, app_length. lia. }
      replace (a + b)%nat with (length (fst (F st x)) + length y)%nat by lia. replace a with (length (fst (F st x))) at 1 by lia. apply resize_put.
    - rewrite (proj2 (Nat.leb_gt _ _)) by lia. reflexivity.
  Qed.
  (** ** decryption *)
  Hypothesis HDB : forall l io out oo st, I st -> (io + b <= length l)%nat -> (oo + b <= length out)%nat ->
    en_DB en l io out oo st = Ok (splice out oo (fst (F st (slice l io b))), snd (F st (slice l io b))).
  Lemma Write_unpad pd k inp io out oo st : I st -> (io <= length inp)%nat -> let n := (length inp - io)%nat in
    (n mod b = 0)%nat -> (0 < n)%nat -> (oo + (n - b) + k <= length out)%nat -> (k <= b)%nat ->
    pd_len pd (skipn (n - b) (fst (F st (skipn io inp)))) = Ok (Z.of_nat k) ->
    CipherStream_Write en (Some pd) false false inp io out oo st =
    Ok (resized (splice out oo (firstn (n - b + k) (fst (F st (skipn io inp))))) (n - b + k), snd (F st (skipn io inp))).
  Proof.
    clear HEB. intros Hi Hio n Hm Hn Ho Hk HP. destruct (div_rest n b Hb) as (E & L). rewrite Hm, Nat.add_0_r in E.
    assert (1 <= n / b)%nat by nia. assert (Hnb : (b <= n)%nat) by nia.
    assert (Ea : reach false false n = (n - b)%nat). { rewrite reach_aln by auto. unfold aln_len. cbn [orb]. rewrite (proj2 (Nat.ltb_ge _ _)) by lia. lia. }
    rewrite Write_split by (auto; fold n; lia). fold n. rewrite Ea. unfold rest. cbv zeta. fold n.
    assert (Eb : aln_len false false n b = (n - b)%nat) by (rewrite <- reach_aln by auto; exact Ea). rewrite Eb.
    set (a := (n - b)%nat) in *. destruct (Nat.eqb_spec a n); [lia|].
    assert (Ma : (a mod b = 0)%nat) by (apply (mod_mult _ b (n / b - 1)); nia).
    set (x := slice inp io a). assert (Lx : length x = a) by (unfold x; rewrite length_slice; lia).
    destruct (F_ok st x Hi) as (L1 & I1); [apply okb; rewrite Lx; auto|]. rewrite Lx in L1.
    set (y := slice inp (io + a) b). assert (Ly : length y = b) by (unfold y; rewrite length_slice; lia).
    assert (Oy : okn (length y)) by (apply okb; rewrite Ly; apply Nat.mod_same; lia).
    destruct (F_ok (snd (F st x)) y I1 Oy) as (L2 & I2). rewrite Ly in L2.
    assert (Sk : skipn io inp = x ++ y). { unfold x, y. rewrite <- slice_app. replace (a + b)%nat with n by lia. symmetry. apply slice_to_end. auto. }
    rewrite Sk in *. rewrite (F_app st x y) in * by (auto; rewrite Lx; auto). cbn [fst snd] in *.
    rewrite HDB by (auto; rewrite ?length_zeros; lia). cbn [bind fst snd the_padding]. fold y.
    rewrite splice_all by (rewrite length_zeros; lia).
    rewrite skipn_app, skipn_all2, L1, Nat.sub_diag in HP by lia. cbn [skipn app] in HP. rewrite HP. cbn [bind]. rewrite Nat2Z.id.
    assert (LS : length (splice out oo (fst (F st x))) = length out) by (apply length_splice; lia).
    rewrite wcopy_ok by lia. cbn [bind]. f_equal. f_equal. f_equal.
    assert (Lk : length (slice (fst (F (snd (F st x)) y)) 0 k) = k) by (rewrite length_slice; lia).
    replace (oo + a)%nat with (oo + length (fst (F st x)))%nat by lia. rewrite (splice_splice_next out oo) by lia. f_equal.
    rewrite firstn_app, L1. rewrite (firstn_all2 (n := (a + k)%nat)) by lia. replace (a + k - a)%nat with k by lia. reflexivity.
  Qed.
End W.
