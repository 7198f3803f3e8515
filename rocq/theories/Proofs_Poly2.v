(** The Poly1305 object. *)
From Verif Require Import BaseLemmas Spec_Common Spec_Feed Proofs_Common Spec_Poly1305 Model_IntegerTools Proofs_IntegerTools Model_Modes Model_Absorb Proofs_Windows Proofs_Absorb Proofs_SHA2obj Model_Poly1305 Proofs_Donna Proofs_Poly1305
  Session_Digest Session_Mac Session_Poly Proofs_Mac.
Open Scope Z_scope.

(** clamping, limb by limb *)
Lemma land_split n a b m k : 0 <= n -> 0 <= a < 2 ^ n -> 0 <= m < 2 ^ n -> Z.land (a + 2 ^ n * b) (m + 2 ^ n * k) = Z.land a m + 2 ^ n * Z.land b k.
Proof.
  intros Hn Ha Hm. rewrite <- !lor_shiftl_add by (auto; pose proof (land_range n a m); lia). rewrite Z.land_lor_distr_l, !Z.land_lor_distr_r, Z.shiftl_land.
  assert (Q : forall x y, 0 <= x < 2 ^ n -> Z.land x (Z.shiftl y n) = 0).
  { intros x y Hx. apply Z.bits_inj'. intros i Hi. rewrite Z.land_spec, Z.bits_0, Z.shiftl_spec by lia. destruct (Z.ltb_spec i n) as [L|L]; [rewrite (Z.testbit_neg_r y) by lia; apply andb_false_r|].
    destruct (Z.eq_dec x 0) as [->|]; [now rewrite Z.bits_0|]. rewrite Z.bits_above_log2; [reflexivity|lia|]. apply Z.log2_lt_pow2; [lia|]. apply Z.lt_le_trans with (2 ^ n); [lia|apply Z.pow_le_mono_r; lia]. }
  rewrite (Q a k Ha). rewrite (Z.land_comm (Z.shiftl b n)), (Q m b Hm). now rewrite Z.lor_0_r, Z.lor_0_l.
Qed.
Lemma clamp_ok t0 t1 : 0 <= t0 < 2 ^ 64 -> 0 <= t1 < 2 ^ 64 ->
  let r := (Z.land t0 0xFFC0FFFFFFF, Z.land (Z.lor (wshr t0 44) (wshl 64 t1 20)) 0xFFFFFC0FFFF, Z.land (wshr t1 24) 0x00FFFFFFC0F) in
  r_ok r /\ v3 r = Z.land (t0 + 2 ^ 64 * t1) 0x0ffffffc0ffffffc0ffffffc0fffffff.
Proof.
  intros T0 T1. cbv zeta. split.
  - split; [|split].
    + rewrite Z.land_comm. apply (land_range 44); lia.
    + rewrite Z.land_comm. apply (land_range 44); [lia|lia|]. rewrite limb1 by lia. apply Z.mod_pos_bound. lia.
    + rewrite Z.land_comm. apply (land_range 44); [lia|lia|]. rewrite wshr_div by lia. apply Z.div_pos; lia.
  - unfold v3. rewrite limb1, wshr_div by lia. set (T := t0 + 2 ^ 64 * t1).
    replace (Z.land t0 0xFFC0FFFFFFF) with (Z.land (T mod 2 ^ 44) 0xFFC0FFFFFFF).
    2:{ change 0xFFC0FFFFFFF with (Z.land (2 ^ 44 - 1) 0xFFC0FFFFFFF). rewrite !Z.land_assoc, !land_ones_mod by lia. f_equal. rewrite Zmod_mod. subst T. lia. }
    replace (Z.land (T / 2 ^ 44 mod 2 ^ 64) 0xFFFFFC0FFFF) with (Z.land (T / 2 ^ 44 mod 2 ^ 44) 0xFFFFFC0FFFF).
    2:{ change 0xFFFFFC0FFFF with (Z.land (2 ^ 44 - 1) 0xFFFFFC0FFFF). rewrite !Z.land_assoc, !land_ones_mod by lia. f_equal. rewrite Zmod_mod. generalize (T / 2 ^ 44). intros. lia. }
    replace (t1 / 2 ^ 24) with (T / 2 ^ 88) by (subst T; lia).
    change 0x0ffffffc0ffffffc0ffffffc0fffffff with (0xFFC0FFFFFFF + 2 ^ 44 * (0xFFFFFC0FFFF + 2 ^ 44 * 0x00FFFFFFC0F)).
    assert (ET : T = T mod 2 ^ 44 + 2 ^ 44 * (T / 2 ^ 44 mod 2 ^ 44 + 2 ^ 44 * (T / 2 ^ 88))) by (clearbody T; lia). rewrite ET at 4.
    rewrite (land_split 44) by (try lia; apply Z.mod_pos_bound; lia). rewrite (land_split 44) by (try lia; apply Z.mod_pos_bound; lia). ring.
Qed.

Section obj.
Context {W : Type} (X : wide W) (V : W -> Z) (I : W -> Prop) (HX : wide_ok X V I).
Definition pg (r h : Z * Z * Z) (b : list Z) : Z * Z * Z := match poly_step X r h b 0 with Ok h' => h' | _ => h end.
Lemma step_slice r h inp io : bytes inp -> (io + 16 <= length inp)%nat -> poly_step X r h inp io = poly_step X r h (slice inp io 16) 0.
Proof.
  intros B L. destruct r as [[r0 r1] r2], h as [[h0 h1] h2]. unfold poly_step, poly_block, LeBytesTo64. rewrite !LeBytesTo_correct by (rewrite ?length_slice by lia; lia). cbn [Nat.add].
  assert (E0 : slice (slice inp io 16) 0 8 = slice inp io 8) by (unfold slice; rewrite skipn_O, firstn_firstn; reflexivity).
  assert (E1 : slice (slice inp io 16) 8 8 = slice inp (io + 8) 8).
  { unfold slice. rewrite skipn_firstn_comm, skipn_skipn, firstn_firstn. cbn [Nat.min Nat.sub]. f_equal. f_equal. lia. }
  rewrite E0, E1. reflexivity.
Qed.
Lemma step_ok r h b o : r_ok r -> h_ok h -> bytes b -> (o + 16 <= length b)%nat ->
  poly_step X r h b o = Ok (pg r h (slice b o 16)) /\ h_ok (pg r h (slice b o 16)).
Proof.
  intros Hr Hh B L. unfold pg. rewrite <- step_slice by auto. destruct r as [[r0 r1] r2]. unfold poly_step.
  destruct (block_ok X V I HX r0 r1 r2 (2 ^ 40) h b o Hr Hh B L (or_intror eq_refl)) as (h' & -> & H1 & _). now split.
Qed.
Lemma pg_val r h b : r_ok r -> h_ok h -> bytes b -> length b = 16%nat -> v3 (pg r h b) mod p1305 = ((v3 h mod p1305 + value_le (b ++ [1])) * v3 r) mod p1305.
Proof.
  intros Hr Hh B L. unfold pg. destruct r as [[r0 r1] r2]. unfold poly_step.
  destruct (block_ok X V I HX r0 r1 r2 (2 ^ 40) h b 0 Hr Hh B ltac:(lia) (or_intror eq_refl)) as (h' & -> & _ & E). rewrite E. rewrite slice_all by auto. rewrite value_le_eq, le_val_app, L.
  replace (256 ^ Z.of_nat 16 * le_val [1]) with (2 ^ 88 * 2 ^ 40) by reflexivity.
  rewrite (Z.mul_mod (v3 h + _)), (Z.mul_mod (v3 h mod p1305 + _)) by (unfold p1305; lia). now rewrite Z.add_mod_idemp_l by (unfold p1305; lia).
Qed.
Lemma fold_val r bs : r_ok r -> forall h, h_ok h -> Forall (blk 16) bs ->
  h_ok (fold_left (pg r) bs h) /\ v3 (fold_left (pg r) bs h) mod p1305 = fold_left (fun a b => (a + value_le (b ++ [1])) * v3 r mod p1305) bs (v3 h mod p1305).
Proof.
  intros Hr. induction bs as [|b bs IH]; intros h Hh HB; [split; [exact Hh|reflexivity]|]. inversion HB as [|? ? [B1 B2] HB']; subst. cbn [fold_left].
  destruct (step_ok r h b 0 Hr Hh B1 ltac:(lia)) as [_ Hg]. rewrite slice_all in Hg by auto. destruct (IH _ Hg HB') as [IH1 IH2]. split; [exact IH1|]. rewrite IH2, pg_val by auto. reflexivity.
Qed.
Definition pabs (o : poly_obj) (st : pstate) : Prop :=
  match st with
  | None => o = Poly_new
  | Some (k, a, m) => p_init o = true /\ r_ok (p_r o) /\ v3 (p_r o) = poly_r k /\ 0 <= fst (p_pad o) < 2 ^ 64 /\ 0 <= snd (p_pad o) < 2 ^ 64 /\ fst (p_pad o) + 2 ^ 64 * snd (p_pad o) = poly_s k /\
    exists h0, h_ok h0 /\ v3 h0 mod p1305 = a /\ ainv 16 16 (pg (p_r o)) h_ok false h0 m (p_h o, p_buf o, p_pos o)
  end.
Lemma init_ok o st key : pabs o st -> bytes key -> (32 <= length key)%nat -> exists o', Poly_Initialize o key = Ok (o', None) /\ pabs o' (Some (key, 0, [])).
Proof.
  intros HA Bk Lk. unfold Poly_Initialize. replace (length key <? 32)%nat with false by (symmetry; apply Nat.ltb_ge; lia).
  destruct (words_val key 0 Bk ltac:(lia)) as (t0 & t1 & E0 & E1 & T0 & T1 & ET). destruct (words_val key 16 Bk ltac:(lia)) as (q0 & q1 & F0 & F1 & Q0 & Q1 & EQ). cbn [Nat.add] in E1, F1. rewrite E0, E1. cbn [bind]. rewrite F0, F1. cbn [bind].
  assert (E : (if p_init o then Poly_new else o) = Poly_new) by (destruct st as [((? & ?) & ?)|]; [destruct HA as [-> _]; reflexivity|cbn [pabs] in HA; subst o; reflexivity]). rewrite E. cbn [Poly_new p_buf p_pos].
  destruct (clamp_ok t0 t1 T0 T1) as [R1 R2]. eexists. split; [reflexivity|]. cbn [pabs p_init p_r p_pad p_h p_buf p_pos fst snd]. split; [reflexivity|]. split; [exact R1|].
  split; [rewrite R2, ET; unfold poly_r; rewrite value_le_eq; reflexivity|]. split; [exact Q0|]. split; [exact Q1|]. split; [unfold poly_s; rewrite value_le_eq; exact EQ|].
  exists (0, 0, 0). split; [cbn; lia|]. split; [reflexivity|]. apply ainv_start; [lia|cbn; lia|apply bytes_zeros|apply length_zeros].
Qed.
Lemma upd_ok o k a m inp io len : pabs o (Some (k, a, m)) -> bytes inp -> (io + len <= length inp)%nat -> exists o', Poly_Update X o inp io len = Ok o' /\ pabs o' (Some (k, a, m ++ slice inp io len)).
Proof.
  intros (H1 & H2 & H3 & H4 & H5 & H6 & h0 & H7 & H8 & H9) Bi HL. unfold Poly_Update. rewrite H1. cbn [guard bind]. rewrite window_ok by lia. replace (io + len <=? length inp)%nat with true by (symmetry; apply Nat.leb_le; lia). cbn [guard bind].
  destruct (eager_ok 16 16 (poly_step X (p_r o)) (pg (p_r o)) h_ok ltac:(lia) (fun s b oo Hs => step_ok (p_r o) s b oo H2 Hs) h0 m _ inp io len H9 Bi HL) as (((h' & buf') & pos') & -> & I'). cbn [bind].
  eexists. split; [reflexivity|]. cbn [pabs p_init p_r p_pad p_h p_buf p_pos]. split; [reflexivity|]. repeat (split; [assumption|]). exists h0. split; [exact H7|]. split; [exact H8|exact I'].
Qed.
Lemma firstn_upd buf : forall pos v, (pos < length buf)%nat -> firstn (pos + 1) (upd buf pos v) = firstn pos buf ++ [v].
Proof. induction buf as [|x buf IH]; intros pos v H; [cbn in H; lia|]. destruct pos as [|pos]; [reflexivity|]. cbn [upd Nat.add firstn app]. f_equal. apply IH. cbn [length] in H. lia. Qed.
Lemma chunks_short (d : list Z) : (0 < length d < 16)%nat -> chunks 16 d = [d].
Proof. intros H. destruct d as [|x d]; [cbn in H; lia|]. rewrite chunks_cons by (try discriminate; lia). rewrite firstn_all2, skipn_all2 by lia. now rewrite chunks_nil. Qed.
Lemma fin_ok o k a m out oo : pabs o (Some (k, a, m)) -> (oo + 16 <= length out)%nat -> exists o', Poly_Finalize X o out oo = Ok (o', splice out oo (poly_tag k a m)) /\ pabs o' (after_tag k a m).
Proof.
  intros (H1 & H2 & H3 & H4 & H5 & H6 & h0 & H7 & H8 & H9) HO. destruct o as [r h [q0 q1] buf pos ini]. cbn [p_init p_r p_pad p_h p_buf p_pos fst snd] in *. subst ini. destruct H9 as (Ih & Bb & Lb & P & bs & Hbs & Hm & Hs).
  unfold Poly_Finalize. cbn [p_init p_r p_pad p_h p_buf p_pos guard bind]. rewrite window_ok by lia. replace (oo + 16 <=? length out)%nat with true by (symmetry; apply Nat.leb_le; lia). cbn [guard bind].
  destruct (fold_val r bs H2 h0 H7 Hbs) as [FO FV]. rewrite <- Hs, H3, H8 in FV. set (d := slice buf 0 pos) in *. assert (Ld : length d = pos) by (unfold d; rewrite length_slice; lia).
  assert (SK : skipn (length m / 16 * 16) m = d).
  { rewrite Hm, app_length, (concat_len 16) by exact Hbs. replace ((length bs * 16 + length d) / 16 * 16)%nat with (length (concat bs)) by (rewrite (concat_len 16) by exact Hbs; rewrite Nat.add_comm, Nat.div_add, Nat.div_small by lia; lia). rewrite skipn_app, skipn_all, Nat.sub_diag. reflexivity. }
  assert (FIN : forall h' buf', h_ok h' -> bytes buf' -> length buf' = 16%nat -> slice buf' 0 pos = d -> v3 h' mod p1305 = poly_sum (poly_r k) a m ->
    exists o', (let '(w0, w1) := poly_finish h' (q0, q1) in out <- Le64ToBytes w0 out oo ;; out <- Le64ToBytes w1 out (oo + 8) ;; Ok (Poly r h' (q0, q1) buf' pos true, out)) = Ok (o', splice out oo (poly_tag k a m)) /\ pabs o' (after_tag k a m)).
  { intros h' buf' K1 K2 K3 K4 K5. pose proof (finish_ok h' q0 q1 K1 H4 H5) as (W0 & W1 & WS). destruct (poly_finish h' (q0, q1)) as [w0 w1]. cbn [fst snd] in *. unfold Le64ToBytes. rewrite LeToBytes_correct by lia. cbn [bind].
    rewrite LeToBytes_correct by (rewrite length_splice; rewrite ?length_le_bytes; lia). cbn [bind]. eexists. split.
    - f_equal. f_equal. replace (oo + 8)%nat with (oo + length (le_bytes 8 w0))%nat by (rewrite length_le_bytes; lia). rewrite splice_splice_next by (rewrite !length_le_bytes; lia). f_equal.
      unfold poly_tag. rewrite <- K5, <- H6, <- WS. apply le_val_inj; [apply Forall_app; split; apply bytes_le_bytes|apply bytes_le_bytes|rewrite app_length, !length_le_bytes; reflexivity|].
      rewrite le_val_app, length_le_bytes, !le_val_le_bytes. change (256 ^ Z.of_nat 8) with (2 ^ 64). change (256 ^ Z.of_nat 16) with (2 ^ 128). rewrite !(Z.mod_small w0), !(Z.mod_small w1), Z.mod_small by lia. reflexivity.
    - cbn [after_tag pabs p_init p_r p_pad p_h p_buf p_pos fst snd]. split; [reflexivity|]. repeat (split; [assumption|]). exists h'. split; [exact K1|]. split; [exact K5|]. rewrite SK. split; [exact K1|]. split; [exact K2|]. split; [exact K3|]. split; [exact P|].
      exists []. split; [constructor|]. split; [cbn [concat app]; now rewrite K4|reflexivity]. }
  destruct (Nat.eqb_spec pos 0) as [P0|P0]; cbn [negb].
  - cbn [bind]. apply (FIN h buf Ih Bb Lb eq_refl). rewrite FV. unfold poly_sum. rewrite Hm, chunks_concat by (auto; lia). destruct d; [|cbn in Ld; lia]. rewrite chunks_nil, app_nil_r. reflexivity.
  - rewrite put_ok by lia. cbn [bind]. rewrite length_upd. rewrite wr_ok by (rewrite length_upd, length_zeros; lia). cbn [bind].
    assert (EB : splice (upd buf pos 1) (pos + 1) (zeros (length buf - pos - 1)) = d ++ [1] ++ zeros (length buf - pos - 1)).
    { unfold splice. rewrite length_zeros. replace (pos + 1 + (length buf - pos - 1))%nat with (length (upd buf pos 1)) by (rewrite length_upd; lia). rewrite skipn_all, app_nil_r. rewrite app_assoc. f_equal.
      unfold d, slice. rewrite skipn_O. apply firstn_upd. lia. }
    rewrite EB. set (buf' := d ++ [1] ++ zeros (length buf - pos - 1)).
    assert (LB : length buf' = 16%nat) by (unfold buf'; rewrite !app_length, length_zeros, Ld; cbn [length]; lia). assert (BB : bytes buf') by (unfold buf'; repeat (apply Forall_app; split); [now apply bytes_slice|repeat constructor; lia|apply bytes_zeros]).
    destruct r as [[r0 r1] r2]. destruct (block_ok X V I HX r0 r1 r2 0 h buf' 0 H2 Ih BB ltac:(lia) (or_introl eq_refl)) as (h' & -> & K1 & K2). cbn [bind].
    apply (FIN h' buf' K1 BB LB); [unfold buf', slice; rewrite skipn_O, firstn_app, Ld, Nat.sub_diag, firstn_O, app_nil_r; apply firstn_all2; lia|].
    rewrite K2. rewrite slice_all by auto. unfold poly_sum. rewrite Hm, chunks_concat by (auto; lia). assert (CS : chunks 16 d = [d]) by (apply chunks_short; clear - Ld P P0; lia). rewrite CS, fold_left_app. cbn [fold_left]. rewrite <- FV, H3, Z.mul_0_r, Z.add_0_r.
    rewrite value_le_eq. unfold buf'. rewrite app_assoc, (le_val_app (d ++ [1])), le_val_zeros, Z.mul_0_r, Z.add_0_r.
    rewrite (Z.mul_mod (v3 h + _)), (Z.mul_mod (v3 h mod p1305 + _)) by (unfold p1305; lia). now rewrite Z.add_mod_idemp_l by (unfold p1305; lia).
Qed.
Lemma pstep_ok st o c : pabs o st -> mcall_ok 16 c -> exists o' r, mstep (poly_ops X) o c = Ok (o', r) /\ snd (pspec st c) r /\ pabs o' (fst (pspec st c)).
Proof.
  intros HA HC. destruct c as [key|p|out oo|out oo|inp out|]; unfold mstep; cbn [poly_ops m_init m_upd m_fin m_sec m_comp m_reset mcall_ok] in *.
  - cbn [pspec]. destruct (Nat.ltb_spec (length key) 32) as [L|L].
    + unfold Poly_Initialize. replace (length key <? 32)%nat with true by (symmetry; apply Nat.ltb_lt; lia). cbn [bind fst snd]. eexists _, _. split; [reflexivity|]. split; [reflexivity|exact HA].
    + destruct (init_ok o st key HA HC L) as (o' & -> & A'). cbn [bind fst snd]. eexists _, _. split; [reflexivity|]. split; [reflexivity|exact A'].
  - destruct HC as [C1 C2]. destruct st as [((k & a) & m)|]; cbn [pspec].
    + destruct (Nat.leb_spec (p_off p + p_len p) (length (p_in p))) as [L|L].
      * destruct (upd_ok o k a m _ _ _ HA C2 L) as (o' & -> & A'). eexists _, _. split; [reflexivity|]. split; [reflexivity|exact A'].
      * assert (E : Poly_Update X o (p_in p) (p_off p) (p_len p) = Throw InvalidSize).
        { unfold Poly_Update. destruct HA as [-> _]. cbn [guard bind]. rewrite window_ok by lia. replace (p_off p + p_len p <=? length (p_in p))%nat with false by (symmetry; apply Nat.leb_gt; lia). reflexivity. }
        rewrite E. eexists _, _. split; [reflexivity|]. split; [reflexivity|exact HA].
    + cbn [pabs] in HA. subst o. eexists _, _. split; [reflexivity|]. split; [reflexivity|reflexivity].
  - destruct st as [((k & a) & m)|]; cbn [pspec].
    + destruct (Nat.leb_spec (oo + 16) (length out)) as [L|L].
      * destruct (fin_ok o k a m out oo HA L) as (o' & -> & A'). cbn [caught]. eexists _, _. split; [reflexivity|]. split; [|exact A']. eexists. split; [reflexivity|]. apply splice_written. unfold poly_tag. rewrite length_le_bytes. exact L.
      * assert (E : Poly_Finalize X o out oo = Throw InvalidSize).
        { unfold Poly_Finalize. destruct HA as [-> _]. cbn [guard bind]. rewrite window_ok by lia. replace (oo + 16 <=? length out)%nat with false by (symmetry; apply Nat.leb_gt; lia). reflexivity. }
        rewrite E. eexists _, _. split; [reflexivity|]. split; [reflexivity|exact HA].
    + cbn [pabs] in HA. subst o. eexists _, _. split; [reflexivity|]. split; [reflexivity|reflexivity].
  - destruct st as [((k & a) & m)|]; cbn [pspec].
    + unfold Poly_FinalizeS. destruct (fin_ok o k a m (zeros 16) 0 HA ltac:(rewrite length_zeros; lia)) as (o' & -> & A'). cbn [bind].
      assert (LT : length (poly_tag k a m) = 16%nat) by apply length_le_bytes. rewrite splice_all by (rewrite length_zeros; lia).
      rewrite wcopy_ok by lia. cbn [bind]. rewrite slice_all by auto. cbn [caught]. eexists _, _. split; [reflexivity|]. split; [|exact A']. eexists. split; [reflexivity|]. apply splice_written. lia.
    + cbn [pabs] in HA. subst o. eexists _, _. split; [reflexivity|]. split; [reflexivity|reflexivity].
  - destruct st as [((k & a) & m)|]; cbn [pspec].
    + unfold Poly_Compute. assert (E : p_init o = true) by (destruct HA as [-> _]; reflexivity). rewrite E. cbn [guard bind]. rewrite <- Nat.leb_antisym.
      destruct (Nat.leb_spec 16 (length out)) as [L|L]; cbn [guard bind].
      * destruct (upd_ok o k a m inp 0 (length inp) HA HC ltac:(lia)) as (o1 & -> & A1). cbn [bind]. rewrite slice_all in A1 by reflexivity.
        destruct (fin_ok o1 k a _ out 0 A1 ltac:(lia)) as (o' & -> & A'). cbn [caught]. eexists _, _. split; [reflexivity|]. split; [|exact A']. eexists. split; [reflexivity|]. apply splice_written. unfold poly_tag. rewrite length_le_bytes. lia.
      * cbn [caught]. eexists _, _. split; [reflexivity|]. split; [reflexivity|exact HA].
    + cbn [pabs] in HA. subst o. eexists _, _. split; [reflexivity|]. split; [reflexivity|reflexivity].
  - unfold Poly_Reset. cbn [bind pspec fst snd]. eexists _, _. split; [reflexivity|]. split; [reflexivity|]. destruct st as [((? & ?) & ?)|]; reflexivity.
Qed.
Lemma phistory_ok cs : forall st o, pabs o st -> Forall (mcall_ok 16) cs -> exists rs, mhistory (poly_ops X) o cs = Ok rs /\ pexpected st cs rs.
Proof.
  induction cs as [|c cs IH]; intros st o Ho Hc; [exists []; split; [reflexivity|exact Logic.I]|].
  inversion Hc as [|? ? C1 C2]; subst. cbn [mhistory]. destruct (pstep_ok st o c Ho C1) as (o' & r & -> & S & R'). cbn [bind fst snd].
  destruct (IH _ _ R' C2) as (rs & -> & F). cbn [bind]. eexists. split; [reflexivity|]. cbn [pexpected]. auto.
Qed.
End obj.
