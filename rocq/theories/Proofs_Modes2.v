(** CBC and OFB *)
From Coq Require Import Permutation.
From Verif Require Import BaseLemmas Spec_Common Spec_Modes Proofs_Common Proofs_IntegerTools Model_Modes Proofs_Windows Proofs_Modes.
Open Scope Z_scope.

Definition iv16 (iv : list Z) : Prop := length iv = 16%nat.
(** ** CBC step functions *)
Definition gce (E : list Z -> list Z) (b iv : list Z) : list Z * list Z := let c := E (xorl b iv) in (c, c).
Definition gcd (D : list Z -> list Z) (b iv : list Z) : list Z * list Z := (xorl (D b) iv, b).
Lemma gce_wf E : block_fun E -> forall b st, length b = 16%nat -> iv16 st -> length (fst (gce E b st)) = 16%nat /\ iv16 (snd (gce E b st)).
Proof. intros HE b st Hb Hs. cbn. assert (length (E (xorl b st)) = 16%nat) by (apply HE; rewrite length_xorl, Hb, Hs; reflexivity). auto. Qed.
Lemma gcd_wf D : block_fun D -> forall b st, length b = 16%nat -> iv16 st -> length (fst (gcd D b st)) = 16%nat /\ iv16 (snd (gcd D b st)).
Proof. intros HD b st Hb Hs. cbn. split; [|exact Hb]. rewrite length_xorl, HD, Hs by auto. reflexivity. Qed.
Lemma gce_spec E bs : forall iv, fst (gfold (gce E) bs iv) = cbc_encrypt E iv bs.
Proof. induction bs as [|b t IH]; intros iv; [reflexivity|]. cbn. rewrite <- IH. now destruct (gfold (gce E) t _). Qed.
Lemma gcd_spec D bs : forall iv, fst (gfold (gcd D) bs iv) = cbc_decrypt D iv bs.
Proof. induction bs as [|b t IH]; intros iv; [reflexivity|]. cbn. rewrite <- IH. now destruct (gfold (gcd D) t _). Qed.
Lemma gce_snd E bs : forall iv, snd (gfold (gce E) bs iv) = last (cbc_encrypt E iv bs) iv.
Proof.
  induction bs as [|b t IH]; intros iv; [reflexivity|]. cbn [gfold cbc_encrypt gce].
  specialize (IH (E (xorl b iv))). destruct (gfold (gce E) t _) as [cs st]. cbn [snd] in *. rewrite IH.
  destruct t; [reflexivity|]. cbn [cbc_encrypt last]. destruct (cbc_encrypt E (E (xorl l (E (xorl b iv)))) t); [reflexivity|].
  clear. revert l0. induction l1 as [|x l1 IH]; intros; [reflexivity|]. cbn [last]. apply IH.
Qed.
Lemma last_cons {A} (x : A) t d e : t <> [] -> last (x :: t) d = last t e.
Proof. revert x; induction t as [|y t IH]; intros x H; [contradiction|]. destruct t; [reflexivity|]. change (last (x :: y :: a :: t) d) with (last (y :: a :: t) d). rewrite IH by discriminate. reflexivity. Qed.
Lemma gcd_snd D bs : forall iv, snd (gfold (gcd D) bs iv) = last bs iv.
Proof.
  induction bs as [|b t IH]; intros iv; [reflexivity|]. cbn [gfold gcd].
  specialize (IH b). destruct (gfold (gcd D) t b) as [cs st]. cbn [snd] in *. rewrite IH.
  destruct t; [reflexivity|]. symmetry. now rewrite (last_cons b (l :: t) iv b).
Qed.

Lemma CBC_Encrypt128_ok E inp io out oo iv : block_fun E -> (io + 16 <= length (src inp out))%nat -> (oo + 16 <= length out)%nat -> iv16 iv ->
  CBC_Encrypt128 E inp io out oo iv =
  Ok (splice out oo (fst (gce E (slice (src inp out) io 16) iv)), snd (gce E (slice (src inp out) io 16) iv)).
Proof.
  intros HE H1 H2 Hiv. unfold CBC_Encrypt128. unfold iv16 in Hiv.
  assert (S0 : forall l : list Z, length l = 16%nat -> slice l 0 16 = l) by (intros; now apply slice_all).
  assert (P0 : forall l d : list Z, length l = 16%nat -> length d = 16%nat -> splice l 0 d = d) by (intros l d La Lb; apply splice_all; lia).
  set (b := slice (src inp out) io 16). assert (Hb : length b = 16%nat) by (apply length_slice; lia).
  rewrite wxor_ok by lia. cbn [bind]. fold b. rewrite S0 by lia.
  assert (Hx : length (xorl b iv) = 16%nat) by (rewrite length_xorl, Hb, Hiv; reflexivity).
  rewrite (xorl_comm iv b). rewrite P0 by lia.
  rewrite blk_ok by (rewrite ?S0; auto; lia). cbn [bind]. rewrite S0 by lia.
  assert (Hc : length (E (xorl b iv)) = 16%nat) by auto.
  rewrite wcopy_ok by (rewrite ?length_splice; lia). cbn [bind].
  rewrite slice_splice_here by lia. rewrite P0 by lia. reflexivity.
Qed.

Lemma CBC_Decrypt128_ok D inp io out oo iv : block_fun D -> (io + 16 <= length (src inp out))%nat -> (oo + 16 <= length out)%nat -> iv16 iv ->
  CBC_Decrypt128 D inp io out oo iv =
  Ok (splice out oo (fst (gcd D (slice (src inp out) io 16) iv)), snd (gcd D (slice (src inp out) io 16) iv)).
Proof.
  intros HD H1 H2 Hiv. unfold CBC_Decrypt128. unfold iv16 in Hiv.
  rewrite rd_ok by lia. cbn [bind]. set (b := slice (src inp out) io 16).
  assert (Hb : length b = 16%nat) by (apply length_slice; lia).
  rewrite blk_ok by (auto; lia). cbn [bind]. fold b. pose proof (HD b Hb) as Hd.
  rewrite wxor_ok by (rewrite ?length_splice; lia). cbn [bind]. rewrite slice_splice_here by lia.
  rewrite (slice_all iv) by lia. rewrite splice_over by (rewrite ?length_xorl; lia).
  rewrite wcopy16 by auto. reflexivity.
Qed.

(** the result of a whole CBC decryption of [n] blocks *)
Definition cdd (D : list Z -> list Z) (n : nat) (l iv : list Z) : list Z * list Z :=
  let r := gfold (gcd D) (blocks 16 n l) iv in (concat (fst r), snd r).
Lemma cdd_wf D n : block_fun D -> forall l iv, length l = (n * 16)%nat -> iv16 iv ->
  length (fst (cdd D n l iv)) = (n * 16)%nat /\ iv16 (snd (cdd D n l iv)).
Proof.
  intros HD l iv Hl Hiv. unfold cdd. cbv zeta. cbn [fst snd].
  destruct (gfold_len (gcd D) iv16 16 (blocks 16 n l) iv (gcd_wf D HD)) as (G1 & G2 & G3); auto.
  { intros b Hb. eapply blocks_len; [|exact Hb]. lia. }
  split; auto. rewrite (concat_length_eq 16) by auto. rewrite G1, blocks_length. reflexivity.
Qed.
Lemma cdd_app D a b l iv : (a * 16 <= length l)%nat ->
  cdd D (a + b) l iv = (fst (cdd D a (firstn (a * 16) l) iv) ++ fst (cdd D b (skipn (a * 16) l) (snd (cdd D a (firstn (a * 16) l) iv))),
     snd (cdd D b (skipn (a * 16) l) (snd (cdd D a (firstn (a * 16) l) iv)))).
Proof.
  intros H. unfold cdd. cbv zeta. rewrite blocks_app, gfold_app. cbn [fst snd].
  rewrite concat_app. rewrite blocks_slice by lia. reflexivity.
Qed.
Lemma cdd_slice D a b l io iv : (io + (a + b) * 16 <= length l)%nat ->
  cdd D (a + b) (slice l io ((a + b) * 16)) iv =
    (fst (cdd D a (slice l io (a * 16)) iv) ++ fst (cdd D b (slice l (io + a * 16) (b * 16)) (snd (cdd D a (slice l io (a * 16)) iv))),
     snd (cdd D b (slice l (io + a * 16) (b * 16)) (snd (cdd D a (slice l io (a * 16)) iv)))).
Proof.
  intros H. rewrite cdd_app by (rewrite length_slice; lia). rewrite slice_firstn by lia. rewrite slice_skipn.
  replace ((a + b) * 16 - a * 16)%nat with (b * 16)%nat by lia. reflexivity.
Qed.
Lemma cdd_one D l iv : length l = 16%nat -> cdd D 1 l iv = gcd D l iv.
Proof. intros. unfold cdd. rewrite blocks_1 by auto. cbn. now rewrite app_nil_r. Qed.
Lemma last_app1 {A} (l : list A) x d : last (l ++ [x]) d = x.
Proof. induction l as [|y l IH]; [reflexivity|]. cbn. destruct (l ++ [x]) eqn:E; [destruct l; discriminate|exact IH]. Qed.
Lemma cdd_state D n l iv : (0 < n)%nat -> length l = (n * 16)%nat -> snd (cdd D n l iv) = slice l (n * 16 - 16) 16.
Proof.
  intros Hn Hl. unfold cdd. cbv zeta. cbn [snd]. rewrite gcd_snd.
  replace n with (n - 1 + 1)%nat at 1 by lia. rewrite blocks_app. cbn [blocks]. rewrite last_app1.
  unfold slice. do 2 f_equal. lia.
Qed.
(** the whole-window form used by the wide code *)
Lemma cdd_wide D bs : block_fun D -> forall iv, (forall b, In b bs -> length b = 16%nat) -> iv16 iv ->
  concat (fst (gfold (gcd D) bs iv)) = xorl (concat (map D bs)) (firstn (length bs * 16) (iv ++ concat bs)).
Proof.
  intros HD. induction bs as [|b t IH]; intros iv Hb Hiv; [reflexivity|]. cbn [gfold gcd map concat length].
  specialize (IH b (fun x Hx => Hb x (or_intror Hx)) (Hb b (or_introl eq_refl))).
  destruct (gfold (gcd D) t b) as [cs st]. cbn [fst concat] in *. rewrite IH.
  assert (Lb : length b = 16%nat) by (apply Hb; now left). unfold iv16 in Hiv.
  replace (S (length t) * 16)%nat with (length iv + length t * 16)%nat by lia.
  rewrite firstn_app_2. rewrite xorl_app by (rewrite HD by auto; lia). reflexivity.
Qed.

Lemma CBC_seq_loop D inp io out oo a n done iv : block_fun D -> alias_ok inp io oo -> iv16 iv ->
  length done = (a * 16)%nat -> (oo + (a + n) * 16 <= length out)%nat -> (io + (a + n) * 16 <= length (src inp out))%nat ->
  for_up a n (fun k st => let '(out, iv) := st in CBC_Decrypt128 D inp (io + k * 16) out (oo + k * 16) iv) (splice out oo done, iv) =
  Ok (splice out oo (done ++ fst (cdd D n (slice (src inp out) (io + a * 16) (n * 16)) iv)),
      snd (cdd D n (slice (src inp out) (io + a * 16) (n * 16)) iv)).
Proof.
  intros HD HA Hiv Hd Ho Hi.
  rewrite (seq_mode 16 inp io out oo (gcd D) iv16 (gcd_wf D HD) HA); auto.
  intros k out' st Hk L Hst.
  assert (L1 : length (src inp out') = length (src inp out)) by now apply src_len.
  apply CBC_Decrypt128_ok; auto; lia.
Qed.

(** one wide step *)
Lemma CBC_wide_step_ok D s inp io oo out iv tmpn : block_fun D -> iv16 iv -> (0 < s)%nat ->
  (io + 16 * s <= length (src inp out))%nat -> (oo + 16 * s <= length out)%nat -> length tmpn = (16 * s)%nat ->
  let l := src inp out in
  exists tmpn',
    CBC_wide_step D s inp io oo (out, iv ++ slice l io (16 * s - 16), tmpn) =
      Ok (splice out oo (fst (cdd D s (slice l io (16 * s)) iv)), tmpn', tmpn') /\
    length tmpn' = (16 * s)%nat /\
    firstn 16 tmpn' = snd (cdd D s (slice l io (16 * s)) iv) /\
    ((io + 16 * s + 16 * s <= length l)%nat -> tmpn' = firstn 16 tmpn' ++ slice l (io + 16 * s) (16 * s - 16)).
Proof.
  intros HD Hiv Hs Hi Ho Ht l. unfold iv16 in Hiv. fold l in Hi.
  set (m := (if (16 * s <=? length l - (io + (16 * s - 16)))%nat then 16 * s else length l - (io + (16 * s - 16)))%nat).
  assert (Hm : (16 <= m <= 16 * s)%nat /\ (io + (16 * s - 16) + m <= length l)%nat).
  { unfold m. destruct (Nat.leb_spec (16 * s) (length l - (io + (16 * s - 16)))); lia. }
  destruct Hm as [Hm1 Hm2].
  exists (splice tmpn 0 (slice l (io + (16 * s - 16)) m)).
  assert (Lm : length (slice l (io + (16 * s - 16)) m) = m) by (apply length_slice; lia).
  assert (Lt : length (splice tmpn 0 (slice l (io + (16 * s - 16)) m)) = (16 * s)%nat) by (rewrite length_splice; lia).
  assert (F16 : firstn 16 (splice tmpn 0 (slice l (io + (16 * s - 16)) m)) = slice l (io + (16 * s - 16)) 16).
  { unfold splice. change (firstn 0 tmpn) with (@nil Z). rewrite app_nil_l, firstn_app, Lm.
    replace (16 - m)%nat with 0%nat by lia. rewrite firstn_O, app_nil_r. apply slice_firstn. lia. }
  split; [|split; [exact Lt|split]].
  - unfold CBC_wide_step. fold l. fold m. rewrite wcopy_ok by lia. cbn [bind].
    rewrite wideT_ok by (auto; lia). cbn [bind].
    set (W := slice l io (16 * s)). assert (LW : length W = (16 * s)%nat) by (apply length_slice; lia).
    set (C := concat (map D (blocks 16 s W))).
    assert (LB : forall b, In b (blocks 16 s W) -> length b = 16%nat) by (intros b Hb; eapply blocks_len; [|exact Hb]; lia).
    assert (LC : length C = (16 * s)%nat) by (unfold C; rewrite concat_map_len, blocks_length by auto; lia).
    assert (LV : length (iv ++ slice l io (16 * s - 16)) = (16 * s)%nat) by (rewrite app_length, length_slice; lia).
    rewrite wxor_ok by (rewrite ?length_splice; lia). cbn [bind]. rewrite slice_splice_here by lia.
    rewrite (slice_all (iv ++ _)) by lia. rewrite splice_over by (rewrite ?length_xorl; lia).
    rewrite wcopy_ok by lia. cbn [bind]. rewrite slice_all by lia. rewrite splice_all by lia.
    do 4 f_equal. unfold cdd. cbv zeta. cbn [fst]. rewrite cdd_wide by (auto; exact Hiv). fold C. f_equal.
    rewrite blocks_length, blocks_concat. rewrite firstn_all2 with (n := (s * 16)%nat) (l := W) by lia.
    replace (s * 16)%nat with (length iv + (16 * s - 16))%nat by lia. rewrite firstn_app_2. f_equal.
    unfold W. rewrite slice_firstn by lia. reflexivity.
  - rewrite cdd_state by (rewrite ?length_slice; lia). rewrite F16. rewrite slice_slice by lia. f_equal. lia.
  - intros H2. assert (m = (16 * s)%nat) as -> by (unfold m; destruct (Nat.leb_spec (16 * s) (length l - (io + (16 * s - 16)))); lia).
    rewrite F16. rewrite splice_all by lia.
    replace (16 * s)%nat with (16 + (16 * s - 16))%nat at 2 by lia. rewrite slice_app. do 2 f_equal; lia.
Qed.

Lemma CBC_wide_loop D s inp io out oo : block_fun D -> (0 < s)%nat -> alias_ok inp io oo ->
  forall w a done iv tmpv tmpn,
  (0 < w)%nat -> iv16 iv -> length done = (a * (16 * s))%nat -> length tmpn = (16 * s)%nat ->
  tmpv = iv ++ slice (src inp out) (io + a * (16 * s)) (16 * s - 16) ->
  (oo + (a + w) * (16 * s) <= length out)%nat -> (io + (a + w) * (16 * s) <= length (src inp out))%nat ->
  let r := cdd D (w * s) (slice (src inp out) (io + a * (16 * s)) (w * s * 16)) iv in
  exists tv tn, for_up a w (fun k st => CBC_wide_step D s inp (io + k * (16 * s)) (oo + k * (16 * s)) st) (splice out oo done, tmpv, tmpn) =
    Ok (splice out oo (done ++ fst r), tv, tn) /\ length tn = (16 * s)%nat /\ firstn 16 tn = snd r.
Proof.
  intros HD Hs HA. induction w as [|w IH]; intros a done iv tmpv tmpn Hw Hiv Hd Ht Htv Ho Hi r; [lia|].
  cbn [for_up].
  set (R := (16 * s)%nat) in *.
  assert (Ho' : (oo + a * R + R <= length out)%nat) by nia.
  assert (Hi' : (io + a * R + R <= length (src inp out))%nat) by nia.
  assert (Ld : length (splice out oo done) = length out) by (apply length_splice; lia).
  assert (Ls : length (src inp (splice out oo done)) = length (src inp out)) by (apply src_len; lia).
  destruct (CBC_wide_step_ok D s inp (io + a * R) (oo + a * R) (splice out oo done) iv tmpn) as (tn & E1 & E2 & E3 & E4); auto;
    try (fold R; lia).
  fold R in E1, E2, E3, E4. rewrite Ls in E4.
  assert (SA : forall k n, (a * R <= k)%nat -> slice (src inp (splice out oo done)) (io + k) n = slice (src inp out) (io + k) n)
    by (intros; apply src_ahead; auto; lia).
  rewrite !SA in E1 by lia. rewrite !SA in E3 by lia.
  rewrite Htv, E1. cbn [bind].
  set (b := slice (src inp out) (io + a * R) R) in *.
  assert (Lb : length b = (s * 16)%nat) by (unfold b; rewrite length_slice; lia).
  destruct (cdd_wf D s HD b iv Lb Hiv) as [C1 C2].
  pose proof (splice_splice_next out oo done (fst (cdd D s b iv))) as SS. rewrite Hd in SS. rewrite SS by lia. clear SS.
  assert (RR : r = (fst (cdd D s b iv) ++ fst (cdd D (w * s) (slice (src inp out) (io + S a * R) (w * s * 16)) (snd (cdd D s b iv))),
                    snd (cdd D (w * s) (slice (src inp out) (io + S a * R) (w * s * 16)) (snd (cdd D s b iv))))).
  { unfold r. replace (S w * s)%nat with (s + w * s)%nat by lia.
    rewrite cdd_slice by nia. replace (s * 16)%nat with R by lia. fold b.
    replace (io + a * R + R)%nat with (io + S a * R)%nat by lia. reflexivity. }
  destruct w as [|w].
  - cbn [for_up]. exists tn, tn. rewrite RR. change (cdd D (0 * s) (slice (src inp out) (io + S a * R) (0 * s * 16)) (snd (cdd D s b iv)))
      with (@nil Z, snd (cdd D s b iv)). cbn [fst snd]. rewrite app_nil_r. auto.
  - assert (Hn : (io + a * R + R + R <= length (src inp out))%nat) by nia.
    destruct (IH (S a) (done ++ fst (cdd D s b iv)) (snd (cdd D s b iv)) tn tn) as (tv' & tn' & F1 & F2 & F3); auto; try lia.
    + rewrite app_length. lia.
    + rewrite E4 at 1 by lia. rewrite E3. f_equal. replace (io + a * R + R)%nat with (io + S a * R)%nat by lia. apply SA. lia.
    + exists tv', tn'. rewrite RR. cbn [fst snd]. rewrite F1, app_assoc. auto.
Qed.

Lemma CBC_DecryptSegment_ok D s inp io out oo iv cnt : block_fun D -> alias_ok inp io oo -> iv16 iv ->
  (oo + cnt * 16 <= length out)%nat -> (io + cnt * 16 <= length (src inp out))%nat ->
  CBC_DecryptSegment D s inp io out oo iv cnt =
  Ok (splice out oo (fst (cdd D cnt (slice (src inp out) io (cnt * 16)) iv)), snd (cdd D cnt (slice (src inp out) io (cnt * 16)) iv)).
Proof.
  intros HD HA Hiv Ho Hi. unfold CBC_DecryptSegment.
  set (w := (if (s =? 0)%nat then 0 else if (s <=? cnt)%nat then cnt / s else 0)%nat).
  assert (Hw : (w * s <= cnt)%nat /\ (w = 0 \/ 0 < s)%nat).
  { unfold w. destruct (Nat.eqb_spec s 0); [lia|]. destruct (s <=? cnt)%nat; [|lia]. split; [|lia]. rewrite Nat.mul_comm. now apply Nat.mul_div_le. }
  destruct Hw as [Hw Hs]. clearbody w.
  assert (W : exists st1, (if (w =? 0)%nat then Ok (out, iv) else
    tmpv <- wcopy iv 0 (zeros (16 * s)) 0 16 ;;
    tmpv <- wcopy (src inp out) io tmpv 16 (16 * s - 16) ;;
    st <- for_up 0 w (fun k st => CBC_wide_step D s inp (io + k * (16 * s)) (oo + k * (16 * s)) st)
            (out, tmpv, zeros (16 * s)) ;;
    let '(out, _, tmpn) := st in
    iv <- wcopy tmpn 0 iv 0 16 ;;
    Ok (out, iv)) = Ok st1 /\ st1 = (splice out oo (fst (cdd D (w * s) (slice (src inp out) io (w * s * 16)) iv)), snd (cdd D (w * s) (slice (src inp out) io (w * s * 16)) iv))).
  { eexists. split; [|reflexivity]. destruct (Nat.eqb_spec w 0) as [->|Hw0].
    - cbn. now rewrite splice_nil.
    - destruct Hs as [Hs|Hs]; [lia|]. assert (16 * s <= cnt * 16)%nat by nia. unfold iv16 in Hiv.
      rewrite wcopy_ok by (rewrite ?repeat_length; unfold zeros; rewrite ?repeat_length; lia). cbn [bind].
      assert (LZ : length (zeros (16 * s)) = (16 * s)%nat) by apply repeat_length.
      rewrite (slice_all iv) by lia.
      rewrite wcopy_ok by (rewrite ?length_splice; lia). cbn [bind].
      assert (TV : splice (splice (zeros (16 * s)) 0 iv) 16 (slice (src inp out) io (16 * s - 16)) = iv ++ slice (src inp out) io (16 * s - 16)).
      { pose proof (splice_splice_next (zeros (16 * s)) 0 iv (slice (src inp out) io (16 * s - 16))) as SS.
        rewrite Hiv in SS. cbn [Nat.add] in SS. rewrite SS by (rewrite length_slice; lia). apply splice_all. rewrite app_length, length_slice; lia. }
      rewrite TV.
      destruct (CBC_wide_loop D s inp io out oo HD Hs HA w 0 [] iv (iv ++ slice (src inp out) io (16 * s - 16)) (zeros (16 * s)))
        as (tv & tn & F1 & F2 & F3); auto; try lia; try nia.
      { now rewrite Nat.mul_0_l, Nat.add_0_r. }
      rewrite splice_nil in F1. cbn [app] in F1. rewrite Nat.mul_0_l, Nat.add_0_r in F1, F3. rewrite F1. cbn [bind].
      rewrite wcopy_ok by lia. cbn [bind]. rewrite <- F3.
      f_equal. f_equal. unfold slice. cbn [skipn]. apply splice_all. rewrite firstn_length. lia. }
  destruct W as (st1 & W & ->). rewrite W. cbn [bind].
  assert (LW : length (slice (src inp out) io (w * s * 16)) = (w * s * 16)%nat) by (apply length_slice; lia).
  destruct (cdd_wf D (w * s) HD _ iv LW Hiv) as [C1 C2].
  erewrite for_up_ext.
  2:{ intros k [o v]. replace (io + 16 * k)%nat with (io + k * 16)%nat by lia. replace (oo + 16 * k)%nat with (oo + k * 16)%nat by lia.
      instantiate (1 := fun k st => let '(out, iv) := st in CBC_Decrypt128 D inp (io + k * 16) out (oo + k * 16) iv). reflexivity. }
  rewrite CBC_seq_loop; auto; try lia.
  assert (HC : cnt = (w * s + (cnt - w * s))%nat) by lia.
  pose proof (cdd_slice D (w * s) (cnt - w * s) (src inp out) io iv) as CS. rewrite <- HC in CS. rewrite CS by lia. reflexivity.
Qed.

Lemma CBC_DecryptParallel_ok D s p m ord l io out oo iv : block_fun D -> iv16 iv ->
  (0 < deg p)%nat -> (0 < m)%nat -> pblk p = (deg p * (16 * m))%nat -> schedule (deg p) ord ->
  (oo + pblk p <= length out)%nat -> (io + pblk p <= length l)%nat ->
  CBC_DecryptParallel D s p ord (Some l) io out oo iv =
  Ok (splice out oo (fst (cdd D (deg p * m) (slice l io (pblk p)) iv)), snd (cdd D (deg p * m) (slice l io (pblk p)) iv)).
Proof.
  intros HD Hiv Hd Hm Hp HO Ho Hi. unfold CBC_DecryptParallel, safe.
  destruct (Nat.eqb_spec (deg p) 0); [lia|]. cbn [negb bind]. rewrite (good_deg p m Hp Hd).
  replace (16 * m / 16)%nat with m by (rewrite Nat.mul_comm, Nat.div_mul; lia).
  cbn [src]. set (seg := (16 * m)%nat) in *.
  set (ivi := fun i => if (i =? 0)%nat then iv else slice l (io + i * seg - 16) 16).
  set (d := fun i => fst (cdd D m (slice l (io + i * seg) seg) (ivi i))).
  set (v := snd (cdd D m (slice l (io + (deg p - 1) * seg) seg) (ivi (deg p - 1)%nat))).
  assert (Livi : forall i, (i < deg p)%nat -> length (ivi i) = 16%nat).
  { intros i Hi'. unfold ivi. destruct (Nat.eqb_spec i 0); [exact Hiv|]. apply length_slice. nia. }
  assert (Lsl : forall i, (i < deg p)%nat -> length (slice l (io + i * seg) seg) = (m * 16)%nat).
  { intros i Hi'. rewrite length_slice; [lia|nia]. }
  assert (Ivi : forall k, (k < deg p)%nat -> snd (cdd D (k * m) (slice l io (k * m * 16)) iv) = ivi k).
  { intros k Hk. unfold ivi. destruct (Nat.eqb_spec k 0) as [->|]; [reflexivity|].
    assert (io + k * seg <= length l)%nat by nia.
    rewrite cdd_state; [|nia|rewrite length_slice; unfold seg in *; lia].
    assert (16 <= k * m * 16)%nat by nia.
    rewrite slice_slice by lia. f_equal. unfold seg. nia. }
  assert (K : forall k, (k <= deg p)%nat -> concat (map d (seq 0 k)) = fst (cdd D (k * m) (slice l io (k * m * 16)) iv)).
  { induction k as [|k IH]; intros Hk; [reflexivity|].
    rewrite seq_S, map_app, concat_app, IH by lia. cbn [map concat Nat.add]. rewrite app_nil_r.
    replace (S k * m)%nat with (k * m + m)%nat by lia. rewrite cdd_slice by (unfold seg in *; nia). cbn [fst]. f_equal.
    rewrite Ivi by lia. unfold d. do 3 f_equal; unfold seg; lia. }
  assert (KS : snd (cdd D (deg p * m) (slice l io (pblk p)) iv) = v).
  { replace (deg p * m)%nat with ((deg p - 1) * m + m)%nat by nia.
    replace (pblk p) with (((deg p - 1) * m + m) * 16)%nat by (unfold seg in *; nia).
    rewrite cdd_slice by (unfold seg in *; nia). cbn [snd]. rewrite Ivi by lia. unfold v. do 3 f_equal; unfold seg; lia. }
  rewrite (workers_ok seg (deg p) oo out d (fun i t => if (i =? deg p - 1)%nat then v else t) (fun t => length t = 16%nat)); auto.
  - cbn [bind]. rewrite fold_last.
    2:{ apply (Permutation_in _ (Permutation_sym HO)). apply in_seq. lia. }
    assert (Lv : length v = 16%nat).
    { unfold v. apply cdd_wf; auto; [apply Lsl; lia|apply Livi; lia]. }
    rewrite wcopy16 by auto. cbn [bind]. rewrite KS, K by lia. rewrite Hp. unfold seg. replace (deg p * m * 16)%nat with (deg p * (16 * m))%nat by lia. reflexivity.
  - intros i Hi'. unfold d. destruct (cdd_wf D m HD (slice l (io + i * seg) seg) (ivi i)) as [C1 C2]; auto.
    + now apply Livi.
    + rewrite C1. unfold seg. lia.
  - lia.
  - intros i t Hi' Ht. destruct (Nat.eqb_spec i (deg p - 1)); [|exact Ht]. unfold v. apply cdd_wf; auto; [apply Lsl; lia|apply Livi; lia].
  - intros i out' t Hi' L Ht _.
    assert (Hb : (io + i * seg + seg <= length l)%nat) by nia.
    assert (TI : (if (i =? 0)%nat then wcopy iv 0 (zeros 16) 0 16 else wcopy l (io + i * seg - 16) (zeros 16) 0 16) = Ok (ivi i)).
    { unfold ivi. destruct (Nat.eqb_spec i 0).
      - apply wcopy16; [exact Hiv|reflexivity].
      - assert (16 <= i * seg)%nat by (unfold seg; nia).
        rewrite wcopy_ok by (cbn [length zeros repeat]; lia). f_equal. apply splice_all. rewrite length_slice; [reflexivity|lia]. }
    rewrite TI. cbn [bind].
    assert (Hb' : (oo + i * seg + seg <= length out)%nat) by nia.
    assert (S16 : seg = (m * 16)%nat) by (unfold seg; lia).
    rewrite CBC_DecryptSegment_ok; auto; cbn [src]; try (rewrite <- S16; lia).
    + cbn [bind src]. replace (m * 16)%nat with seg by (unfold seg; lia). fold (d i).
      destruct (Nat.eqb_spec i (deg p - 1)) as [->|].
      * fold v. rewrite wcopy16; [reflexivity| |exact Ht]. unfold v. apply cdd_wf; auto. now apply Livi.
      * reflexivity.
    + intros E; discriminate.
    + now apply Livi.

Qed.

Lemma CBC_decrypt_ok D s p ord inp io out oo n iv : block_fun D -> alias_ok inp io oo -> iv16 iv ->
  (par p = true -> (pblk p <= n * 16)%nat -> inp <> None /\ good_profile (deg p) (pblk p) /\ forall i, schedule (deg p) (ord i)) ->
  (oo + n * 16 <= length out)%nat -> (io + n * 16 <= length (src inp out))%nat ->
  CBC_decrypt D s p ord inp io out oo (n * 16) iv =
  Ok (splice out oo (fst (cdd D n (slice (src inp out) io (n * 16)) iv)), snd (cdd D n (slice (src inp out) io (n * 16)) iv)).
Proof.
  intros HD HA Hiv HP Ho Hi. unfold CBC_decrypt. rewrite Nat.div_mul by lia.
  destruct (par p && (pblk p <=? n * 16)%nat) eqn:C.
  - apply andb_true_iff in C. destruct C as [C1 C2]. apply Nat.leb_le in C2.
    destruct (HP C1 C2) as (HN & (m & Hm & Hd & Hp) & HO). destruct inp as [l|]; [|contradiction]. cbn [src] in *.
    set (pb := (deg p * m)%nat). assert (P16 : pblk p = (pb * 16)%nat) by (unfold pb; lia).
    assert (Hpb : (0 < pb)%nat) by (unfold pb; nia).
    unfold safe. destruct (Nat.eqb_spec (pblk p) 0); [lia|]. cbn [negb bind].
    set (cnt := (n * 16 / pblk p)%nat).
    assert (Hc : (cnt * pblk p <= n * 16)%nat) by (rewrite Nat.mul_comm; unfold cnt; apply Nat.mul_div_le; lia).
    assert (PD : (pblk p / 16 * cnt = cnt * pb)%nat) by (rewrite P16, Nat.div_mul by lia; lia).
    clearbody cnt.
    erewrite for_up_ext.
    2:{ intros k [o v]. rewrite (Nat.add_comm (k * pblk p) io), (Nat.add_comm (k * pblk p) oo).
        instantiate (1 := fun k st => let '(out, iv) := st in CBC_DecryptParallel D s p (ord k) (Some l) (io + k * pblk p) out (oo + k * pblk p) iv). reflexivity. }
    rewrite (seq_mode0 (pblk p) (Some l) io out oo (cdd D pb) iv16); auto; cbn [src]; try lia.
    2:{ intros b st Hb Hst. rewrite P16 in *. now apply cdd_wf. }
    2:{ intros k out' st Hk L Hst. cbn [src].
        assert (k * pblk p + pblk p <= cnt * pblk p)%nat by nia.
        rewrite (CBC_DecryptParallel_ok D s p m); auto; lia. }
    cbv zeta. cbn [bind src].
    assert (G : forall k l iv, length l = (k * pblk p)%nat -> 
      (concat (fst (gfold (cdd D pb) (blocks (pblk p) k l) iv)), snd (gfold (cdd D pb) (blocks (pblk p) k l) iv)) = cdd D (k * pb) l iv).
    { clear - Hpb P16. induction k as [|k IH]; intros l iv Hl; [reflexivity|]. cbn [blocks gfold].
      specialize (IH (skipn (pblk p) l) (snd (cdd D pb (firstn (pblk p) l) iv))). rewrite skipn_length in IH.
      replace (S k * pb)%nat with (pb + k * pb)%nat by lia. rewrite cdd_app by lia. rewrite <- P16.
      rewrite <- IH by lia.
      destruct (cdd D pb (firstn (pblk p) l) iv) as [c1 s1]. cbn [fst snd] in *.
      destruct (gfold (cdd D pb) (blocks (pblk p) k (skipn (pblk p) l)) s1) as [cs s2]. reflexivity. }
    specialize (G cnt (slice l io (cnt * pblk p)) iv). rewrite length_slice in G by lia. specialize (G eq_refl).
    pose proof (f_equal fst G) as G1. pose proof (f_equal snd G) as G2. cbn [fst snd] in G1, G2. rewrite G1, G2. clear G G1 G2.
    rewrite PD. assert (HK : (cnt * pblk p = cnt * pb * 16)%nat) by (rewrite P16; lia). rewrite HK in *.
    set (K := (cnt * pb)%nat) in *. clearbody K.
    assert (LK : length (slice l io (K * 16)) = (K * 16)%nat) by (apply length_slice; lia).
    destruct (cdd_wf D K HD _ iv LK Hiv) as [W1 W2].
    assert (SH : forall X, for_up 0 (n - K) (fun i st => let '(out, iv) := st in
        CBC_Decrypt128 D (Some l) ((i + K) * 16 + io) out ((i + K) * 16 + oo) iv) X =
      for_up K (n - K) (fun k st => let '(out, iv) := st in CBC_Decrypt128 D (Some l) (io + k * 16) out (oo + k * 16) iv) X).
    { intros X. apply (for_up_shift K (n - K) _ _ 0). intros i [o v]. f_equal; lia. }
    rewrite SH. rewrite CBC_seq_loop; auto; cbn [src]; try lia.
    assert (HC : n = (K + (n - K))%nat) by lia.
    pose proof (cdd_slice D K (n - K) l io iv) as CS. rewrite <- HC in CS. rewrite CS by lia. reflexivity.
  - erewrite for_up_ext.
    2:{ intros k [o v]. rewrite (Nat.add_comm (k * 16) io), (Nat.add_comm (k * 16) oo).
        instantiate (1 := fun k st => let '(out, iv) := st in CBC_Decrypt128 D inp (io + k * 16) out (oo + k * 16) iv). reflexivity. }
    pose proof (CBC_seq_loop D inp io out oo 0 n [] iv HD HA Hiv) as M. rewrite splice_nil in M. cbn [app length] in M.
    rewrite Nat.mul_0_l, Nat.add_0_r in M. apply M; auto.
Qed.

(** ** CBC encryption *)
Definition ced (E : list Z -> list Z) (n : nat) (l iv : list Z) : list Z * list Z :=
  let r := gfold (gce E) (blocks 16 n l) iv in (concat (fst r), snd r).
Lemma CBC_encrypt_ok E inp io out oo n iv : block_fun E -> alias_ok inp io oo -> iv16 iv ->
  (oo + n * 16 <= length out)%nat -> (io + n * 16 <= length (src inp out))%nat ->
  CBC_encrypt E inp io out oo (n * 16) iv =
  Ok (splice out oo (fst (ced E n (slice (src inp out) io (n * 16)) iv)), snd (ced E n (slice (src inp out) io (n * 16)) iv)).
Proof.
  intros HE HA Hiv Ho Hi. unfold CBC_encrypt. rewrite Nat.div_mul by lia.
  rewrite (seq_mode0 16 inp io out oo (gce E) iv16 (gce_wf E HE) HA); auto.
  intros k out' st Hk L Hst.
  assert (L1 : length (src inp out') = length (src inp out)) by now apply src_len.
  rewrite (Nat.add_comm (k * 16) io), (Nat.add_comm (k * 16) oo). apply CBC_Encrypt128_ok; auto; lia.
Qed.

(** ** OFB *)
Definition gof (E : list Z -> list Z) (b iv : list Z) : list Z * list Z := (xorl b (E iv), E iv).
Lemma gof_wf E : block_fun E -> forall b st, length b = 16%nat -> iv16 st -> length (fst (gof E b st)) = 16%nat /\ iv16 (snd (gof E b st)).
Proof. intros HE b st Hb Hs. cbn. split; [rewrite length_xorl, HE by auto; lia|]. now apply HE. Qed.
Lemma gof_spec E bs : forall iv, fst (gfold (gof E) bs iv) = ofb_crypt E iv bs.
Proof. induction bs as [|b t IH]; intros iv; [reflexivity|]. cbn. rewrite <- IH. now destruct (gfold (gof E) t _). Qed.

Lemma OFB_Encrypt128_ok E inp io out oo iv : block_fun E -> alias_ok inp io oo -> (io + 16 <= length (src inp out))%nat -> (oo + 16 <= length out)%nat -> iv16 iv ->
  OFB_Encrypt128 E inp io out oo iv =
  Ok (splice out oo (fst (gof E (slice (src inp out) io 16) iv)), snd (gof E (slice (src inp out) io 16) iv)).
Proof.
  intros HE HA H1 H2 Hiv. unfold OFB_Encrypt128. unfold iv16 in Hiv.
  rewrite blk_ok by (rewrite ?slice_all; auto; lia). cbn [bind]. rewrite slice_all by lia.
  assert (Hk : length (E iv) = 16%nat) by auto. rewrite splice_all by (cbn; lia).
  set (k := E iv) in *.
  assert (L : for_up 0 16 (fun i out0 => b <- get k i ;; x <- get (src inp out0) (io + i) ;; put out0 (oo + i) (Z.lxor b x)) out =
    Ok (splice out oo (xorl (slice (src inp out) io 16) k))).
  { pose proof (byte_loop out oo (fun i => Z.lxor (nth i k 0) (nth (io + i) (src inp out) 0))
      (fun i out0 => b <- get k i ;; x <- get (src inp out0) (io + i) ;; put out0 (oo + i) (Z.lxor b x)) 16 0 []) as B.
    rewrite splice_nil in B. rewrite B; [|reflexivity|lia|].
    - do 2 f_equal. rewrite xorl_map_seq by (rewrite length_slice; lia). rewrite length_slice by lia. cbn [app].
      apply map_ext_in. intros i Hi. apply in_seq in Hi. rewrite nth_slice by lia. apply Z.lxor_comm.
    - intros i d Hi Hd. rewrite (get_ok k i 0) by lia. cbn [bind].
      assert (L1 : length (src inp (splice out oo d)) = length (src inp out)) by (apply src_len, length_splice; lia).
      rewrite (get_ok _ (io + i) 0) by lia. cbn [bind]. rewrite src_nth_ahead by (auto; lia). reflexivity. }
  rewrite L. cbn [bind]. rewrite wcopy16 by auto. reflexivity.
Qed.

Definition ofd (E : list Z -> list Z) (n : nat) (l iv : list Z) : list Z * list Z :=
  let r := gfold (gof E) (blocks 16 n l) iv in (concat (fst r), snd r).
Lemma OFB_Transform_ok E inp io out oo n iv : block_fun E -> alias_ok inp io oo -> iv16 iv ->
  (oo + n * 16 <= length out)%nat -> (io + n * 16 <= length (src inp out))%nat ->
  OFB_Transform E inp io out oo (n * 16) iv =
  Ok (splice out oo (fst (ofd E n (slice (src inp out) io (n * 16)) iv)), snd (ofd E n (slice (src inp out) io (n * 16)) iv)).
Proof.
  intros HE HA Hiv Ho Hi. unfold OFB_Transform, guard. rewrite Nat.mod_mul by lia. cbn [Nat.eqb bind]. rewrite Nat.div_mul by lia.
  rewrite (seq_mode0 16 inp io out oo (gof E) iv16 (gof_wf E HE) HA); auto.
  intros k out' st Hk L Hst.
  assert (L1 : length (src inp out') = length (src inp out)) by now apply src_len.
  rewrite (Nat.add_comm (k * 16) io), (Nat.add_comm (k * 16) oo). apply OFB_Encrypt128_ok; auto; try lia.
  intros HN. rewrite (HA HN). reflexivity.
Qed.
