(** The buffered generators. *)
From Verif Require Import BaseLemmas Proofs_Common Model_Modes Proofs_Windows Spec_Random Model_SecureRandom Session_Random Proofs_SecureRandom Proofs_SecureRandom2 Model_Prng Session_Prng.
Open Scope Z_scope.

Lemma buf_size : BUFFER_SIZE = 1024%nat. Proof. reflexivity. Qed.
#[local] Opaque BUFFER_SIZE.
Lemma new_inv g : inv g (Prng_new g) (0, 1024)%nat.
Proof.
  pose proof buf_size. unfold inv, Prng_new. cbn [r_pos r_buf r_blk fst snd]. rewrite block_source, source_len. split; [reflexivity|]. split; [lia|]. split; [lia|]. split; [lia|].
  rewrite skipn_O, Nat.mul_0_r. now rewrite H.
Qed.
Lemma reset_inv g s p a : inv g s (p, a) -> inv g (Rnd (engine_block g (r_blk s)) (r_pos s) (r_blk s + 1)) (p + 1024, a)%nat.
Proof.
  pose proof buf_size as HB. intros (Lb & Lp & Ha & Hp & Hs). cbn [fst snd] in *. unfold inv. cbn [r_pos r_buf r_blk fst snd]. rewrite block_source, source_len. split; [reflexivity|]. split; [exact Lp|]. split; [exact Ha|]. split; [lia|].
  replace (source g (BUFFER_SIZE * r_blk s) BUFFER_SIZE) with (source g (BUFFER_SIZE * r_blk s) (r_pos s + a)) by (f_equal; lia). rewrite source_app, skipn_app, source_len, Nat.sub_diag, skipn_all2 by (rewrite source_len; lia).
  rewrite app_nil_l, skipn_O. f_equal. lia.
Qed.
Lemma whole out g a : wcopy (source g a (length out)) 0 out 0 (length out) = Ok (source g a (length out)).
Proof. rewrite wcopy_ok by (rewrite ?source_len; lia). rewrite slice_all by (rewrite source_len; lia). rewrite splice_all by (rewrite source_len; lia). reflexivity. Qed.
Lemma zsplice n (l : list Z) : length l = n -> splice (zeros n) 0 l = l.
Proof. intros H. apply splice_all. rewrite length_zeros. lia. Qed.
Lemma genv_ok g s pa out : inv g s pa -> exists s', Prng_GenV g s out = Ok (source g (fst (serve (length out) pa)) (length out), s') /\ inv g s' (snd (serve (length out) pa)).
Proof.
  intros H. destruct (Generate_ok g false s pa (zeros (length out)) 0 (length out) H) as (s' & E & I); [rewrite length_zeros; lia|]. exists s'. split; [|exact I].
  unfold Prng_GenV. rewrite E. cbn [bind fst snd]. rewrite zsplice by apply source_len. now rewrite whole.
Qed.
Lemma room_eq (out : list Z) off n : (off <= length out)%nat -> Z.of_nat (length out) < 2 ^ 64 -> (Z.of_nat n <=? (Z.of_nat (length out) - Z.of_nat off) mod 2 ^ 64) = negb (length out <? off + n)%nat.
Proof.
  intros H1 H2. rewrite Z.mod_small by lia. destruct (length out <? off + n)%nat eqn:E; cbn [negb]; [apply Nat.ltb_lt in E; apply Z.leb_gt; lia|apply Nat.ltb_ge in E; apply Z.leb_le; lia].
Qed.
Section hist.
Context (own : bool) (g : nat -> Z).
Lemma pstep_ok s pa c : inv g s pa -> pcall_ok own c -> exists r s' pa', pstep own g s c = Ok (r, s') /\ inv g s' pa' /\ forall cs, pexpected g pa (c :: cs) = r :: pexpected g pa' cs.
Proof.
  intros HI HC. destruct c as [out|out off n|out|out off n|w|avail]; cbn [pstep pcall_ok] in *.
  - destruct (genv_ok g s pa out HI) as (s' & -> & I). eexists _, s', _. split; [reflexivity|]. split; [exact I|]. intros cs. cbn [pexpected]. now destruct (serve (length out) pa).
  - destruct HC as (H1 & H2 & H3). unfold Prng_GenVO. rewrite room_eq by assumption. destruct (length out <? off + n)%nat eqn:E; cbn [negb guard bind].
    + eexists _, s, pa. split; [reflexivity|]. split; [exact HI|]. intros cs. cbn [pexpected]. now rewrite E.
    + apply Nat.ltb_ge in E as E'. assert (EL : (if own then n else length out) = n) by (destruct own; [reflexivity|]; destruct H3 as [Q|[Q|Q]]; [discriminate Q|auto|lia]). rewrite EL.
      destruct (Generate_ok g false s pa (zeros n) 0 n HI) as (s' & -> & I); [rewrite length_zeros; lia|]. cbn [bind fst snd]. rewrite zsplice by apply source_len.
      rewrite wcopy_ok by (rewrite ?source_len; lia). rewrite slice_all by (rewrite source_len; lia). cbn [bind done]. eexists _, s', _. split; [reflexivity|]. split; [exact I|].
      intros cs. cbn [pexpected]. rewrite E. now destruct (serve n pa).
  - unfold Prng_GenS. destruct (Generate_ok g false s pa out 0 (length out) HI) as (s' & -> & I); [lia|]. cbn [done]. eexists _, s', _. split; [reflexivity|]. split; [exact I|].
    intros cs. cbn [pexpected]. rewrite splice_all by (rewrite source_len; lia). now destruct (serve (length out) pa).
  - destruct HC as (H1 & H2). unfold Prng_GenSO. rewrite room_eq by assumption. destruct (length out <? off + n)%nat eqn:E; cbn [negb guard bind].
    + eexists _, s, pa. split; [reflexivity|]. split; [exact HI|]. intros cs. cbn [pexpected]. now rewrite E.
    + apply Nat.ltb_ge in E as E'. destruct (Generate_ok g false s pa out off n HI) as (s' & -> & I); [lia|]. cbn [done]. eexists _, s', _. split; [reflexivity|]. split; [exact I|].
      intros cs. cbn [pexpected]. rewrite E. now destruct (serve n pa).
  - unfold Prng_Next. destruct (genv_ok g s pa (zeros w) HI) as (s' & -> & I). cbn [bind fst snd done]. rewrite length_zeros in *. eexists _, s', _. split; [reflexivity|]. split; [exact I|].
    intros cs. cbn [pexpected]. now destruct (serve w pa).
  - unfold Prng_Reset. destruct avail; cbn [guard bind].
    + destruct pa as [p a]. eexists _, _, (p + 1024, a)%nat. split; [reflexivity|]. split; [now apply reset_inv|]. reflexivity.
    + eexists _, s, pa. split; [reflexivity|]. split; [exact HI|]. reflexivity.
Qed.
Lemma phistory_ok : forall cs s pa, inv g s pa -> Forall (pcall_ok own) cs -> exists s' pa', phistory own g s cs = Ok (pexpected g pa cs, s') /\ inv g s' pa'.
Proof.
  induction cs as [|c cs IH]; intros s pa HI HC; [exists s, pa; split; [reflexivity|exact HI]|]. inversion HC as [|? ? H1 H2]; subst.
  destruct (pstep_ok s pa c HI H1) as (r & s1 & pa1 & E & I & X). destruct (IH s1 pa1 I H2) as (s2 & pa2 & E2 & I2). exists s2, pa2. cbn [phistory]. rewrite E. cbn [bind fst snd]. rewrite E2. cbn [bind fst snd]. rewrite X. auto.
Qed.
Lemma phistory_app : forall cs s ds, phistory own g s (cs ++ ds) = bind (phistory own g s cs) (fun q => bind (phistory own g (snd q) ds) (fun r => Ok (fst q ++ fst r, snd r))).
Proof.
  induction cs as [|c cs IH]; intros s ds.
  - cbn [app phistory bind fst snd]. destruct (phistory own g s ds) as [[a b]| |]; reflexivity.
  - cbn [app phistory]. destruct (pstep own g s c) as [[r s']| |]; [|reflexivity|reflexivity]. cbn [bind fst snd]. rewrite IH. destruct (phistory own g s' cs) as [[a b]| |]; [|reflexivity|reflexivity]. cbn [bind fst snd].
    destruct (phistory own g b ds) as [[a2 b2]| |]; reflexivity.
Qed.
(** requests and Resets *)
Lemma asks_ok : forall os s p a, inv g s (p, a) -> exists starts s', length starts = length (sizes os) /\ phistory own g s (map ask os) = Ok (answers g starts os, s') /\ in_order p (combine starts (sizes os)).
Proof.
  induction os as [|o os IH]; intros s p a I.
  - exists [], s. repeat split.
  - destruct o as [n|]; cbn [map ask phistory pstep sizes].
    + destruct (genv_ok g s (p, a) (zeros n) I) as (s1 & -> & I'). rewrite length_zeros in *. cbn [bind done fst snd]. pose proof (serve_from n p a) as (S1 & S2).
      destruct (serve n (p, a)) as [at_ [p' a']]. cbn [fst snd] in *. destruct (IH s1 p' a' I') as (st & s' & L & E & O). exists (at_ :: st), s'. rewrite E. cbn [bind fst snd].
      split; [cbn [length]; lia|]. split; [reflexivity|]. cbn [combine in_order]. split; [exact S1|]. eapply in_order_weak; [exact S2|exact O].
    + cbn [Prng_Reset guard bind fst snd]. destruct (IH _ _ _ (reset_inv g s p a I)) as (st & s' & L & E & O). exists st, s'. rewrite E. cbn [bind fst snd]. split; [exact L|]. split; [reflexivity|]. eapply in_order_weak; [|exact O]. lia.
Qed.
End hist.
(** * what was given out is erased *)
Lemma zeros_plus a b : zeros a ++ zeros b = zeros (a + b).
Proof. unfold zeros. now rewrite repeat_app. Qed.
Definition clean (s : rnd) : Prop := (r_pos s <= length (r_buf s))%nat /\ firstn (r_pos s) (r_buf s) = zeros (r_pos s).
Lemma move_clean buf io out oo len buf' out' : firstn io buf = zeros io -> (io <= length buf)%nat -> buf_move false buf io out oo len = Ok (buf', out') -> (io + len <= length buf')%nat /\ firstn (io + len) buf' = zeros (io + len) /\ length buf' = length buf.
Proof.
  intros H HL E. unfold buf_move in E. destruct (wcopy buf io out oo len) as [o| |] eqn:W; cbn [bind] in E; try discriminate E.
  assert (L : (io + len <= length buf)%nat). { unfold wcopy, rd, safe in W. destruct (io + len <=? length buf)%nat eqn:Q; [now apply Nat.leb_le in Q|discriminate W]. }
  rewrite wr_ok in E by (rewrite length_zeros; lia). cbn [bind] in E. assert (E1 : splice buf io (zeros len) = buf') by congruence. subst buf'. rewrite length_splice by (rewrite length_zeros; lia).
  split; [exact L|]. split; [|reflexivity]. unfold splice. rewrite H, length_zeros. rewrite app_assoc, zeros_plus. rewrite firstn_app, length_zeros, Nat.sub_diag, firstn_O, app_nil_r. apply firstn_all2. rewrite length_zeros. lia.
Qed.

Lemma gen_clean g s out off len out' s' : clean s -> Generate g false s out off len = Ok (out', s') -> clean s'.
Proof.
  intros [C1 C2] E. unfold Generate in E. destruct (len =? 0)%nat; [assert (s' = s) by congruence; subst s'; split; assumption|].
  destruct (length (r_buf s) - r_pos s <? len)%nat.
  - destruct (if (0 <? length (r_buf s) - r_pos s)%nat then buf_move false (r_buf s) (r_pos s) out off (length (r_buf s) - r_pos s) else Ok (r_buf s, out)) as [r| |]; cbn [bind] in E; try discriminate E.
    destruct (gen_loop len g false (fst r) (r_blk s) (snd r) off len) as [[[[[buf k] o] of] le]| |]; cbn [bind] in E; try discriminate E.
    destruct (buf_move false (engine_block g k) 0 o of le) as [[b2 o2]| |] eqn:M; cbn [bind fst snd] in E; try discriminate E.
    apply move_clean in M; [|reflexivity|lia]. destruct M as (M1 & M2 & _). cbn [Nat.add] in M1, M2. assert (ES : s' = Rnd b2 le (k + 1)) by congruence. subst s'. split; cbn [r_pos r_buf]; assumption.
  - destruct (buf_move false (r_buf s) (r_pos s) out off len) as [[b2 o2]| |] eqn:M; cbn [bind fst snd] in E; try discriminate E.
    apply move_clean in M; [|exact C2|exact C1]. destruct M as (M1 & M2 & _). assert (ES : s' = Rnd b2 (r_pos s + len) (r_blk s)) by congruence. subst s'. split; cbn [r_pos r_buf]; assumption.
Qed.
Lemma genv_clean g s out out' s' : clean s -> Prng_GenV g s out = Ok (out', s') -> clean s'.
Proof.
  intros C E. unfold Prng_GenV in E. destruct (Generate g false s (zeros (length out)) 0 (length out)) as [[o s1]| |] eqn:G; cbn [bind fst snd] in E; try discriminate E.
  destruct (wcopy o 0 out 0 (length out)); cbn [bind] in E; try discriminate E. assert (s' = s1) by congruence. subst s1. exact (gen_clean _ _ _ _ _ _ _ C G).
Qed.
Lemma pstep_clean own g s c r s' : clean s -> c <> PReset true -> pstep own g s c = Ok (r, s') -> clean s'.
Proof.
  intros C HC E. destruct c as [out|out off n|out|out off n|w|avail]; cbn [pstep] in E.
  - destruct (Prng_GenV g s out) as [[o s1]| |] eqn:G; cbn [done] in E; [|congruence|discriminate E]. assert (s' = s1) by congruence. subst s1. exact (genv_clean _ _ _ _ _ C G).
  - unfold Prng_GenVO in E. destruct (Z.of_nat n <=? _); cbn [guard bind done] in E; [|congruence].
    destruct (Generate g false s (zeros n) 0 (if own then n else length out)) as [[o s1]| |] eqn:G; cbn [bind fst snd done] in E; [|congruence|discriminate E].
    unfold wcopy in E. destruct (rd o 0 n) as [d|e|] eqn:R; cbn [bind] in E; [|unfold rd in R; destruct (0 + n <=? length o)%nat; discriminate R|discriminate E].
    destruct (wr out off d) as [d2|e|] eqn:R2; cbn [bind done] in E; [|unfold wr in R2; destruct (off + length d <=? length out)%nat; discriminate R2|discriminate E].
    assert (s' = s1) by congruence. subst s1. exact (gen_clean _ _ _ _ _ _ _ C G).
  - unfold Prng_GenS in E. destruct (Generate g false s out 0 (length out)) as [[o s1]| |] eqn:G; cbn [done] in E; [|congruence|discriminate E]. assert (s' = s1) by congruence. subst s1. exact (gen_clean _ _ _ _ _ _ _ C G).
  - unfold Prng_GenSO in E. destruct (Z.of_nat n <=? _); cbn [guard bind done] in E; [|congruence].
    destruct (Generate g false s out off n) as [[o s1]| |] eqn:G; cbn [done] in E; [|congruence|discriminate E]. assert (s' = s1) by congruence. subst s1. exact (gen_clean _ _ _ _ _ _ _ C G).
  - unfold Prng_Next in E. destruct (Prng_GenV g s (zeros w)) as [[o s1]| |] eqn:G; cbn [bind fst snd done] in E; [|congruence|discriminate E]. assert (s' = s1) by congruence. subst s1. exact (genv_clean _ _ _ _ _ C G).
  - destruct avail; [congruence|]. cbn [Prng_Reset guard bind] in E. congruence.
Qed.
Lemma phistory_clean own g : forall cs s rs s', clean s -> Forall (fun c => c <> PReset true) cs -> phistory own g s cs = Ok (rs, s') -> clean s'.
Proof.
  induction cs as [|c cs IH]; intros s rs s' C HC E; cbn [phistory] in E; [congruence|]. inversion HC as [|? ? H1 H2]; subst.
  destruct (pstep own g s c) as [[r s1]| |] eqn:P; cbn [bind fst snd] in E; try discriminate E. destruct (phistory own g s1 cs) as [[q s2]| |] eqn:Q; cbn [bind fst snd] in E; try discriminate E.
  assert (s' = s2) by congruence. subst s2. exact (IH _ _ _ (pstep_clean _ _ _ _ _ _ C H1 P) H2 Q).
Qed.
(** * a temporary that is too small *)
Lemma wcopy_short a io out oo len : (length out < oo + len)%nat -> wcopy a io out oo len = UB.
Proof.
  intros H. unfold wcopy, rd. destruct (io + len <=? length a)%nat eqn:E; [|reflexivity]. apply Nat.leb_le in E. cbn [bind]. unfold wr. rewrite length_slice by lia.
  replace (oo + len <=? length out)%nat with false by (symmetry; apply Nat.leb_gt; lia). reflexivity.
Qed.
Lemma move_len buf io out oo len b o : buf_move false buf io out oo len = Ok (b, o) -> length o = length out.
Proof.
  unfold buf_move, wcopy, rd. destruct (io + len <=? length buf)%nat eqn:E; cbn [bind]; [|discriminate]. apply Nat.leb_le in E. unfold wr at 1. rewrite length_slice by lia. destruct (oo + len <=? length out)%nat eqn:E2; cbn [bind]; [|discriminate].
  apply Nat.leb_le in E2. destruct (wr buf io (zeros len)); cbn [bind]; try discriminate. intros Q. assert (EQ : o = splice out oo (slice buf io len)) by congruence. subst o. apply length_splice. rewrite length_slice; lia.
Qed.
Lemma move_nothrow buf io out oo len e : buf_move false buf io out oo len <> Throw e.
Proof. unfold buf_move, wcopy, rd, wr. destruct (io + len <=? length buf)%nat; cbn [bind]; [|discriminate]. destruct (oo + _ <=? _)%nat; cbn [bind]; [|discriminate]. destruct (io + _ <=? _)%nat; discriminate. Qed.
Lemma loop_short g : forall fuel buf k out off len, (length out < off + len)%nat ->
  gen_loop fuel g false buf k out off len = UB \/ exists b' k' o' off' len', gen_loop fuel g false buf k out off len = Ok (b', k', o', off', len') /\ (length o' < off' + len')%nat.
Proof.
  induction fuel as [|fuel IH]; intros buf k out off len H; cbn [gen_loop]; (destruct (length buf <=? len)%nat eqn:E; [|right; do 5 eexists; split; [reflexivity|exact H]]); [left; reflexivity|]. apply Nat.leb_le in E.
  destruct (buf_move false (engine_block g k) 0 out off (length buf)) as [[b o]|e|] eqn:M; cbn [bind fst snd]; [|exfalso; exact (move_nothrow _ _ _ _ _ _ M)|left; reflexivity].
  apply IH. apply move_len in M. lia.
Qed.
Lemma gen_short g s out off len : (length out < off + len)%nat -> (0 < len)%nat -> Generate g false s out off len = UB.
Proof.
  intros H H0. unfold Generate. replace (len =? 0)%nat with false by (symmetry; apply Nat.eqb_neq; lia).
  assert (MS : forall b io o oo l, (length o < oo + l)%nat -> buf_move false b io o oo l = UB) by (intros; unfold buf_move; now rewrite wcopy_short).
  destruct (length (r_buf s) - r_pos s <? len)%nat; [|now rewrite MS].
  assert (X : exists b o, (if (0 <? length (r_buf s) - r_pos s)%nat then buf_move false (r_buf s) (r_pos s) out off (length (r_buf s) - r_pos s) else Ok (r_buf s, out)) = Ok (b, o) /\ length o = length out \/
     (if (0 <? length (r_buf s) - r_pos s)%nat then buf_move false (r_buf s) (r_pos s) out off (length (r_buf s) - r_pos s) else Ok (r_buf s, out)) = UB).
  { destruct (0 <? length (r_buf s) - r_pos s)%nat; [|exists (r_buf s), out; left; split; reflexivity].
    destruct (buf_move false (r_buf s) (r_pos s) out off (length (r_buf s) - r_pos s)) as [[b o]|e|] eqn:M; [exists b, o; left; split; [reflexivity|now apply move_len in M]|exfalso; exact (move_nothrow _ _ _ _ _ _ M)|exists [], []; right; reflexivity]. }
  destruct X as (b & o & [(-> & L)| -> ]); cbn [bind fst snd]; [|reflexivity].
  destruct (loop_short g len b (r_blk s) o off len) as [-> |(b' & k' & o' & off' & len' & -> & HL)]; [lia|reflexivity|]. cbn [bind]. now rewrite MS.
Qed.
