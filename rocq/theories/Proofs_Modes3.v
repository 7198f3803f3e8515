(** CFB *)
From Coq Require Import Permutation.
From Verif Require Import BaseLemmas Spec_Common Spec_Modes Proofs_Common Proofs_IntegerTools Model_Modes Proofs_Windows Proofs_Modes Proofs_Modes2.
Open Scope Z_scope.

(** ** generic block chain *)
Definition dd (r : nat) (G : list Z -> list Z -> list Z * list Z) (n : nat) (l iv : list Z) : list Z * list Z :=
  let q := gfold G (blocks r n l) iv in (concat (fst q), snd q).
Section Chain.
  Context (r : nat) (G : list Z -> list Z -> list Z * list Z).
  Hypothesis HG : forall b st, length b = r -> iv16 st -> length (fst (G b st)) = r /\ iv16 (snd (G b st)).
  Lemma dd_wf n l iv : length l = (n * r)%nat -> iv16 iv -> length (fst (dd r G n l iv)) = (n * r)%nat /\ iv16 (snd (dd r G n l iv)).
  Proof.
    intros Hl Hiv. unfold dd. cbv zeta. cbn [fst snd].
    destruct (gfold_len G iv16 r (blocks r n l) iv HG) as (G1 & G2 & G3); auto.
    { intros b Hb. eapply blocks_len; [|exact Hb]. lia. }
    split; auto. rewrite (concat_length_eq r) by auto. rewrite G1, blocks_length. reflexivity.
  Qed.
  Lemma dd_app a b l iv : (a * r <= length l)%nat ->
    dd r G (a + b) l iv = (fst (dd r G a (firstn (a * r) l) iv) ++ fst (dd r G b (skipn (a * r) l) (snd (dd r G a (firstn (a * r) l) iv))),
       snd (dd r G b (skipn (a * r) l) (snd (dd r G a (firstn (a * r) l) iv)))).
  Proof.
    intros H. unfold dd. cbv zeta. rewrite blocks_app, gfold_app. cbn [fst snd].
    rewrite concat_app. rewrite blocks_slice by lia. reflexivity.
  Qed.
  Lemma dd_slice a b l io iv : (io + (a + b) * r <= length l)%nat ->
    dd r G (a + b) (slice l io ((a + b) * r)) iv =
      (fst (dd r G a (slice l io (a * r)) iv) ++ fst (dd r G b (slice l (io + a * r) (b * r)) (snd (dd r G a (slice l io (a * r)) iv))),
       snd (dd r G b (slice l (io + a * r) (b * r)) (snd (dd r G a (slice l io (a * r)) iv)))).
  Proof.
    intros H. rewrite dd_app by (rewrite length_slice; lia). rewrite slice_firstn by lia. rewrite slice_skipn.
    replace ((a + b) * r - a * r)%nat with (b * r)%nat by lia. reflexivity.
  Qed.
  Lemma dd_blocks pb k : (0 < pb)%nat -> forall l iv, length l = (k * (pb * r))%nat ->
    (concat (fst (gfold (dd r G pb) (blocks (pb * r) k l) iv)), snd (gfold (dd r G pb) (blocks (pb * r) k l) iv)) = dd r G (k * pb) l iv.
  Proof.
    intros Hpb. induction k as [|k IH]; intros l iv Hl; [reflexivity|]. cbn [blocks gfold].
    specialize (IH (skipn (pb * r) l) (snd (dd r G pb (firstn (pb * r) l) iv))). rewrite skipn_length in IH.
    replace (S k * pb)%nat with (pb + k * pb)%nat by lia. rewrite dd_app by lia.
    rewrite <- IH by lia.
    destruct (dd r G pb (firstn (pb * r) l) iv) as [c1 s1]. cbn [fst snd] in *.
    destruct (gfold (dd r G pb) (blocks (pb * r) k (skipn (pb * r) l)) s1) as [cs s2]. reflexivity.
  Qed.
End Chain.

(** the state of a chain whose register is the previous block *)
Lemma dd_state G n l iv : (forall b st, length b = 16%nat -> iv16 st -> snd (G b st) = b) -> iv16 iv ->
  (0 < n)%nat -> length l = (n * 16)%nat -> snd (dd 16 G n l iv) = slice l (n * 16 - 16) 16.
Proof.
  intros HS. unfold dd. cbv zeta. cbn [snd].
  revert l iv. induction n as [|n IH]; intros l iv Hiv Hn Hl; [lia|]. cbn [blocks gfold].
  assert (Lf : length (firstn 16 l) = 16%nat) by (rewrite firstn_length; lia).
  specialize (HS (firstn 16 l) iv Lf Hiv). destruct (G (firstn 16 l) iv) as [c st]. cbn [snd] in HS. subst st.
  destruct n as [|n].
  - cbn [blocks gfold snd]. unfold slice. cbn [Nat.mul Nat.sub Nat.add skipn]. reflexivity.
  - specialize (IH (skipn 16 l) (firstn 16 l) Lf ltac:(lia)). rewrite skipn_length in IH. specialize (IH ltac:(lia)).
    destruct (gfold G (blocks 16 (S n) (skipn 16 l)) (firstn 16 l)) as [cs st]. cbn [snd] in *. rewrite IH.
    unfold slice. rewrite skipn_skipn. do 2 f_equal. lia.
Qed.

Section Par.
  Context (G : list Z -> list Z -> list Z * list Z) (l : list Z) (io : nat) (out : list Z) (oo dg m : nat) (iv : list Z).
  Hypothesis HG : forall b st, length b = 16%nat -> iv16 st -> length (fst (G b st)) = 16%nat /\ iv16 (snd (G b st)).
  Hypothesis HS : forall b st, length b = 16%nat -> iv16 st -> snd (G b st) = b.
  Hypothesis (Hd : (0 < dg)%nat) (Hm : (0 < m)%nat) (Hiv : iv16 iv).
  Let seg := (16 * m)%nat.
  Hypothesis Ho : (oo + dg * seg <= length out)%nat.
  Hypothesis Hi : (io + dg * seg <= length l)%nat.
  Definition ivi (i : nat) : list Z := if (i =? 0)%nat then iv else slice l (io + i * seg - 16) 16.
  Definition pdd (i : nat) := dd 16 G m (slice l (io + i * seg) seg) (ivi i).
  Lemma ivi_len i : (i < dg)%nat -> iv16 (ivi i).
  Proof. intros H. unfold ivi, iv16. destruct (Nat.eqb_spec i 0); [exact Hiv|]. apply length_slice. nia. Qed.
  Lemma pdd_len i : (i < dg)%nat -> length (fst (pdd i)) = seg /\ iv16 (snd (pdd i)).
  Proof.
    intros H. unfold pdd. destruct (dd_wf 16 G HG m (slice l (io + i * seg) seg) (ivi i)) as [A B].
    - rewrite length_slice; unfold seg in *; nia.
    - now apply ivi_len.
    - split; [rewrite A; unfold seg; lia|exact B].
  Qed.
  Lemma ivi_chain k : (k < dg)%nat -> snd (dd 16 G (k * m) (slice l io (k * m * 16)) iv) = ivi k.
  Proof.
    intros Hk. unfold ivi. destruct (Nat.eqb_spec k 0) as [->|]; [reflexivity|].
    assert (io + k * seg <= length l)%nat by nia.
    rewrite dd_state; auto; [|nia|rewrite length_slice; unfold seg in *; lia].
    assert (16 <= k * m * 16)%nat by nia.
    rewrite slice_slice by lia. f_equal. unfold seg. nia.
  Qed.
  Lemma pdd_chain k : (k <= dg)%nat -> concat (map (fun i => fst (pdd i)) (seq 0 k)) = fst (dd 16 G (k * m) (slice l io (k * m * 16)) iv).
  Proof.
    induction k as [|k IH]; intros Hk; [reflexivity|].
    rewrite seq_S, map_app, concat_app, IH by lia. cbn [map concat Nat.add]. rewrite app_nil_r.
    pose proof (Nat.mul_le_mono_r (S k) dg seg Hk) as Hk'.
    replace (S k * m)%nat with (k * m + m)%nat by lia. rewrite (dd_slice 16 G HG) by (unfold seg in *; lia). cbn [fst]. f_equal.
    rewrite ivi_chain by lia. unfold pdd. do 3 f_equal; unfold seg; lia.
  Qed.
  Lemma pdd_last : snd (dd 16 G (dg * m) (slice l io (dg * seg)) iv) = snd (pdd (dg - 1)).
  Proof.
    assert (Hq : (dg * m = (dg - 1) * m + m)%nat) by (destruct dg; [lia|cbn [Nat.sub]; rewrite Nat.sub_0_r; lia]). rewrite Hq.
    replace (dg * seg)%nat with (((dg - 1) * m + m) * 16)%nat by (unfold seg in *; lia).
    rewrite (dd_slice 16 G HG) by (rewrite <- Hq; unfold seg in *; lia). cbn [snd]. rewrite ivi_chain by lia. unfold pdd. do 3 f_equal; unfold seg; lia.
  Qed.
  Lemma par_chain ord f : schedule dg ord ->
    (forall i out' t, (i < dg)%nat -> length out' = length out -> length t = 16%nat ->
      f i (out', t) = Ok (splice out' (oo + i * seg) (fst (pdd i)), if (i =? dg - 1)%nat then snd (pdd (dg - 1)) else t)) ->
    for_list ord f (out, zeros 16) =
      Ok (splice out oo (fst (dd 16 G (dg * m) (slice l io (dg * seg)) iv)), snd (dd 16 G (dg * m) (slice l io (dg * seg)) iv)).
  Proof.
    intros HO Hf.
    rewrite (workers_ok seg dg oo out (fun i => fst (pdd i)) (fun i t => if (i =? dg - 1)%nat then snd (pdd (dg - 1)) else t) (fun t => length t = 16%nat)); auto.
    - rewrite fold_last.
      2:{ apply (Permutation_in _ (Permutation_sym HO)). apply in_seq. lia. }
      rewrite pdd_last, pdd_chain by lia. unfold seg. replace (dg * m * 16)%nat with (dg * (16 * m))%nat by lia. reflexivity.
    - intros i H. now apply pdd_len.
    - intros i t H Ht. destruct (Nat.eqb_spec i (dg - 1)); [|exact Ht]. apply pdd_len. lia.
  Qed.
End Par.

(** ** CFB steps *)
Definition gfe (E : list Z -> list Z) (r : nat) (b reg : list Z) : list Z * list Z :=
  let c := xorl b (firstn r (E reg)) in (c, skipn r reg ++ c).
Definition gfd (E : list Z -> list Z) (r : nat) (b reg : list Z) : list Z * list Z :=
  (xorl b (firstn r (E reg)), skipn r reg ++ b).
Lemma gfe_wf E r : block_fun E -> (r <= 16)%nat -> forall b st, length b = r -> iv16 st -> length (fst (gfe E r b st)) = r /\ iv16 (snd (gfe E r b st)).
Proof.
  intros HE Hr b st Hb Hs. cbn. assert (L : length (xorl b (firstn r (E st))) = r) by (rewrite length_xorl, firstn_length, HE by auto; lia).
  split; [exact L|]. unfold iv16 in *. rewrite app_length, skipn_length. lia.
Qed.
Lemma gfd_wf E r : block_fun E -> (r <= 16)%nat -> forall b st, length b = r -> iv16 st -> length (fst (gfd E r b st)) = r /\ iv16 (snd (gfd E r b st)).
Proof.
  intros HE Hr b st Hb Hs. cbn. split; [rewrite length_xorl, firstn_length, HE by auto; lia|]. unfold iv16 in *. rewrite app_length, skipn_length. lia.
Qed.
Lemma gfe_spec E r bs : forall iv, fst (gfold (gfe E r) bs iv) = cfb_encrypt E r iv bs.
Proof. induction bs as [|b t IH]; intros iv; [reflexivity|]. cbn [gfold gfe cfb_encrypt]. rewrite <- IH. now destruct (gfold (gfe E r) t _). Qed.
Lemma gfd_spec E r bs : forall iv, fst (gfold (gfd E r) bs iv) = cfb_decrypt E r iv bs.
Proof. induction bs as [|b t IH]; intros iv; [reflexivity|]. cbn [gfold gfd cfb_decrypt]. rewrite <- IH. now destruct (gfold (gfd E r) t _). Qed.

Lemma CFB_shift_ok r iv c co : iv16 iv -> (r <= 16)%nat -> (co + r <= length c)%nat -> CFB_shift r iv c co = Ok (skipn r iv ++ slice c co r).
Proof.
  intros Hiv Hr Hc. unfold iv16 in Hiv. unfold CFB_shift, safe. rewrite Hiv.
  assert (Ls : length (slice c co r) = r) by (apply length_slice; lia).
  destruct (Nat.ltb_spec r 16).
  - rewrite wcopy_ok by lia. cbn [bind]. destruct (Nat.leb_spec r (length (splice iv 0 (slice iv r (16 - r))))) as [Hl|Hl];
      rewrite length_splice in Hl by (rewrite length_slice; lia); [|lia]. cbn [bind].
    assert (L1 : length (slice iv r (16 - r)) = (16 - r)%nat) by (apply length_slice; lia).
    rewrite length_splice by lia. rewrite Hiv.
    rewrite wcopy_ok by (rewrite ?length_splice; lia). f_equal.
    pose proof (splice_splice_next iv 0 (slice iv r (16 - r)) (slice c co r)) as SS. rewrite L1 in SS. cbn [Nat.add] in SS. rewrite SS by lia.
    rewrite splice_all by (rewrite app_length; lia). f_equal. unfold slice. rewrite firstn_all2 by (rewrite skipn_length; lia). reflexivity.
  - assert (r = 16%nat) as -> by lia. cbn [bind]. destruct (Nat.leb_spec 16 (length iv)); [|lia]. cbn [bind]. rewrite Hiv.
    rewrite wcopy_ok by lia. f_equal. rewrite splice_all by lia. rewrite skipn_all2 by lia. reflexivity.
Qed.

Lemma CFB_Encrypt128_ok E r l io out oo iv : block_fun E -> (r <= 16)%nat -> (io + r <= length l)%nat -> (oo + r <= length out)%nat -> iv16 iv ->
  CFB_Encrypt128 E r (Some l) io out oo iv =
  Ok (splice out oo (fst (gfe E r (slice l io r) iv)), snd (gfe E r (slice l io r) iv)).
Proof.
  intros HE Hr H1 H2 Hiv. pose proof Hiv as Hiv'. unfold CFB_Encrypt128. unfold iv16 in Hiv'.
  rewrite blk_ok by (rewrite ?slice_all; auto; lia). cbn [bind]. rewrite slice_all by lia.
  assert (Hk : length (E iv) = 16%nat) by auto. rewrite splice_all by (cbn; lia).
  rewrite wcopy_ok by lia. cbn [bind src].
  assert (L1 : length (slice (E iv) 0 r) = r) by (apply length_slice; lia).
  rewrite wxor_ok by (rewrite ?length_splice; lia). cbn [bind]. rewrite slice_splice_here by lia.
  assert (L2 : length (slice l io r) = r) by (apply length_slice; lia).
  assert (L3 : length (xorl (slice (E iv) 0 r) (slice l io r)) = r) by (rewrite length_xorl; lia).
  rewrite splice_over by lia. rewrite CFB_shift_ok by (rewrite ?length_splice; auto; lia). cbn [bind].
  rewrite slice_splice_here by lia. unfold gfe. cbv zeta. cbn [fst snd]. rewrite (xorl_comm (slice l io r)).
  change (slice (E iv) 0 r) with (firstn r (E iv)). reflexivity.
Qed.
Lemma CFB_Decrypt128_ok E r l io out oo iv : block_fun E -> (r <= 16)%nat -> (io + r <= length l)%nat -> (oo + r <= length out)%nat -> iv16 iv ->
  CFB_Decrypt128 E r (Some l) io out oo iv =
  Ok (splice out oo (fst (gfd E r (slice l io r) iv)), snd (gfd E r (slice l io r) iv)).
Proof.
  intros HE Hr H1 H2 Hiv. pose proof Hiv as Hiv'. unfold CFB_Decrypt128. unfold iv16 in Hiv'.
  rewrite blk_ok by (rewrite ?slice_all; auto; lia). cbn [bind]. rewrite slice_all by lia.
  assert (Hk : length (E iv) = 16%nat) by auto. rewrite splice_all by (cbn; lia).
  rewrite wcopy_ok by lia. cbn [bind src].
  assert (L1 : length (slice (E iv) 0 r) = r) by (apply length_slice; lia).
  assert (L2 : length (slice l io r) = r) by (apply length_slice; lia).
  rewrite CFB_shift_ok by auto. cbn [bind].
  rewrite wxor_ok by (rewrite ?length_splice; lia). cbn [bind]. rewrite slice_splice_here by lia.
  rewrite splice_over by (rewrite ?length_xorl; lia).
  unfold gfd. cbn [fst snd]. rewrite (xorl_comm (slice l io r)). reflexivity.
Qed.

Lemma CFB_encrypt_ok E r l io out oo n iv : block_fun E -> (0 < r <= 16)%nat -> iv16 iv ->
  (oo + n * r <= length out)%nat -> (io + n * r <= length l)%nat ->
  CFB_encrypt E r (Some l) io out oo (n * r) iv =
  Ok (splice out oo (fst (dd r (gfe E r) n (slice l io (n * r)) iv)), snd (dd r (gfe E r) n (slice l io (n * r)) iv)).
Proof.
  intros HE Hr Hiv Ho Hi. unfold CFB_encrypt, safe. destruct (Nat.eqb_spec r 0); [lia|]. cbn [negb bind]. rewrite Nat.div_mul by lia.
  rewrite (seq_mode0 r (Some l) io out oo (gfe E r) iv16); auto.
  - apply gfe_wf; auto; lia.
  - discriminate.
  - intros k out' st Hk L Hst. cbn [src].
    assert (k * r + r <= n * r)%nat by nia.
    rewrite (Nat.add_comm (k * r) io), (Nat.add_comm (k * r) oo). apply CFB_Encrypt128_ok; auto; lia.
Qed.

Lemma CFB_dec_loop E r l io out oo a n done iv : block_fun E -> (0 < r <= 16)%nat -> iv16 iv ->
  length done = (a * r)%nat -> (oo + (a + n) * r <= length out)%nat -> (io + (a + n) * r <= length l)%nat ->
  for_up a n (fun k st => let '(out, iv) := st in CFB_Decrypt128 E r (Some l) (io + k * r) out (oo + k * r) iv) (splice out oo done, iv) =
  Ok (splice out oo (done ++ fst (dd r (gfd E r) n (slice l (io + a * r) (n * r)) iv)),
      snd (dd r (gfd E r) n (slice l (io + a * r) (n * r)) iv)).
Proof.
  intros HE Hr Hiv Hd Ho Hi.
  rewrite (seq_mode r (Some l) io out oo (gfd E r) iv16); auto.
  - apply gfd_wf; auto; lia.
  - discriminate.
  - intros k out' st Hk L Hst. cbn [src]. assert (k * r + r <= (a + n) * r)%nat by nia. apply CFB_Decrypt128_ok; auto; lia.
Qed.

Lemma CFB_DecryptSegment_ok E l io out oo iv cnt : block_fun E -> iv16 iv ->
  (oo + cnt * 16 <= length out)%nat -> (io + cnt * 16 <= length l)%nat ->
  CFB_DecryptSegment E 16 (Some l) io out oo iv cnt =
  Ok (splice out oo (fst (dd 16 (gfd E 16) cnt (slice l io (cnt * 16)) iv)), snd (dd 16 (gfd E 16) cnt (slice l io (cnt * 16)) iv)).
Proof.
  intros HE Hiv Ho Hi. unfold CFB_DecryptSegment.
  rewrite (seq_mode0 16 (Some l) io out oo (gfd E 16) iv16); auto.
  - apply gfd_wf; auto.
  - discriminate.
  - intros k out' st Hk L Hst. cbn [src]. pose proof Hst as Hst'. unfold iv16 in Hst'.
    rewrite blk_ok by (rewrite ?slice_all; auto; lia). cbn [bind]. rewrite slice_all by lia.
    assert (Hk' : length (E st) = 16%nat) by auto.
    rewrite CFB_shift_ok by (auto; lia). cbn [bind].
    assert (L2 : length (slice l (io + k * 16) 16) = 16%nat) by (apply length_slice; lia).
    rewrite wxor_ok by (rewrite ?length_splice; lia). cbn [bind]. rewrite slice_splice_here by lia.
    rewrite splice_over by (rewrite ?length_xorl; lia).
    unfold gfd. cbn [fst snd]. rewrite firstn_all2 by lia. rewrite xorl_comm. reflexivity.
Qed.

Lemma CFB_DecryptParallel_ok E p m ord l io out oo iv : block_fun E -> iv16 iv ->
  (0 < deg p)%nat -> (0 < m)%nat -> pblk p = (deg p * (16 * m))%nat -> schedule (deg p) ord ->
  (oo + pblk p <= length out)%nat -> (io + pblk p <= length l)%nat ->
  CFB_DecryptParallel E 16 p ord (Some l) io out oo iv =
  Ok (splice out oo (fst (dd 16 (gfd E 16) (deg p * m) (slice l io (pblk p)) iv)), snd (dd 16 (gfd E 16) (deg p * m) (slice l io (pblk p)) iv)).
Proof.
  intros HE Hiv Hd Hm Hp HO Ho Hi. unfold CFB_DecryptParallel, safe.
  destruct (Nat.eqb_spec (deg p) 0); [lia|]. cbn [negb bind]. rewrite (good_deg p m Hp Hd).
  replace (16 * m / 16)%nat with m by (rewrite Nat.mul_comm, Nat.div_mul; lia).
  cbn [src]. rewrite Hp in *.
  assert (HG : forall b st, length b = 16%nat -> iv16 st -> length (fst (gfd E 16 b st)) = 16%nat /\ iv16 (snd (gfd E 16 b st))) by (apply gfd_wf; auto).
  assert (HS : forall b st, length b = 16%nat -> iv16 st -> snd (gfd E 16 b st) = b).
  { intros b st Hb Hst. unfold gfd. cbn [snd]. unfold iv16 in Hst. rewrite skipn_all2 by lia. reflexivity. }
  rewrite (par_chain (gfd E 16) l io out oo (deg p) m iv HG HS Hd Hm Hiv Ho Hi ord); auto.
  - cbn [bind]. rewrite wcopy16; auto.
    destruct (dd_wf 16 (gfd E 16) HG (deg p * m) (slice l io (deg p * (16 * m))) iv) as [A B]; auto. rewrite length_slice; lia.
  - intros i out' t Hi' L Ht.
    assert (Hb : (io + i * (16 * m) + 16 * m <= length l)%nat) by nia.
    assert (Hb' : (oo + i * (16 * m) + 16 * m <= length out)%nat) by nia.
    assert (TI : (if (i =? 0)%nat then wcopy iv 0 (zeros 16) 0 16 else wcopy l (io + i * (16 * m) - 16) (zeros 16) 0 16) = Ok (ivi l io m iv i)).
    { unfold ivi. destruct (Nat.eqb_spec i 0).
      - apply wcopy16; [exact Hiv|reflexivity].
      - assert (16 <= i * (16 * m))%nat by nia.
        rewrite wcopy_ok by (cbn [length zeros repeat]; lia). f_equal. apply splice_all. rewrite length_slice; [reflexivity|lia]. }
    rewrite TI. cbn [bind].
    assert (LI : iv16 (ivi l io m iv i)) by exact (ivi_len (gfd E 16) l io out oo (deg p) m iv HG HS Hd Hm Hiv Ho Hi i Hi').
    rewrite CFB_DecryptSegment_ok; auto; try lia.
    cbn [bind]. replace (m * 16)%nat with (16 * m)%nat by lia. fold (pdd (gfd E 16) l io m iv i).
    destruct (Nat.eqb_spec i (deg p - 1)) as [->|].
    + rewrite wcopy16; [reflexivity| |exact Ht]. apply (pdd_len (gfd E 16) l io out oo (deg p) m iv HG HS Hd Hm Hiv Ho Hi). lia.
    + reflexivity.
Qed.

Lemma CFB_decrypt_ok E r p ord l io out oo n iv : block_fun E -> (0 < r <= 16)%nat -> iv16 iv ->
  (par p = true -> (pblk p <= n * r)%nat -> r = 16%nat -> good_profile (deg p) (pblk p) /\ forall i, schedule (deg p) (ord i)) ->
  (oo + n * r <= length out)%nat -> (io + n * r <= length l)%nat ->
  CFB_decrypt E r p ord (Some l) io out oo (n * r) iv =
  Ok (splice out oo (fst (dd r (gfd E r) n (slice l io (n * r)) iv)), snd (dd r (gfd E r) n (slice l io (n * r)) iv)).
Proof.
  intros HE Hr Hiv HP Ho Hi. unfold CFB_decrypt. unfold safe at 1. destruct (Nat.eqb_spec r 0); [lia|]. cbn [negb bind].
  rewrite Nat.div_mul by lia.
  destruct (par p && (pblk p <=? n * r)%nat && (r =? 16)%nat) eqn:C.
  - apply andb_true_iff in C. destruct C as [C C3]. apply andb_true_iff in C. destruct C as [C1 C2].
    apply Nat.leb_le in C2. apply Nat.eqb_eq in C3. subst r.
    destruct (HP C1 C2 eq_refl) as ((m & Hm & Hd & Hp) & HO).
    set (pb := (deg p * m)%nat). assert (P16 : pblk p = (pb * 16)%nat) by (unfold pb; lia).
    assert (Hpb : (0 < pb)%nat) by (unfold pb; nia).
    unfold safe. destruct (Nat.eqb_spec (pblk p) 0); [lia|]. cbn [negb bind].
    set (cnt := (n * 16 / pblk p)%nat).
    assert (Hc : (cnt * pblk p <= n * 16)%nat) by (rewrite Nat.mul_comm; unfold cnt; apply Nat.mul_div_le; lia).
    assert (PD : (pblk p / 16 * cnt = cnt * pb)%nat) by (rewrite P16, Nat.div_mul by lia; lia).
    clearbody cnt.
    erewrite for_up_ext.
    2:{ intros k [o v]. rewrite (Nat.add_comm (k * pblk p) io), (Nat.add_comm (k * pblk p) oo).
        instantiate (1 := fun k st => let '(out, iv) := st in CFB_DecryptParallel E 16 p (ord k) (Some l) (io + k * pblk p) out (oo + k * pblk p) iv). reflexivity. }
    assert (HG := gfd_wf E 16 HE (le_n 16)).
    rewrite (seq_mode0 (pblk p) (Some l) io out oo (dd 16 (gfd E 16) pb) iv16); auto; cbn [src]; try lia; try discriminate.
    2:{ intros b st Hb Hst. rewrite P16 in *. apply dd_wf; auto. }
    2:{ intros k out' st Hk L Hst.
        assert (k * pblk p + pblk p <= cnt * pblk p)%nat by nia.
        rewrite (CFB_DecryptParallel_ok E p m); auto; lia. }
    cbv zeta. cbn [bind].
    pose proof (dd_blocks 16 (gfd E 16) HG pb cnt Hpb (slice l io (cnt * pblk p)) iv) as G. rewrite <- P16 in G. rewrite length_slice in G by lia. specialize (G eq_refl).
    pose proof (f_equal fst G) as G1. pose proof (f_equal snd G) as G2. cbn [fst snd] in G1, G2. rewrite G1, G2. clear G G1 G2.
    rewrite PD. assert (HK : (cnt * pblk p = cnt * pb * 16)%nat) by (rewrite P16; lia). rewrite HK in *.
    set (K := (cnt * pb)%nat) in *. clearbody K.
    assert (LK : length (slice l io (K * 16)) = (K * 16)%nat) by (apply length_slice; lia).
    destruct (dd_wf 16 (gfd E 16) HG K _ iv LK Hiv) as [W1 W2].
    assert (SH : forall X, for_up 0 (n - K) (fun i st => let '(out, iv) := st in
        CFB_Decrypt128 E 16 (Some l) ((i + K) * 16 + io) out ((i + K) * 16 + oo) iv) X =
      for_up K (n - K) (fun k st => let '(out, iv) := st in CFB_Decrypt128 E 16 (Some l) (io + k * 16) out (oo + k * 16) iv) X).
    { intros X. apply (for_up_shift K (n - K) _ _ 0). intros i [o v]. f_equal; lia. }
    rewrite SH. rewrite CFB_dec_loop; auto; try lia.
    assert (HC : n = (K + (n - K))%nat) by lia.
    pose proof (dd_slice 16 (gfd E 16) HG K (n - K) l io iv) as CS. rewrite <- HC in CS. rewrite CS by lia. reflexivity.
  - erewrite for_up_ext.
    2:{ intros k [o v]. rewrite (Nat.add_comm (k * r) io), (Nat.add_comm (k * r) oo).
        instantiate (1 := fun k st => let '(out, iv) := st in CFB_Decrypt128 E r (Some l) (io + k * r) out (oo + k * r) iv). reflexivity. }
    pose proof (CFB_dec_loop E r l io out oo 0 n [] iv HE Hr Hiv) as M. rewrite splice_nil in M. cbn [app length] in M.
    rewrite Nat.mul_0_l, Nat.add_0_r in M. apply M; auto.
Qed.
