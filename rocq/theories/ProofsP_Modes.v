From Coq Require Import Permutation.
From Verif Require Import BaseLemmas Spec_Common Spec_Modes Proofs_Common Model_IntegerTools Proofs_IntegerTools Proofs_IntegerTools2 Model_Modes Proofs_Windows Proofs_Modes Proofs_Modes2 Proofs_Modes3 Proofs_Modes4 Proofs_Modes5.
Open Scope Z_scope.

Lemma ex_written (out : list Z) oo d (r : res (list Z)) : (oo + length d <= length out)%nat -> r = Ok (splice out oo d) ->
  exists out', r = Ok out' /\ written out out' oo d.
Proof. intros H E. exists (splice out oo d). split; [exact E|]. now apply splice_written. Qed.
Lemma written_slice out out' o d : written out out' o d -> (o + length d <= length out)%nat -> slice out' o (length d) = d.
Proof.
  intros (L & I & _) H. apply (list_ext 0); [rewrite length_slice; lia|]. rewrite length_slice by lia.
  intros i Hi. rewrite nth_slice by lia. auto.
Qed.

(** ** C12 *)
Lemma c12_def f s p ord inp io out oo n : block_fun f -> (inp = None -> io = oo) ->
  (par p = true -> good_profile (deg p) (pblk p) /\ forall i, schedule (deg p) (ord i)) ->
  (oo + n * 16 <= length out)%nat -> (io + n * 16 <= length (src inp out))%nat ->
  exists out', ECB_Transform f s p ord inp io out oo (n * 16) = Ok out' /\
    written out out' oo (concat (map f (chunks 16 (slice (src inp out) io (n * 16))))).
Proof.
  intros Hf HA HP Ho Hi. apply ex_written; [|now apply ECB_Transform_ok].
  fold (ecb_data f (slice (src inp out) io (n * 16))). rewrite (ecb_data_len f n); auto. rewrite length_slice; lia.
Qed.
Lemma map_inv E D bs : inverse_cipher E D -> (forall b, In b bs -> length b = 16%nat /\ bytes b) -> map D (map E bs) = bs.
Proof.
  intros (H1 & H2 & H3) H. rewrite map_map. rewrite <- (map_id bs) at 2. apply map_ext_in. intros b Hb. destruct (H b Hb). now apply H3.
Qed.
Lemma chunks_all n (l : list Z) : length l = (n * 16)%nat -> bytes l -> forall b, In b (chunks 16 l) -> length b = 16%nat /\ bytes b.
Proof.
  intros Hl Hb b H. rewrite (blocks_chunks 16 n) in H by lia. split; [eapply blocks_len; [|exact H]; lia|eapply blocks_bytes; eauto].
Qed.
Lemma c12_inverse E D s p ord s' p' ord' inp io out oo n out2 oo2 :
  inverse_cipher E D -> (inp = None -> io = oo) ->
  (par p = true -> good_profile (deg p) (pblk p) /\ forall i, schedule (deg p) (ord i)) ->
  (par p' = true -> good_profile (deg p') (pblk p') /\ forall i, schedule (deg p') (ord' i)) ->
  (oo + n * 16 <= length out)%nat -> (io + n * 16 <= length (src inp out))%nat -> (oo2 + n * 16 <= length out2)%nat ->
  bytes (src inp out) ->
  exists c r, ECB_Transform E s p ord inp io out oo (n * 16) = Ok c /\
    ECB_Transform D s' p' ord' (Some c) oo out2 oo2 (n * 16) = Ok r /\
    written out2 r oo2 (slice (src inp out) io (n * 16)).
Proof.
  intros HI HA HP HP' Ho Hi Ho2 Hb. pose proof HI as (HE & HD & HX).
  set (M := slice (src inp out) io (n * 16)). assert (LM : length M = (n * 16)%nat) by (apply length_slice; lia).
  assert (LE := ecb_data_len E n M HE LM).
  exists (splice out oo (ecb_data E M)). eexists. split; [now apply ECB_Transform_ok|].
  assert (Lc : length (splice out oo (ecb_data E M)) = length out) by (apply length_splice; lia).
  split; [apply ECB_Transform_ok; auto; cbn [src]; try lia; discriminate|]. cbn [src].
  rewrite slice_splice_here by lia.
  assert (RT : ecb_data D (ecb_data E M) = M).
  { rewrite (ecb_data_blocks D n) by auto. rewrite (ecb_data_blocks E n) by auto.
    assert (HB : forall b, In b (blocks 16 n M) -> length b = 16%nat /\ bytes b).
    { rewrite <- (blocks_chunks 16 n) by lia. apply (chunks_all n); auto. unfold M. now apply bytes_slice. }
    pose proof (blocks_of_concat 16 (map E (blocks 16 n M))) as BC. rewrite map_length, blocks_length in BC.
    rewrite BC.
    - rewrite (map_inv E D) by auto. rewrite blocks_concat. apply firstn_all2. lia.
    - intros b H. apply in_map_iff in H. destruct H as (x & <- & H). apply HE. now apply HB. }
  rewrite RT. apply splice_written. lia.
Qed.

(** ** histories of chained modes *)
Definition dst r G (cs : list call) (st : list Z) := dd r G (length (concat (map message cs)) / r) (concat (map message cs)) st.
Lemma fits_message c : fits c -> length (message c) = c_len c.
Proof. intros [H1 H2]. apply length_slice. lia. Qed.
Lemma hist_dd r G T : (0 < r)%nat ->
  (forall b st, length b = r -> iv16 st -> length (fst (G b st)) = r /\ iv16 (snd (G b st))) ->
  forall cs,
  (forall c, In c cs -> fits c /\ (c_len c mod r = 0)%nat) ->
  (forall c n st, In c cs -> c_len c = (n * r)%nat -> iv16 st ->
    T (c_in c) (c_io c) (c_out c) (c_oo c) (c_len c) st =
      Ok (splice (c_out c) (c_oo c) (fst (dd r G n (message c) st)), snd (dd r G n (message c) st))) ->
  forall st, iv16 st ->
  exists outs ds, history T cs st = Ok (outs, snd (dst r G cs st)) /\ wrote cs outs ds /\ concat ds = fst (dst r G cs st) /\
    (exists q, length (concat (map message cs)) = (q * r)%nat).
Proof.
  intros Hr HG. induction cs as [|c cs IH]; intros HF HT st Hst.
  - exists [], []. split; [|split; [|split]]; [| | |now exists 0%nat].
    + unfold dst. cbn [map concat length]. rewrite Nat.div_0_l by lia. reflexivity.
    + split; [reflexivity|]. split; [reflexivity|]. intros k c; destruct k; discriminate.
    + unfold dst. cbn [map concat length]. rewrite Nat.div_0_l by lia. reflexivity.
  - destruct (HF c (or_introl eq_refl)) as [Fc Mc]. pose proof Fc as [Fi Fo].
    assert (Hn : c_len c = (c_len c / r * r)%nat) by (pose proof (Nat.div_mod (c_len c) r); lia).
    set (n := (c_len c / r)%nat) in *. assert (LM : length (message c) = (n * r)%nat) by (rewrite fits_message by auto; lia).
    destruct (dd_wf r G HG n (message c) st LM Hst) as [W1 W2].
    destruct (IH (fun x Hx => HF x (or_intror Hx)) (fun x n st Hx => HT x n st (or_intror Hx)) (snd (dd r G n (message c) st)) W2)
      as (outs & ds & H1 & H2 & H3 & (q & H4)).
    assert (DS : dst r G (c :: cs) st = (fst (dd r G n (message c) st) ++ fst (dst r G cs (snd (dd r G n (message c) st))), snd (dst r G cs (snd (dd r G n (message c) st))))).
    { unfold dst. cbn [map concat]. set (M2 := concat (map message cs)) in *.
      rewrite app_length, LM, H4. rewrite <- Nat.mul_add_distr_r. rewrite !Nat.div_mul by lia.
      rewrite (dd_app r G HG n q) by (rewrite app_length; lia).
      rewrite firstn_app, LM, Nat.sub_diag, firstn_O, app_nil_r, firstn_all2 by lia.
      rewrite skipn_app, LM, Nat.sub_diag, skipn_O, skipn_all2 by lia. reflexivity. }
    exists (splice (c_out c) (c_oo c) (fst (dd r G n (message c) st)) :: outs), (fst (dd r G n (message c) st) :: ds).
    split; [|split; [|split]].
    + cbn [history]. rewrite (HT c n) by (auto; now left). cbn [bind snd fst]. rewrite H1. cbn [bind fst snd]. now rewrite DS.
    + destruct H2 as (L1 & L2 & L3). split; [cbn; lia|]. split; [cbn; lia|]. intros [|k] x Hx.
      * cbn in Hx. injection Hx as <-. cbn [nth]. split; [lia|]. apply splice_written. lia.
      * cbn in Hx |- *. now apply L3.
    + cbn [concat]. rewrite H3, DS. reflexivity.
    + exists (n + q)%nat. cbn [map concat]. rewrite app_length. lia.
Qed.

Lemma dst_blocks r G cs st q : (0 < r)%nat -> length (data cs) = (q * r)%nat ->
  dst r G cs st = (concat (fst (gfold G (chunks r (data cs)) st)), snd (gfold G (chunks r (data cs)) st)).
Proof.
  intros Hr Hq. unfold dst. fold (data cs). rewrite Hq, Nat.div_mul by lia. unfold dd. cbv zeta.
  rewrite (blocks_chunks r q) by auto. reflexivity.
Qed.

(** ** C13 *)
Lemma c13_encrypt E cs iv : block_fun E -> calls_ok 16 cs -> length iv = 16%nat ->
  exists outs ds st, history (fun i io o oo len st => CBC_encrypt E (Some i) io o oo len st) cs iv = Ok (outs, st) /\
    wrote cs outs ds /\ concat ds = concat (cbc_encrypt E iv (chunks 16 (data cs))) /\
    st = last (cbc_encrypt E iv (chunks 16 (data cs))) iv.
Proof.
  intros HE HC Hiv.
  destruct (hist_dd 16 (gce E) (fun i io o oo len st => CBC_encrypt E (Some i) io o oo len st) ltac:(lia) (gce_wf E HE) cs HC) with (st := iv)
    as (outs & ds & H1 & H2 & H3 & (q & H4)); auto.
  - intros c n st Hin Hl Hst. destruct (HC c Hin) as [[F1 F2] _]. rewrite Hl.
    rewrite CBC_encrypt_ok; auto; cbn [src]; try lia; try discriminate. unfold message. rewrite Hl. reflexivity.
  - exists outs, ds, (snd (dst 16 (gce E) cs iv)). split; [exact H1|]. split; [exact H2|].
    rewrite H3, (dst_blocks 16 (gce E) cs iv q) by (auto; lia). cbn [fst snd]. rewrite gce_spec, gce_snd. auto.
Qed.
Lemma c13_decrypt D s p ord cs iv : block_fun D -> calls_ok 16 cs -> length iv = 16%nat ->
  (par p = true -> good_profile (deg p) (pblk p) /\ forall i, schedule (deg p) (ord i)) ->
  exists outs ds st, history (fun i io o oo len st => CBC_decrypt D s p ord (Some i) io o oo len st) cs iv = Ok (outs, st) /\
    wrote cs outs ds /\ concat ds = concat (cbc_decrypt D iv (chunks 16 (data cs))) /\
    st = last (chunks 16 (data cs)) iv.
Proof.
  intros HD HC Hiv HP.
  destruct (hist_dd 16 (gcd D) (fun i io o oo len st => CBC_decrypt D s p ord (Some i) io o oo len st) ltac:(lia) (gcd_wf D HD) cs HC) with (st := iv)
    as (outs & ds & H1 & H2 & H3 & (q & H4)); auto.
  - intros c n st Hin Hl Hst. destruct (HC c Hin) as [[F1 F2] _]. rewrite Hl.
    rewrite CBC_decrypt_ok; auto; cbn [src]; try lia; try discriminate.
    + unfold message. rewrite Hl. reflexivity.
    + intros C1 C2. destruct (HP C1). split; [discriminate|]. auto.
  - exists outs, ds, (snd (dst 16 (gcd D) cs iv)). split; [exact H1|]. split; [exact H2|].
    rewrite H3, (dst_blocks 16 (gcd D) cs iv q) by (auto; lia). cbn [fst snd]. rewrite gcd_spec, gcd_snd. auto.
Qed.
Lemma cbc_inverse E D : inverse_cipher E D -> forall ps iv, (forall b, In b ps -> length b = 16%nat /\ bytes b) -> length iv = 16%nat -> bytes iv ->
  cbc_decrypt D iv (cbc_encrypt E iv ps) = ps.
Proof.
  intros (HE & HD & HX). induction ps as [|p ps IH]; intros iv H Hiv Hb; [reflexivity|]. cbn [cbc_encrypt cbc_decrypt].
  destruct (H p (or_introl eq_refl)) as [Hp Bp].
  assert (Lx : length (xorl p iv) = 16%nat) by (rewrite length_xorl; lia).
  destruct (HX (xorl p iv)) as [B1 B2]; auto; [now apply bytes_xorl|].
  rewrite B2, xorl_cancel_r by lia. f_equal. apply IH; auto. intros; apply H; now right.
Qed.
Lemma cbc_encrypt_len E ps : forall iv, block_fun E -> (forall b, In b ps -> length b = 16%nat) -> length iv = 16%nat ->
  forall c, In c (cbc_encrypt E iv ps) -> length c = 16%nat.
Proof.
  induction ps as [|p ps IH]; intros iv HE H Hiv c Hc; [destruct Hc|]. cbn [cbc_encrypt In] in Hc.
  assert (L : length (E (xorl p iv)) = 16%nat) by (apply HE; rewrite length_xorl, (H p (or_introl eq_refl)); lia).
  destruct Hc as [<-|Hc]; [exact L|]. apply (IH (E (xorl p iv))); auto. intros; apply H; now right.
Qed.
Lemma chunks_concat r (bs : list (list Z)) : (0 < r)%nat -> (forall b, In b bs -> length b = r) -> chunks r (concat bs) = bs.
Proof.
  intros Hr H. rewrite (blocks_chunks r (length bs)); auto; [now apply blocks_of_concat|]. now apply concat_length_eq.
Qed.
Lemma data_len r cs : (0 < r)%nat -> calls_ok r cs -> exists q, length (data cs) = (q * r)%nat.
Proof.
  intros Hr. induction cs as [|c cs IH]; intros H; [now exists 0%nat|].
  destruct IH as [q Hq]; [intros x Hx; apply H; now right|]. destruct (H c (or_introl eq_refl)) as [F M].
  exists (c_len c / r + q)%nat. unfold data in *. cbn [map concat]. rewrite app_length, fits_message, Hq by auto.
  pose proof (Nat.div_mod (c_len c) r). lia.
Qed.
Lemma c13_round_trip E D s p ord cs1 cs2 iv : inverse_cipher E D -> calls_ok 16 cs1 -> calls_ok 16 cs2 ->
  length iv = 16%nat -> bytes iv -> bytes (data cs1) ->
  (par p = true -> good_profile (deg p) (pblk p) /\ forall i, schedule (deg p) (ord i)) ->
  exists outs1 ds1 st1, history (fun i io o oo len st => CBC_encrypt E (Some i) io o oo len st) cs1 iv = Ok (outs1, st1) /\ wrote cs1 outs1 ds1 /\
    (data cs2 = concat ds1 ->
     exists outs2 ds2 st2, history (fun i io o oo len st => CBC_decrypt D s p ord (Some i) io o oo len st) cs2 iv = Ok (outs2, st2) /\ wrote cs2 outs2 ds2 /\
       concat ds2 = data cs1).
Proof.
  intros HI H1 H2 Hiv Bi Bd HP. pose proof HI as (HE & HD & HX).
  destruct (c13_encrypt E cs1 iv HE H1 Hiv) as (outs1 & ds1 & st1 & A1 & A2 & A3 & A4).
  exists outs1, ds1, st1. split; [exact A1|]. split; [exact A2|]. intros HD2.
  destruct (c13_decrypt D s p ord cs2 iv HD H2 Hiv HP) as (outs2 & ds2 & st2 & B1 & B2 & B3 & B4).
  exists outs2, ds2, st2. split; [exact B1|]. split; [exact B2|]. rewrite B3, HD2, A3.
  destruct (data_len 16 cs1 ltac:(lia) H1) as [q Hq].
  assert (HB := chunks_all q (data cs1) Hq Bd).
  rewrite chunks_concat; [|lia|apply cbc_encrypt_len; auto; intros; now apply HB].
  rewrite (cbc_inverse E D) by auto. apply concat_chunks. lia.
Qed.
Lemma c13_in_place E D s p ord out oo n iv : inverse_cipher E D -> (oo + n * 16 <= length out)%nat -> bytes out -> length iv = 16%nat -> bytes iv ->
  (par p = true -> (n * 16 < pblk p)%nat) ->
  exists c st r st2, CBC_encrypt E None oo out oo (n * 16) iv = Ok (c, st) /\
    written out c oo (concat (cbc_encrypt E iv (chunks 16 (slice out oo (n * 16))))) /\
    CBC_decrypt D s p ord None oo c oo (n * 16) iv = Ok (r, st2) /\ r = out.
Proof.
  intros HI Ho Hb Hiv Bi HP. pose proof HI as (HE & HD & HX).
  set (M := slice out oo (n * 16)). assert (LM : length M = (n * 16)%nat) by (apply length_slice; lia).
  assert (HB : forall b, In b (chunks 16 M) -> length b = 16%nat /\ bytes b) by (apply (chunks_all n); auto; now apply bytes_slice).
  destruct (dd_wf 16 (gce E) (gce_wf E HE) n M iv LM Hiv) as [W1 W2].
  assert (CE : fst (ced E n M iv) = concat (cbc_encrypt E iv (chunks 16 M))).
  { unfold ced. cbv zeta. cbn [fst]. rewrite <- (blocks_chunks 16 n), gce_spec by lia. reflexivity. }
  assert (CL : length (concat (cbc_encrypt E iv (chunks 16 M))) = (n * 16)%nat) by (rewrite <- CE; exact W1).
  exists (splice out oo (concat (cbc_encrypt E iv (chunks 16 M)))). do 3 eexists.
  split; [|split; [|split]].
  - rewrite CBC_encrypt_ok; auto; cbn [src]; try lia; [|intros _; reflexivity]. fold M. rewrite CE. reflexivity.
  - apply splice_written. lia.
  - apply CBC_decrypt_ok; auto; cbn [src]; rewrite ?length_splice by lia; auto.
    + intros _; reflexivity.
    + intros C1 C2. specialize (HP C1). lia.
  - cbn [src]. rewrite slice_splice_here by lia. unfold cdd. cbv zeta. cbn [fst]. rewrite <- (blocks_chunks 16 n) by lia. rewrite gcd_spec.
    rewrite chunks_concat; [|lia|apply cbc_encrypt_len; auto; intros; now apply HB].
    rewrite (cbc_inverse E D) by auto. rewrite concat_chunks by lia.
    rewrite splice_over by lia. unfold M. apply splice_slice_id. lia.
Qed.

(** ** C14 *)
Lemma c14_encrypt E r cs iv : block_fun E -> (1 <= r <= 16)%nat -> calls_ok r cs -> length iv = 16%nat ->
  exists outs ds st, history (fun i io o oo len st => CFB_encrypt E r (Some i) io o oo len st) cs iv = Ok (outs, st) /\
    wrote cs outs ds /\ concat ds = concat (cfb_encrypt E r iv (chunks r (data cs))).
Proof.
  intros HE Hr HC Hiv.
  destruct (hist_dd r (gfe E r) (fun i io o oo len st => CFB_encrypt E r (Some i) io o oo len st) ltac:(lia) (gfe_wf E r HE ltac:(lia)) cs HC) with (st := iv)
    as (outs & ds & H1 & H2 & H3 & (q & H4)); auto.
  - intros c n st Hin Hl Hst. destruct (HC c Hin) as [[F1 F2] _]. rewrite Hl.
    rewrite CFB_encrypt_ok; auto; try lia. unfold message. rewrite Hl. reflexivity.
  - exists outs, ds, (snd (dst r (gfe E r) cs iv)). split; [exact H1|]. split; [exact H2|].
    rewrite H3, (dst_blocks r (gfe E r) cs iv q) by (auto; lia). cbn [fst snd]. rewrite gfe_spec. auto.
Qed.
Lemma c14_decrypt E r p ord cs iv : block_fun E -> (1 <= r <= 16)%nat -> calls_ok r cs -> length iv = 16%nat ->
  (par p = true -> good_profile (deg p) (pblk p) /\ forall i, schedule (deg p) (ord i)) ->
  exists outs ds st, history (fun i io o oo len st => CFB_decrypt E r p ord (Some i) io o oo len st) cs iv = Ok (outs, st) /\
    wrote cs outs ds /\ concat ds = concat (cfb_decrypt E r iv (chunks r (data cs))).
Proof.
  intros HE Hr HC Hiv HP.
  destruct (hist_dd r (gfd E r) (fun i io o oo len st => CFB_decrypt E r p ord (Some i) io o oo len st) ltac:(lia) (gfd_wf E r HE ltac:(lia)) cs HC) with (st := iv)
    as (outs & ds & H1 & H2 & H3 & (q & H4)); auto.
  - intros c n st Hin Hl Hst. destruct (HC c Hin) as [[F1 F2] _]. rewrite Hl.
    rewrite CFB_decrypt_ok; auto; try lia. unfold message. rewrite Hl. reflexivity.
  - exists outs, ds, (snd (dst r (gfd E r) cs iv)). split; [exact H1|]. split; [exact H2|].
    rewrite H3, (dst_blocks r (gfd E r) cs iv q) by (auto; lia). cbn [fst snd]. rewrite gfd_spec. auto.
Qed.
Lemma cfb_inverse E r : block_fun E -> (r <= 16)%nat -> forall ps iv, (forall b, In b ps -> length b = r) -> length iv = 16%nat ->
  cfb_decrypt E r iv (cfb_encrypt E r iv ps) = ps /\ forall c, In c (cfb_encrypt E r iv ps) -> length c = r.
Proof.
  intros HE Hr. induction ps as [|p ps IH]; intros iv H Hiv; [split; [reflexivity|intros c []]|]. cbn [cfb_encrypt cfb_decrypt].
  assert (Lp : length p = r) by (apply H; now left).
  assert (Lk : length (firstn r (E iv)) = r) by (rewrite firstn_length, HE; auto; lia).
  assert (Lx : length (xorl p (firstn r (E iv))) = r) by (rewrite length_xorl; lia).
  destruct (IH (skipn r iv ++ xorl p (firstn r (E iv)))) as [I1 I2].
  - intros; apply H; now right.
  - rewrite app_length, skipn_length. lia.
  - rewrite xorl_cancel_r by lia. split; [now f_equal|]. intros c [<-|Hc]; auto.
Qed.
Lemma chunks_len r q (l : list Z) : (0 < r)%nat -> length l = (q * r)%nat -> forall b, In b (chunks r l) -> length b = r.
Proof. intros Hr Hl b H. rewrite (blocks_chunks r q) in H by auto. eapply blocks_len; [|exact H]. lia. Qed.
Lemma c14_round_trip E r p ord cs1 cs2 iv : block_fun E -> (1 <= r <= 16)%nat -> calls_ok r cs1 -> calls_ok r cs2 ->
  length iv = 16%nat ->
  (par p = true -> good_profile (deg p) (pblk p) /\ forall i, schedule (deg p) (ord i)) ->
  exists outs1 ds1 st1, history (fun i io o oo len st => CFB_encrypt E r (Some i) io o oo len st) cs1 iv = Ok (outs1, st1) /\ wrote cs1 outs1 ds1 /\
    (data cs2 = concat ds1 ->
     exists outs2 ds2 st2, history (fun i io o oo len st => CFB_decrypt E r p ord (Some i) io o oo len st) cs2 iv = Ok (outs2, st2) /\ wrote cs2 outs2 ds2 /\
       concat ds2 = data cs1).
Proof.
  intros HE Hr H1 H2 Hiv HP.
  destruct (c14_encrypt E r cs1 iv HE Hr H1 Hiv) as (outs1 & ds1 & st1 & A1 & A2 & A3).
  exists outs1, ds1, st1. split; [exact A1|]. split; [exact A2|]. intros HD2.
  destruct (c14_decrypt E r p ord cs2 iv HE Hr H2 Hiv HP) as (outs2 & ds2 & st2 & B1 & B2 & B3).
  exists outs2, ds2, st2. split; [exact B1|]. split; [exact B2|]. rewrite B3, HD2, A3.
  destruct (data_len r cs1 ltac:(lia) H1) as [q Hq].
  destruct (cfb_inverse E r HE ltac:(lia) (chunks r (data cs1)) iv (chunks_len r q _ ltac:(lia) Hq) Hiv) as [I1 I2].
  rewrite chunks_concat by (auto; lia). rewrite I1. apply concat_chunks. lia.
Qed.
Lemma c14_init iv0 nonce : length iv0 = 16%nat -> (1 <= length nonce <= 16)%nat ->
  CFB_init iv0 nonce = Ok (zeros (16 - length nonce) ++ nonce).
Proof.
  intros H0 Hn. unfold CFB_init, guard, safe. destruct (Nat.leb_spec 1 (length nonce)); [|lia]. cbn [bind].
  destruct (Nat.leb_spec (length nonce) 16); [|lia]. cbn [bind]. rewrite wcopy_ok by lia. cbn [bind].
  rewrite (slice_all nonce) by lia.
  assert (LZ : length (zeros (16 - length nonce)) = (16 - length nonce)%nat) by apply repeat_length.
  rewrite wr_ok by (rewrite length_splice; lia). f_equal.
  rewrite splice_comm by lia.
  pose proof (splice_splice_next iv0 0 (zeros (16 - length nonce)) nonce) as SS. rewrite LZ in SS. cbn [Nat.add] in SS. rewrite SS by lia.
  apply splice_all. rewrite app_length. lia.
Qed.

(** ** C15 *)
Lemma c15_def E cs iv : block_fun E -> calls_ok 16 cs -> length iv = 16%nat ->
  exists outs ds st, history (fun i io o oo len st => OFB_Transform E (Some i) io o oo len st) cs iv = Ok (outs, st) /\
    wrote cs outs ds /\ concat ds = concat (ofb_crypt E iv (chunks 16 (data cs))).
Proof.
  intros HE HC Hiv.
  destruct (hist_dd 16 (gof E) (fun i io o oo len st => OFB_Transform E (Some i) io o oo len st) ltac:(lia) (gof_wf E HE) cs HC) with (st := iv)
    as (outs & ds & H1 & H2 & H3 & (q & H4)); auto.
  - intros c n st Hin Hl Hst. destruct (HC c Hin) as [[F1 F2] _]. rewrite Hl.
    rewrite OFB_Transform_ok; auto; cbn [src]; try lia; try discriminate. unfold message. rewrite Hl. reflexivity.
  - exists outs, ds, (snd (dst 16 (gof E) cs iv)). split; [exact H1|]. split; [exact H2|].
    rewrite H3, (dst_blocks 16 (gof E) cs iv q) by (auto; lia). cbn [fst snd]. rewrite gof_spec. auto.
Qed.
Lemma ofb_inverse E : block_fun E -> forall ps iv, (forall b, In b ps -> length b = 16%nat) -> length iv = 16%nat ->
  ofb_crypt E iv (ofb_crypt E iv ps) = ps /\ forall c, In c (ofb_crypt E iv ps) -> length c = 16%nat.
Proof.
  intros HE. induction ps as [|p ps IH]; intros iv H Hiv; [split; [reflexivity|intros c []]|]. cbn [ofb_crypt].
  assert (Lp : length p = 16%nat) by (apply H; now left). assert (Lk := HE iv Hiv).
  destruct (IH (E iv)) as [I1 I2]; auto; [intros; apply H; now right|].
  rewrite xorl_cancel_r by lia. split; [now f_equal|]. intros c [<-|Hc]; auto. rewrite length_xorl. lia.
Qed.
Lemma c15_round_trip E cs1 cs2 iv : block_fun E -> calls_ok 16 cs1 -> calls_ok 16 cs2 -> length iv = 16%nat ->
  let T := fun i io o oo len st => OFB_Transform E (Some i) io o oo len st in
  exists outs1 ds1 st1, history T cs1 iv = Ok (outs1, st1) /\ wrote cs1 outs1 ds1 /\
    (data cs2 = concat ds1 ->
     exists outs2 ds2 st2, history T cs2 iv = Ok (outs2, st2) /\ wrote cs2 outs2 ds2 /\ concat ds2 = data cs1).
Proof.
  intros HE H1 H2 Hiv T.
  destruct (c15_def E cs1 iv HE H1 Hiv) as (outs1 & ds1 & st1 & A1 & A2 & A3).
  exists outs1, ds1, st1. split; [exact A1|]. split; [exact A2|]. intros HD2.
  destruct (c15_def E cs2 iv HE H2 Hiv) as (outs2 & ds2 & st2 & B1 & B2 & B3).
  exists outs2, ds2, st2. split; [exact B1|]. split; [exact B2|]. rewrite B3, HD2, A3.
  destruct (data_len 16 cs1 ltac:(lia) H1) as [q Hq].
  destruct (ofb_inverse E HE (chunks 16 (data cs1)) iv (chunks_len 16 q _ ltac:(lia) Hq) Hiv) as [I1 I2].
  rewrite chunks_concat by (auto; lia). rewrite I1. apply concat_chunks. lia.
Qed.
Lemma c15_in_place E out oo n iv : block_fun E -> (oo + n * 16 <= length out)%nat -> length iv = 16%nat ->
  exists c st st2, OFB_Transform E None oo out oo (n * 16) iv = Ok (c, st) /\ OFB_Transform E None oo c oo (n * 16) iv = Ok (out, st2).
Proof.
  intros HE Ho Hiv.
  set (M := slice out oo (n * 16)). assert (LM : length M = (n * 16)%nat) by (apply length_slice; lia).
  destruct (dd_wf 16 (gof E) (gof_wf E HE) n M iv LM Hiv) as [W1 W2].
  assert (CE : forall X, length X = (n * 16)%nat -> fst (ofd E n X iv) = concat (ofb_crypt E iv (chunks 16 X))).
  { intros X HX. unfold ofd. cbv zeta. cbn [fst]. rewrite <- (blocks_chunks 16 n), gof_spec by lia. reflexivity. }
  destruct (ofb_inverse E HE (chunks 16 M) iv (chunks_len 16 n M ltac:(lia) LM) Hiv) as [I1 I2].
  change (dd 16 (gof E) n M iv) with (ofd E n M iv) in W1.
  exists (splice out oo (fst (ofd E n M iv))). do 2 eexists. split.
  - apply OFB_Transform_ok; auto. intros _; reflexivity.
  - rewrite OFB_Transform_ok; auto; cbn [src]; rewrite ?length_splice by lia; try lia; [|intros _; reflexivity].
    rewrite slice_splice_here by lia. f_equal. f_equal.
    rewrite (CE (fst (ofd E n M iv)) W1), (CE M LM). rewrite chunks_concat by (auto; lia). rewrite I1, concat_chunks by lia.
    rewrite splice_over by (rewrite ?length_slice; rewrite <- ?(CE M LM); lia). apply splice_slice_id. lia.
Qed.
Lemma c15_throws E inp io out oo len iv : (len mod 16 <> 0)%nat -> OFB_Transform E inp io out oo len iv = Throw InvalidSize.
Proof. intros H. unfold OFB_Transform, guard. destruct (Nat.eqb_spec (len mod 16) 0); [contradiction|reflexivity]. Qed.
