From Coq Require Import Permutation.
From Verif Require Import BaseLemmas Spec_Common Spec_Modes Proofs_Common Model_IntegerTools Proofs_IntegerTools Proofs_IntegerTools2 Model_Modes Proofs_Windows Proofs_Modes Proofs_Modes2 Proofs_Modes3 Proofs_Modes4 Proofs_Modes5 ProofsP_Modes ProofsP_Modes2.
Open Scope Z_scope.

(** ** C18 *)
Definition seq_prof : prof := {| par := false; pblk := 0; deg := 0 |}.
Lemma c18_ctr E s s' p ord l io out oo len ctr : block_fun E -> bytes ctr -> length ctr = 16%nat ->
  (oo + len <= length out)%nat -> (io + len <= length l)%nat -> good_profile (deg p) (pblk p) -> (forall i, schedule (deg p) (ord i)) ->
  (forall k i, (k < len / pblk p)%nat -> (i < deg p)%nat ->
    let d := Z.of_nat (i * (pblk p / deg p / 16)) in
    d < 2 ^ 32 /\ ~ carry_into_ff (value_be ctr + Z.of_nat (k * (pblk p / 16))) d) ->
  CTR_Transform E s p ord (Some l) io out oo len ctr =
  CTR_Transform E s' {| par := false; pblk := pblk p; deg := deg p |} ord (Some l) io out oo len ctr.
Proof.
  intros HE Hb Hc Ho Hi HG HO HP. rewrite value_be_eq in HP. rewrite !CTR_Transform_ok; auto; cbn [par]; discriminate.
Qed.
Lemma c18_icm E s s' p ord l io out oo len ctr : block_fun E -> bytes ctr -> length ctr = 16%nat ->
  (oo + len <= length out)%nat -> (io + len <= length l)%nat -> good_profile (deg p) (pblk p) -> (forall i, schedule (deg p) (ord i)) ->
  (forall k i, (k < len / pblk p)%nat -> (i < deg p)%nat ->
    let d := Z.of_nat (i * (pblk p / deg p / 16)) in
    d < 2 ^ 64 /\ ~ carry_into_ff (value_le ctr + Z.of_nat (k * (pblk p / 16))) d) ->
  ICM_Transform E s p ord (Some l) io out oo len ctr =
  ICM_Transform E s' {| par := false; pblk := pblk p; deg := deg p |} ord (Some l) io out oo len ctr.
Proof.
  intros HE Hb Hc Ho Hi HG HO HP. rewrite value_le_eq in HP. rewrite !ICM_Transform_ok; auto; cbn [par]; discriminate.
Qed.
Lemma c18_ctr_small E s s' p ord l io out oo len ctr : block_fun E -> bytes ctr -> length ctr = 16%nat ->
  (oo + len <= length out)%nat -> (io + len <= length l)%nat -> good_profile (deg p) (pblk p) -> (forall i, schedule (deg p) (ord i)) ->
  Z.of_nat (pblk p) <= 1044480 ->
  CTR_Transform E s p ord (Some l) io out oo len ctr =
  CTR_Transform E s' {| par := false; pblk := pblk p; deg := deg p |} ord (Some l) io out oo len ctr.
Proof.
  intros. apply c18_ctr; auto. intros k i Hk Hi. apply (small_positions (2 ^ 32) p len (value_be ctr)); auto. lia.
Qed.
Lemma c18_icm_small E s s' p ord l io out oo len ctr : block_fun E -> bytes ctr -> length ctr = 16%nat ->
  (oo + len <= length out)%nat -> (io + len <= length l)%nat -> good_profile (deg p) (pblk p) -> (forall i, schedule (deg p) (ord i)) ->
  Z.of_nat (pblk p) <= 1044480 ->
  ICM_Transform E s p ord (Some l) io out oo len ctr =
  ICM_Transform E s' {| par := false; pblk := pblk p; deg := deg p |} ord (Some l) io out oo len ctr.
Proof.
  intros. apply c18_icm; auto. intros k i Hk Hi. apply (small_positions (2 ^ 64) p len (value_le ctr)); auto. lia.
Qed.

Lemma nth_map_seq (f : nat -> Z) n i : (i < n)%nat -> nth i (map f (seq 0 n)) 0 = f i.
Proof.
  intros H. rewrite (nth_indep (map f (seq 0 n)) 0 (f 0%nat)) by (rewrite map_length, seq_length; lia).
  rewrite map_nth, seq_nth by lia. reflexivity.
Qed.
(** ** one batch with arbitrary worker positions *)
Section Batch.
  Context (E : list Z -> list Z) (enc : Z -> list Z).
  Hypothesis HE : block_fun E.
  Hypothesis enc_len : forall v, length (enc v) = 16%nat.
  Lemma ctr_block v msg j : (16 * j + 16 <= length msg)%nat ->
    slice (ctr_crypt E enc v msg) (16 * j) 16 = xorl (slice msg (16 * j) 16) (E (enc (v + Z.of_nat j))).
  Proof using HE enc_len.
    intros H. assert (LE : length (E (enc (v + Z.of_nat j))) = 16%nat) by (apply HE, enc_len).
    assert (LC := ctr_crypt_len E enc HE enc_len v msg).
    rewrite xorl_map_seq by (rewrite length_slice; lia). rewrite length_slice by lia.
    apply (list_ext 0); [rewrite length_slice by lia; now rewrite map_length, seq_length|].
    rewrite length_slice by lia. intros i Hi. rewrite nth_slice by lia. unfold ctr_crypt.
    rewrite !nth_map_seq by lia.
    rewrite nth_slice by lia. f_equal.
    replace (16 * j + i)%nat with (j * 16 + i)%nat by lia. rewrite Nat.div_add_l, (Nat.add_comm (j * 16)), Nat.mod_add by lia.
    rewrite Nat.mod_small, Nat.div_small by lia. do 4 f_equal. lia.
  Qed.
  Lemma slice_zeros a b n : (b + n <= a)%nat -> slice (zeros a) b n = zeros n.
  Proof using. intros H. unfold zeros. apply (list_ext 0); [rewrite length_slice; rewrite repeat_length; lia|].
    rewrite length_slice by (rewrite repeat_length; lia). intros i Hi. rewrite nth_slice by (rewrite ?repeat_length; lia). now rewrite !nth_repeat. Qed.
  Lemma ctr_zero_block v n j : (16 * j + 16 <= n)%nat -> slice (ctr_crypt E enc v (zeros n)) (16 * j) 16 = E (enc (v + Z.of_nat j)).
  Proof using HE enc_len.
    intros H. assert (L : length (zeros n) = n) by apply repeat_length.
    rewrite ctr_block by lia. rewrite slice_zeros by lia. rewrite xorl_comm.
    pose proof (xorl_zeros (E (enc (v + Z.of_nat j)))) as X. rewrite (HE _ (enc_len _)) in X. now apply X.
  Qed.
End Batch.

Lemma CTR_batch E s p ord l io out oo v m pos : block_fun E -> par p = true ->
  (0 < deg p)%nat -> (0 < m)%nat -> pblk p = (deg p * (16 * m))%nat -> schedule (deg p) (ord 0%nat) ->
  (oo + pblk p <= length out)%nat -> (io + pblk p <= length l)%nat ->
  (forall i, (i < deg p)%nat -> BeIncrease8 4 (be_bytes 16 v) (zeros 16) (Z.of_nat (m * i)) = Ok (be_bytes 16 (pos i))) ->
  CTR_Transform E s p ord (Some l) io out oo (pblk p) (be_bytes 16 v) =
    Ok (splice out oo (concat (map (fun i => ctr_crypt E (be_bytes 16) (pos i) (slice l (io + i * (16 * m)) (16 * m))) (seq 0 (deg p)))),
        be_bytes 16 (pos (deg p - 1)%nat + Z.of_nat m)).
Proof.
  intros HE Hpar Hd Hm Hp HO Ho Hi HP. unfold CTR_Transform, CM_Transform. rewrite Hpar, Nat.leb_refl. cbn [andb].
  assert (0 < pblk p)%nat by nia. unfold safe. destruct (Nat.eqb_spec (pblk p) 0); [lia|]. cbn [negb bind].
  rewrite Nat.div_same by lia. cbn [for_up]. rewrite Nat.mul_0_l, !Nat.add_0_r.
  unfold CTR_ProcessParallel, safe. destruct (Nat.eqb_spec (deg p) 0); [lia|]. cbn [negb bind]. rewrite (proc_tail_none p m) by auto.
  rewrite (CM_workers_pos E BeIncrement8 (be_bytes 16) HE (length_be_bytes 16) be_enc_inc _ s p m _ l io out oo v pos); auto.
  cbn [bind]. rewrite Nat.mul_1_r, Nat.sub_diag. reflexivity.
Qed.
Lemma ICM_batch E s p ord l io out oo v m pos : block_fun E -> par p = true ->
  (0 < deg p)%nat -> (0 < m)%nat -> pblk p = (deg p * (16 * m))%nat -> schedule (deg p) (ord 0%nat) ->
  (oo + pblk p <= length out)%nat -> (io + pblk p <= length l)%nat ->
  (forall i, (i < deg p)%nat -> LeIncrease8 8 (le_bytes 16 v) (zeros 16) (Z.of_nat (m * i)) = Ok (le_bytes 16 (pos i))) ->
  ICM_Transform E s p ord (Some l) io out oo (pblk p) (le_bytes 16 v) =
    Ok (splice out oo (concat (map (fun i => ctr_crypt E (le_bytes 16) (pos i) (slice l (io + i * (16 * m)) (16 * m))) (seq 0 (deg p)))),
        le_bytes 16 (pos (deg p - 1)%nat + Z.of_nat m)).
Proof.
  intros HE Hpar Hd Hm Hp HO Ho Hi HP. unfold ICM_Transform, CM_Transform. rewrite Hpar, Nat.leb_refl. cbn [andb].
  assert (0 < pblk p)%nat by nia. unfold safe. destruct (Nat.eqb_spec (pblk p) 0); [lia|]. cbn [negb bind].
  rewrite Nat.div_same by lia. cbn [for_up]. rewrite Nat.mul_0_l, !Nat.add_0_r.
  unfold ICM_ProcessParallel, safe. destruct (Nat.eqb_spec (deg p) 0); [lia|]. cbn [negb bind]. rewrite (proc_tail_none p m) by auto.
  rewrite (CM_workers_pos E LeIncrement (le_bytes 16) HE (length_le_bytes 16) le_enc_inc _ s p m _ l io out oo v pos); auto.
  cbn [bind]. rewrite Nat.mul_1_r, Nat.sub_diag. reflexivity.
Qed.

(** ** the lost-carry witness: two workers of 65281 blocks each, counter 255 *)
Lemma bad_m_ex : {m : nat | Z.of_nat m = 65281}.
Proof. exists (Z.to_nat 65281). apply Z2Nat.id. discriminate. Qed.
Definition bad_m : nat := proj1_sig bad_m_ex.
Definition bad_prof : prof := {| par := true; pblk := 2 * (16 * bad_m); deg := 2 |}.
Definition bad_pos (i : nat) : Z := if (i =? 0)%nat then 255 else 0.
Lemma bad_m_val : Z.of_nat bad_m = 65281.
Proof. exact (proj2_sig bad_m_ex). Qed.
Lemma bad_good : good_profile (deg bad_prof) (pblk bad_prof).
Proof. exists bad_m. pose proof bad_m_val. cbn [deg pblk bad_prof]. repeat split; lia. Qed.
Lemma bad_be i : (i < 2)%nat -> BeIncrease8 4 (be_bytes 16 255) (zeros 16) (Z.of_nat (bad_m * i)) = Ok (be_bytes 16 (bad_pos i)).
Proof.
  intros H. rewrite Nat2Z.inj_mul, bad_m_val. destruct i as [|[|i]]; [| |lia].
  - change (65281 * Z.of_nat 0) with 0. vm_compute. reflexivity.
  - change (65281 * Z.of_nat 1) with 65281. vm_compute. reflexivity.
Qed.
Lemma bad_le i : (i < 2)%nat -> LeIncrease8 8 (le_bytes 16 255) (zeros 16) (Z.of_nat (bad_m * i)) = Ok (le_bytes 16 (bad_pos i)).
Proof.
  intros H. rewrite Nat2Z.inj_mul, bad_m_val. destruct i as [|[|i]]; [| |lia].
  - change (65281 * Z.of_nat 0) with 0. vm_compute. reflexivity.
  - change (65281 * Z.of_nat 1) with 65281. vm_compute. reflexivity.
Qed.
Lemma slice_app_l {A} (a b : list A) o n : (o + n <= length a)%nat -> slice (a ++ b) o n = slice a o n.
Proof. intros H. unfold slice. rewrite skipn_app, firstn_app. rewrite skipn_length. replace (n - (length a - o))%nat with 0%nat by lia. rewrite firstn_O. apply app_nil_r. Qed.
Lemma slice_app_r {A} (a b : list A) o n : slice (a ++ b) (length a + o) n = slice b o n.
Proof. unfold slice. rewrite skipn_app, skipn_all2 by lia. cbn [app]. do 2 f_equal. lia. Qed.
Section Bad.
  Context (E : list Z -> list Z) (enc : Z -> list Z).
  Hypothesis HE : block_fun E.
  Hypothesis enc_len : forall v, length (enc v) = 16%nat.
  Let N := (2 * (16 * bad_m))%nat.
  Let D := concat (map (fun i => ctr_crypt E enc (bad_pos i) (slice (zeros N) (0 + i * (16 * bad_m)) (16 * bad_m))) (seq 0 2)).
  Lemma bad_D : D = ctr_crypt E enc 255 (zeros (16 * bad_m)) ++ ctr_crypt E enc 0 (zeros (16 * bad_m)).
  Proof using HE enc_len.
    unfold D. cbn [seq map concat]. rewrite app_nil_r. rewrite !slice_zeros by (unfold N; lia). reflexivity.
  Qed.
  Lemma bad_block a b : (16 * a + 16 <= 16 * bad_m)%nat -> (16 * b + 16 <= 16 * bad_m)%nat ->
    slice (splice (zeros N) 0 D) (16 * a) 16 = E (enc (255 + Z.of_nat a)) /\
    slice (splice (zeros N) 0 D) (16 * (bad_m + b)) 16 = E (enc (Z.of_nat b)).
  Proof using HE enc_len.
    intros Ha Hb. rewrite bad_D. assert (LZ : length (zeros (16 * bad_m)) = (16 * bad_m)%nat) by apply repeat_length.
    assert (L1 := ctr_crypt_len E enc HE enc_len 255 (zeros (16 * bad_m))).
    assert (L2 := ctr_crypt_len E enc HE enc_len 0 (zeros (16 * bad_m))). rewrite LZ in L1, L2.
    assert (LN : length (zeros N) = N) by apply repeat_length.
    rewrite splice_all by (rewrite app_length; unfold N in *; lia). split.
    - rewrite slice_app_l by lia. now apply ctr_zero_block.
    - assert (Q : (16 * (bad_m + b) = length (ctr_crypt E enc 255 (zeros (16 * bad_m))) + 16 * b)%nat) by (rewrite L1; clear; lia).
      rewrite Q, slice_app_r. rewrite ctr_zero_block; auto.
  Qed.
End Bad.
Lemma sched2 (ord : list nat) : schedule (deg bad_prof) ord -> schedule 2 ord.
Proof. auto. Qed.
Lemma bad_batch_be E s ord : block_fun E -> schedule (deg bad_prof) (ord 0%nat) ->
  CTR_Transform E s bad_prof ord (Some (zeros (pblk bad_prof))) 0 (zeros (pblk bad_prof)) 0 (pblk bad_prof) (be_bytes 16 255) =
    Ok (splice (zeros (pblk bad_prof)) 0 (concat (map (fun i => ctr_crypt E (be_bytes 16) (bad_pos i) (slice (zeros (pblk bad_prof)) (0 + i * (16 * bad_m)) (16 * bad_m))) (seq 0 (deg bad_prof)))),
        be_bytes 16 (bad_pos (deg bad_prof - 1)%nat + Z.of_nat bad_m)).
Proof.
  intros HE HO. pose proof bad_m_val as BM.
  assert (LN : length (zeros (pblk bad_prof)) = pblk bad_prof) by apply repeat_length.
  apply (CTR_batch E s bad_prof ord _ 0 _ 0 255 bad_m bad_pos).
  - exact HE.
  - reflexivity.
  - cbn [deg bad_prof]. lia.
  - lia.
  - reflexivity.
  - exact HO.
  - rewrite LN. lia.
  - rewrite LN. lia.
  - exact bad_be.
Qed.
Lemma c17_reuse_ctr : exists p nonce, par p = true /\ good_profile (deg p) (pblk p) /\ bytes nonce /\ length nonce = 16%nat /\
  forall E s ord, block_fun E -> schedule (deg p) (ord 0%nat) ->
  exists out' st a b, CTR_Transform E s p ord (Some (zeros (pblk p))) 0 (zeros (pblk p)) 0 (pblk p) nonce = Ok (out', st) /\
    a <> b /\ (16 * a + 16 <= pblk p)%nat /\ (16 * b + 16 <= pblk p)%nat /\ slice out' (16 * a) 16 = slice out' (16 * b) 16.
Proof.
  exists bad_prof, (be_bytes 16 255). split; [reflexivity|]. split; [apply bad_good|]. split; [apply bytes_be_bytes|]. split; [reflexivity|].
  intros E s ord HE HO. pose proof bad_m_val as BM.
  assert (LN : length (zeros (pblk bad_prof)) = pblk bad_prof) by apply repeat_length.
  destruct (bad_block E (be_bytes 16) HE (length_be_bytes 16) 0 255) as [B1 B2]; [lia|lia|].
  do 2 eexists. exists 0%nat, (bad_m + 255)%nat. split; [|split; [|split; [|split]]].
  - exact (bad_batch_be E s ord HE HO).
  - lia.
  - cbn [pblk bad_prof]; lia.
  - cbn [pblk bad_prof]; lia.
  - change (pblk bad_prof) with (2 * (16 * bad_m))%nat. change (deg bad_prof) with 2%nat. rewrite B1, B2. reflexivity.
Qed.
Lemma bad_batch_le E s ord : block_fun E -> schedule (deg bad_prof) (ord 0%nat) ->
  ICM_Transform E s bad_prof ord (Some (zeros (pblk bad_prof))) 0 (zeros (pblk bad_prof)) 0 (pblk bad_prof) (le_bytes 16 255) =
    Ok (splice (zeros (pblk bad_prof)) 0 (concat (map (fun i => ctr_crypt E (le_bytes 16) (bad_pos i) (slice (zeros (pblk bad_prof)) (0 + i * (16 * bad_m)) (16 * bad_m))) (seq 0 (deg bad_prof)))),
        le_bytes 16 (bad_pos (deg bad_prof - 1)%nat + Z.of_nat bad_m)).
Proof.
  intros HE HO. pose proof bad_m_val as BM.
  assert (LN : length (zeros (pblk bad_prof)) = pblk bad_prof) by apply repeat_length.
  apply (ICM_batch E s bad_prof ord _ 0 _ 0 255 bad_m bad_pos).
  - exact HE.
  - reflexivity.
  - cbn [deg bad_prof]. lia.
  - lia.
  - reflexivity.
  - exact HO.
  - rewrite LN. lia.
  - rewrite LN. lia.
  - exact bad_le.
Qed.
Lemma c17_reuse_icm : exists p nonce, par p = true /\ good_profile (deg p) (pblk p) /\ bytes nonce /\ length nonce = 16%nat /\
  forall E s ord, block_fun E -> schedule (deg p) (ord 0%nat) ->
  exists out' st a b, ICM_Transform E s p ord (Some (zeros (pblk p))) 0 (zeros (pblk p)) 0 (pblk p) nonce = Ok (out', st) /\
    a <> b /\ (16 * a + 16 <= pblk p)%nat /\ (16 * b + 16 <= pblk p)%nat /\ slice out' (16 * a) 16 = slice out' (16 * b) 16.
Proof.
  exists bad_prof, (le_bytes 16 255). split; [reflexivity|]. split; [apply bad_good|]. split; [apply bytes_le_bytes|]. split; [reflexivity|].
  intros E s ord HE HO. pose proof bad_m_val as BM.
  assert (LN : length (zeros (pblk bad_prof)) = pblk bad_prof) by apply repeat_length.
  destruct (bad_block E (le_bytes 16) HE (length_le_bytes 16) 0 255) as [B1 B2]; [lia|lia|].
  do 2 eexists. exists 0%nat, (bad_m + 255)%nat. split; [|split; [|split; [|split]]].
  - exact (bad_batch_le E s ord HE HO).
  - lia.
  - cbn [pblk bad_prof]; lia.
  - cbn [pblk bad_prof]; lia.
  - change (pblk bad_prof) with (2 * (16 * bad_m))%nat. change (deg bad_prof) with 2%nat. rewrite B1, B2. reflexivity.
Qed.
(** parallel and sequential processing differ for that nonce *)
Lemma c18_refuted_ctr : exists p nonce, par p = true /\ good_profile (deg p) (pblk p) /\ bytes nonce /\ length nonce = 16%nat /\
  forall E s ord, block_fun E -> (forall a b, length a = 16%nat -> length b = 16%nat -> E a = E b -> a = b) -> schedule (deg p) (ord 0%nat) ->
  CTR_Transform E s p ord (Some (zeros (pblk p))) 0 (zeros (pblk p)) 0 (pblk p) nonce <>
  CTR_Transform E s {| par := false; pblk := pblk p; deg := deg p |} ord (Some (zeros (pblk p))) 0 (zeros (pblk p)) 0 (pblk p) nonce.
Proof.
  exists bad_prof, (be_bytes 16 255). split; [reflexivity|]. split; [apply bad_good|]. split; [apply bytes_be_bytes|]. split; [reflexivity|].
  intros E s ord HE Hinj HO. pose proof bad_m_val as BM.
  assert (LN : length (zeros (pblk bad_prof)) = pblk bad_prof) by apply repeat_length.
  destruct (bad_block E (be_bytes 16) HE (length_be_bytes 16) 0 0) as [B1 B2]; [lia|lia|].
  rewrite (bad_batch_be E s ord HE HO).
  rewrite CTR_Transform_ok; [|exact HE|apply bytes_be_bytes|reflexivity|rewrite LN; lia|rewrite LN; lia|cbn [par]; discriminate].
  intros Q. apply (f_equal (fun x => match x with Ok (o, _) => slice o (16 * (bad_m + 0)) 16 | _ => [] end)) in Q. cbv beta iota in Q.
  change (pblk bad_prof) with (2 * (16 * bad_m))%nat in *. change (deg bad_prof) with 2%nat in *. rewrite B2 in Q.
  rewrite slice_all in Q by (symmetry; exact LN). rewrite splice_all in Q by (now rewrite (ctr_crypt_len E (be_bytes 16) HE (length_be_bytes 16))).
  rewrite (ctr_zero_block E (be_bytes 16) HE (length_be_bytes 16)) in Q by lia.
  apply Hinj in Q; try apply length_be_bytes. apply be_inj in Q. rewrite be_val_be_bytes in Q.
  change (256 ^ Z.of_nat 16) with (2 ^ 128) in Q. change (255 mod 2 ^ 128) with 255 in Q.
  rewrite !Z.mod_small in Q by lia. lia.
Qed.
Lemma c18_refuted_icm : exists p nonce, par p = true /\ good_profile (deg p) (pblk p) /\ bytes nonce /\ length nonce = 16%nat /\
  forall E s ord, block_fun E -> (forall a b, length a = 16%nat -> length b = 16%nat -> E a = E b -> a = b) -> schedule (deg p) (ord 0%nat) ->
  ICM_Transform E s p ord (Some (zeros (pblk p))) 0 (zeros (pblk p)) 0 (pblk p) nonce <>
  ICM_Transform E s {| par := false; pblk := pblk p; deg := deg p |} ord (Some (zeros (pblk p))) 0 (zeros (pblk p)) 0 (pblk p) nonce.
Proof.
  exists bad_prof, (le_bytes 16 255). split; [reflexivity|]. split; [apply bad_good|]. split; [apply bytes_le_bytes|]. split; [reflexivity|].
  intros E s ord HE Hinj HO. pose proof bad_m_val as BM.
  assert (LN : length (zeros (pblk bad_prof)) = pblk bad_prof) by apply repeat_length.
  destruct (bad_block E (le_bytes 16) HE (length_le_bytes 16) 0 0) as [B1 B2]; [lia|lia|].
  rewrite (bad_batch_le E s ord HE HO).
  rewrite ICM_Transform_ok; [|exact HE|apply bytes_le_bytes|reflexivity|rewrite LN; lia|rewrite LN; lia|cbn [par]; discriminate].
  intros Q. apply (f_equal (fun x => match x with Ok (o, _) => slice o (16 * (bad_m + 0)) 16 | _ => [] end)) in Q. cbv beta iota in Q.
  change (pblk bad_prof) with (2 * (16 * bad_m))%nat in *. change (deg bad_prof) with 2%nat in *. rewrite B2 in Q.
  rewrite slice_all in Q by (symmetry; exact LN). rewrite splice_all in Q by (now rewrite (ctr_crypt_len E (le_bytes 16) HE (length_le_bytes 16))).
  rewrite (ctr_zero_block E (le_bytes 16) HE (length_le_bytes 16)) in Q by lia.
  apply Hinj in Q; try apply length_le_bytes. apply le_inj in Q. rewrite le_val_le_bytes in Q.
  change (256 ^ Z.of_nat 16) with (2 ^ 128) in Q. change (255 mod 2 ^ 128) with 255 in Q.
  rewrite !Z.mod_small in Q by lia. lia.
Qed.
