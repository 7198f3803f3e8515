(** CTR and ICM: the parallel path *)
From Coq Require Import Permutation.
From Verif Require Import BaseLemmas Spec_Common Spec_Modes Proofs_Common Model_IntegerTools Proofs_IntegerTools Proofs_IntegerTools2 Model_Modes Proofs_Windows Proofs_Modes Proofs_Modes4.
Open Scope Z_scope.

Section CMP.
  Context (E : list Z -> list Z) (inc : list Z -> res (list Z)) (enc : Z -> list Z).
  Hypothesis HE : block_fun E.
  Hypothesis enc_len : forall v, length (enc v) = 16%nat.
  Hypothesis inc_enc : forall v, inc (enc v) = Ok (enc (v + 1)).

  (** workers at arbitrary positions *)
  Lemma CM_workers_pos incr s p m ord l io out oo v (pos : nat -> Z) :
    (0 < deg p)%nat -> (0 < m)%nat -> pblk p = (deg p * (16 * m))%nat -> schedule (deg p) ord ->
    (oo + pblk p <= length out)%nat -> (io + pblk p <= length l)%nat ->
    (forall i, (i < deg p)%nat -> incr (enc v) (zeros 16) (Z.of_nat (m * i)) = Ok (enc (pos i))) ->
    CM_workers E inc incr s p ord (Some l) io out oo (enc v) =
      Ok (splice out oo (concat (map (fun i => ctr_crypt E enc (pos i) (slice l (io + i * (16 * m)) (16 * m))) (seq 0 (deg p)))),
          enc (pos (deg p - 1)%nat + Z.of_nat m)).
  Proof.
    intros Hd Hm Hp HO Ho Hi HP. unfold CM_workers. rewrite (good_deg p m Hp Hd).
    replace (16 * m / 16)%nat with m by (rewrite Nat.mul_comm, Nat.div_mul; lia).
    set (seg := (16 * m)%nat) in *. rewrite Hp in *.
    assert (B1 : forall i, (i < deg p)%nat -> (io + i * seg + seg <= length l)%nat) by (intros; nia).
    assert (B2 : forall i, (i < deg p)%nat -> (oo + i * seg + seg <= length out)%nat) by (intros; nia).
    assert (BF : blocks_for seg = m).
    { unfold seg. replace (16 * m)%nat with (m * 16 + 0)%nat by lia. rewrite blocks_for_mul. change (blocks_for 0) with 0%nat. lia. }
    rewrite (workers_ok seg (deg p) oo out (fun i => ctr_crypt E enc (pos i) (slice l (io + i * seg) seg))
      (fun i t => if (i =? deg p - 1)%nat then enc (pos (deg p - 1)%nat + Z.of_nat m) else t) (fun t => length t = 16%nat)); auto.
    - cbn [bind]. rewrite fold_last.
      2:{ apply (Permutation_in _ (Permutation_sym HO)). apply in_seq. lia. }
      rewrite wcopy16 by apply enc_len. reflexivity.
    - intros i H. rewrite (ctr_crypt_len E enc HE enc_len). apply length_slice. auto.
    - intros i t H Ht. destruct (i =? deg p - 1)%nat; auto.
    - intros i out' t H L Ht _. rewrite (HP i H). cbn [bind].
      rewrite (CM_Generate_ok E inc enc HE enc_len inc_enc) by (rewrite L; auto). cbn [bind src].
      assert (LK := kst_len E enc HE enc_len seg (pos i)).
      specialize (B1 i H). specialize (B2 i H).
      rewrite wxor_ok by (rewrite ?length_splice; lia). cbn [bind]. rewrite slice_splice_here by lia.
      assert (LS : length (slice l (io + i * seg) seg) = seg) by (apply length_slice; lia).
      rewrite splice_over by (rewrite ?length_xorl; lia).
      rewrite (ctr_crypt_eq E enc HE enc_len), LS, xorl_comm, BF.
      destruct (Nat.eqb_spec i (deg p - 1)) as [->|]; [|reflexivity].
      rewrite wcopy16 by auto. reflexivity.
  Qed.

  Lemma ctr_concat m l io v n : (io + n * (16 * m) <= length l)%nat ->
    concat (map (fun i => ctr_crypt E enc (v + Z.of_nat (m * i)) (slice l (io + i * (16 * m)) (16 * m))) (seq 0 n)) =
    ctr_crypt E enc v (slice l io (n * (16 * m))).
  Proof.
    induction n as [|n IH]; intros H; [reflexivity|].
    rewrite seq_S, map_app, concat_app, IH by lia. cbn [map concat Nat.add]. rewrite app_nil_r.
    replace (S n * (16 * m))%nat with (n * (16 * m) + 16 * m)%nat by lia. rewrite slice_app.
    rewrite (ctr_crypt_app E enc HE enc_len (n * m)) by (rewrite length_slice; lia). do 3 f_equal. lia.
  Qed.

  Lemma CM_workers_ok incr s p m ord l io out oo v :
    (0 < deg p)%nat -> (0 < m)%nat -> pblk p = (deg p * (16 * m))%nat -> schedule (deg p) ord ->
    (oo + pblk p <= length out)%nat -> (io + pblk p <= length l)%nat ->
    (forall i, (i < deg p)%nat -> incr (enc v) (zeros 16) (Z.of_nat (m * i)) = Ok (enc (v + Z.of_nat (m * i)))) ->
    CM_workers E inc incr s p ord (Some l) io out oo (enc v) =
      Ok (splice out oo (ctr_crypt E enc v (slice l io (pblk p))), enc (v + Z.of_nat (pblk p / 16))).
  Proof.
    intros Hd Hm Hp HO Ho Hi HP.
    rewrite (CM_workers_pos incr s p m ord l io out oo v (fun i => v + Z.of_nat (m * i))); auto.
    rewrite ctr_concat by lia. rewrite Hp.
    replace (deg p * (16 * m) / 16)%nat with (deg p * m)%nat.
    2:{ replace (deg p * (16 * m))%nat with (deg p * m * 16)%nat by lia. now rewrite Nat.div_mul. }
    do 3 f_equal. nia.
  Qed.

  (** the parallel processing function [parp] at full blocks *)
  Definition par_exact (p : prof) (parp : list nat -> option (list Z) -> nat -> list Z -> nat -> nat -> list Z -> res (list Z * list Z)) (v : Z) : Prop :=
    forall ord l io out oo, schedule (deg p) ord -> (oo + pblk p <= length out)%nat -> (io + pblk p <= length l)%nat ->
    parp ord (Some l) io out oo (pblk p) (enc v) =
      Ok (splice out oo (ctr_crypt E enc v (slice l io (pblk p))), enc (v + Z.of_nat (pblk p / 16))).

  Lemma CM_Transform_ok parp s p ord l io out oo len v :
    (oo + len <= length out)%nat -> (io + len <= length l)%nat ->
    (par p = true -> (pblk p <= len)%nat -> good_profile (deg p) (pblk p) /\ (forall i, schedule (deg p) (ord i)) /\
      forall k, (k < len / pblk p)%nat -> par_exact p parp (v + Z.of_nat (k * (pblk p / 16)))) ->
    CM_Transform (CM_ProcessSequential E inc s) parp p ord (Some l) io out oo len (enc v) =
    Ok (splice out oo (ctr_crypt E enc v (slice l io len)), enc (v + Z.of_nat (blocks_for len))).
  Proof.
    intros Ho Hi HP. unfold CM_Transform.
    destruct (par p && (pblk p <=? len)%nat) eqn:C.
    2:{ rewrite (CM_seq_gen E inc enc HE enc_len inc_enc); auto. discriminate. }
    apply andb_true_iff in C. destruct C as [C1 C2]. apply Nat.leb_le in C2. destruct (HP C1 C2) as ((m & Hm & Hd & Hp) & HO & HX).
    set (pb := (deg p * m)%nat). assert (P16 : pblk p = (pb * 16)%nat) by (unfold pb; lia).
    assert (Hpb : (0 < pb)%nat) by (unfold pb; nia).
    assert (PD : (pblk p / 16 = pb)%nat) by (rewrite P16, Nat.div_mul; lia). unfold par_exact in HX. rewrite PD in HX.
    unfold safe. destruct (Nat.eqb_spec (pblk p) 0) as [Q|Q]; [lia|]. cbn [negb bind].
    set (cnt := (len / pblk p)%nat) in *.
    assert (Hc : (cnt * pblk p <= len)%nat) by (rewrite Nat.mul_comm; unfold cnt; apply Nat.mul_div_le; lia).
    clearbody cnt pb. clear Hp HP C1 C2.
    set (step := fun i st => let '(out, ctr) := st in parp (ord i) (Some l) (io + i * pblk p)%nat out (oo + i * pblk p)%nat (pblk p) ctr).
    assert (L : forall n a done, (a + n <= cnt)%nat -> length done = (a * pblk p)%nat ->
      for_up a n step (splice out oo done, enc (v + Z.of_nat (a * pb))) =
      Ok (splice out oo (done ++ ctr_crypt E enc (v + Z.of_nat (a * pb)) (slice l (io + a * pblk p) (n * pblk p))), enc (v + Z.of_nat ((a + n) * pb)))).
    { induction n as [|n IH]; intros a done Ha HD; cbn [for_up].
      - cbn. rewrite app_nil_r, Nat.add_0_r. reflexivity.
      - assert (a * pblk p + pblk p + n * pblk p <= len)%nat by nia.
        unfold step at 1. rewrite HX by (auto; try (rewrite length_splice); lia). cbn [bind].
        assert (LS : length (slice l (io + a * pblk p) (pblk p)) = pblk p) by (apply length_slice; lia).
        pose proof (splice_splice_next out oo done (ctr_crypt E enc (v + Z.of_nat (a * pb)) (slice l (io + a * pblk p) (pblk p)))) as SS.
        rewrite (ctr_crypt_len E enc HE enc_len) in SS. rewrite HD, LS in SS. rewrite SS by lia.
        replace (v + Z.of_nat (a * pb) + Z.of_nat pb) with (v + Z.of_nat (S a * pb)) by lia.
        rewrite IH; [|lia|rewrite app_length, (ctr_crypt_len E enc HE enc_len); lia].
        do 2 f_equal; [|f_equal; lia]. f_equal. rewrite <- app_assoc. f_equal.
        replace (S n * pblk p)%nat with (pblk p + n * pblk p)%nat by lia. rewrite slice_app.
        rewrite (ctr_crypt_app E enc HE enc_len pb) by lia.
        replace (v + Z.of_nat (a * pb) + Z.of_nat pb) with (v + Z.of_nat (S a * pb)) by lia.
        replace (io + a * pblk p + pblk p)%nat with (io + S a * pblk p)%nat by lia. reflexivity. }
    specialize (L cnt 0%nat [] ltac:(lia) eq_refl). rewrite splice_nil in L. cbn [app] in L.
    rewrite Nat.mul_0_l in L. cbn [Nat.add] in L. rewrite Z.add_0_r, Nat.add_0_r, ?Nat.mul_0_l, ?Nat.add_0_r in L.
    change (for_up 0 cnt _ _) with (for_up 0 cnt step (out, enc v)). rewrite L. cbn [bind].
    set (K := (cnt * pb)%nat). assert (HK : (cnt * pblk p = K * 16)%nat) by (unfold K; rewrite P16; lia).
    rewrite (Nat.mul_comm (pblk p) cnt), HK in *. clearbody K.
    assert (LS : length (slice l io (K * 16)) = (K * 16)%nat) by (apply length_slice; lia).
    assert (BK : blocks_for len = (K + blocks_for (len - K * 16))%nat) by (rewrite <- blocks_for_mul; f_equal; lia).
    destruct (Nat.eqb_spec (len - K * 16) 0) as [Z0|Z0].
    - assert (len = (K * 16)%nat) by lia. subst len. rewrite Z0 in BK. change (blocks_for 0) with 0%nat in BK.
      rewrite BK, Nat.add_0_r. reflexivity.
    - rewrite (CM_seq_gen E inc enc HE enc_len inc_enc); cbn [src]; try discriminate; try lia.
      2:{ rewrite length_splice; rewrite ?(ctr_crypt_len E enc HE enc_len); lia. }
      pose proof (splice_splice_next out oo (ctr_crypt E enc v (slice l io (K * 16)))
        (ctr_crypt E enc (v + Z.of_nat K) (slice l (io + K * 16) (len - K * 16)))) as SS.
      rewrite !(ctr_crypt_len E enc HE enc_len) in SS. rewrite LS in SS. rewrite SS by (rewrite length_slice; lia).
      rewrite <- (ctr_crypt_app E enc HE enc_len K) by lia. rewrite <- slice_app.
      rewrite BK. replace (K * 16 + (len - K * 16))%nat with len by lia. do 3 f_equal. lia.
  Qed.
End CMP.

(** ** the two encodings *)
Lemma le_bytes_mod n : forall x, le_bytes n (x mod 256 ^ Z.of_nat n) = le_bytes n x.
Proof.
  intros x. apply le_val_inj; try apply bytes_le_bytes.
  - now rewrite !length_le_bytes.
  - rewrite !le_val_le_bytes. apply Z.mod_mod. pose proof (Z.pow_pos_nonneg 256 (Z.of_nat n)). lia.
Qed.
Lemma be_bytes_mod n x : be_bytes n (x mod 256 ^ Z.of_nat n) = be_bytes n x.
Proof. unfold be_bytes. now rewrite le_bytes_mod. Qed.
Lemma le_bytes_cong n x y : x mod 256 ^ Z.of_nat n = y mod 256 ^ Z.of_nat n -> le_bytes n x = le_bytes n y.
Proof. intros H. rewrite <- (le_bytes_mod n x), <- (le_bytes_mod n y), H. reflexivity. Qed.
Lemma be_bytes_cong n x y : x mod 256 ^ Z.of_nat n = y mod 256 ^ Z.of_nat n -> be_bytes n x = be_bytes n y.
Proof. intros H. unfold be_bytes. f_equal. now apply le_bytes_cong. Qed.

Lemma be_enc_inc v : BeIncrement8 (be_bytes 16 v) = Ok (be_bytes 16 (v + 1)).
Proof.
  rewrite BeIncrement8_correct; [|apply bytes_be_bytes|].
  - rewrite length_be_bytes, be_val_be_bytes. f_equal. apply be_bytes_cong. apply Zplus_mod_idemp_l.
  - intros H. apply (f_equal (@length Z)) in H. rewrite length_be_bytes in H. discriminate.
Qed.
Lemma le_enc_inc v : LeIncrement (le_bytes 16 v) = Ok (le_bytes 16 (v + 1)).
Proof.
  rewrite LeIncrement_correct by apply bytes_le_bytes.
  rewrite length_le_bytes, le_val_le_bytes. f_equal. apply le_bytes_cong. apply Zplus_mod_idemp_l.
Qed.

Lemma pow_mod_pow x (j : nat) : (j <= 16)%nat -> (x mod 256 ^ Z.of_nat 16) mod 256 ^ Z.of_nat j = x mod 256 ^ Z.of_nat j.
Proof.
  intros H. assert (A : 256 ^ Z.of_nat 16 = 256 ^ Z.of_nat j * 256 ^ (Z.of_nat 16 - Z.of_nat j)) by (rewrite <- Z.pow_add_r by lia; f_equal; lia).
  symmetry. apply Znumtheory.Zmod_div_mod; try (apply Z.pow_pos_nonneg; lia). rewrite A. exists (256 ^ (Z.of_nat 16 - Z.of_nat j)). ring.
Qed.
Lemma lost_carry_spec v d : 0 <= d -> lost_carry 16 (v mod 256 ^ Z.of_nat 16) d <-> carry_into_ff v d.
Proof.
  intros Hd. unfold lost_carry, carry_into_ff. split; intros (j & A & B & C); exists j; (split; [exact A|split; [exact B|]]);
    rewrite pow_mod_pow in * by lia; exact C.
Qed.
Lemma be_enc_increase v d : 0 <= d < 2 ^ 32 -> ~ carry_into_ff v d ->
  BeIncrease8 4 (be_bytes 16 v) (zeros 16) d = Ok (be_bytes 16 (v + d)).
Proof.
  intros Hd HL. destruct (BeIncrease8_spec 4 (be_bytes 16 v) (zeros 16) d) as (r & E & B & L & I).
  - apply bytes_be_bytes.
  - intros H. apply (f_equal (@length Z)) in H. rewrite length_be_bytes in H. discriminate.
  - now rewrite length_be_bytes.
  - rewrite E. f_equal. rewrite length_be_bytes in *. rewrite be_val_be_bytes in I.
    rewrite (Z.mod_small d) in I by (change (256 ^ Z.of_nat 4) with (2 ^ 32); lia).
    rewrite <- L in *. 
    assert (V : be_val r = (v mod 256 ^ Z.of_nat 16 + d) mod 256 ^ Z.of_nat 16).
    { rewrite L in I. apply I. rewrite lost_carry_spec by lia. exact HL. }
    rewrite <- (be_bytes_be_val r) by auto. rewrite V, L, be_bytes_mod. apply be_bytes_cong, Zplus_mod_idemp_l.
Qed.
Lemma le_enc_increase v d : 0 <= d < 2 ^ 64 -> ~ carry_into_ff v d ->
  LeIncrease8 8 (le_bytes 16 v) (zeros 16) d = Ok (le_bytes 16 (v + d)).
Proof.
  intros Hd HL. destruct (LeIncrease8_spec 8 (le_bytes 16 v) (zeros 16) d) as (r & E & B & L & I).
  - apply bytes_le_bytes.
  - intros H. apply (f_equal (@length Z)) in H. rewrite length_le_bytes in H. discriminate.
  - now rewrite length_le_bytes.
  - rewrite E. f_equal. rewrite length_le_bytes in *. rewrite le_val_le_bytes in I.
    rewrite (Z.mod_small d) in I by (change (256 ^ Z.of_nat 8) with (2 ^ 64); lia).
    assert (V : le_val r = (v mod 256 ^ Z.of_nat 16 + d) mod 256 ^ Z.of_nat 16).
    { apply I. rewrite lost_carry_spec by lia. exact HL. }
    rewrite <- (le_bytes_le_val r) by auto. rewrite V, L, le_bytes_mod. apply le_bytes_cong, Zplus_mod_idemp_l.
Qed.

(** no worker of any batch meets the hazard *)
Definition positions_ok (lim : Z) (p : prof) (len : nat) (v : Z) : Prop :=
  forall k i, (k < len / pblk p)%nat -> (i < deg p)%nat ->
    Z.of_nat (i * (pblk p / deg p / 16)) < lim /\
    ~ carry_into_ff (v + Z.of_nat (k * (pblk p / 16))) (Z.of_nat (i * (pblk p / deg p / 16))).

Lemma proc_tail_none p m (out : list Z) oo : pblk p = (deg p * (16 * m))%nat -> (0 < deg p)%nat -> (oo + pblk p <= length out)%nat ->
  (pblk p / deg p * deg p <? (if length out - oo <? pblk p then length out - oo else pblk p))%nat = false.
Proof.
  intros Hp Hd Ho. rewrite (good_deg p m Hp Hd).
  destruct (Nat.ltb_spec (length out - oo) (pblk p)); [lia|]. apply Nat.ltb_ge. rewrite Hp. lia.
Qed.
Lemma CTR_par_exact E s p v : block_fun E -> good_profile (deg p) (pblk p) ->
  (forall i, (i < deg p)%nat -> Z.of_nat (i * (pblk p / deg p / 16)) < 2 ^ 32 /\ ~ carry_into_ff v (Z.of_nat (i * (pblk p / deg p / 16)))) ->
  par_exact E (be_bytes 16) p (CTR_ProcessParallel E s p) v.
Proof.
  intros HE (m & Hm & Hd & Hp) HX ord l io out oo HO Ho Hi. unfold CTR_ProcessParallel, safe.
  destruct (Nat.eqb_spec (deg p) 0); [lia|]. cbn [negb bind]. rewrite (proc_tail_none p m) by auto.
  rewrite (CM_workers_ok E BeIncrement8 (be_bytes 16) HE (length_be_bytes 16) be_enc_inc _ s p m); auto.
  rewrite (good_deg p m Hp Hd) in HX. replace (16 * m / 16)%nat with m in HX by (rewrite Nat.mul_comm, Nat.div_mul; lia).
  intros i H. destruct (HX i H) as [A B]. rewrite Nat.mul_comm. apply be_enc_increase; [lia|exact B].
Qed.
Lemma ICM_par_exact E s p v : block_fun E -> good_profile (deg p) (pblk p) ->
  (forall i, (i < deg p)%nat -> Z.of_nat (i * (pblk p / deg p / 16)) < 2 ^ 64 /\ ~ carry_into_ff v (Z.of_nat (i * (pblk p / deg p / 16)))) ->
  par_exact E (le_bytes 16) p (ICM_ProcessParallel E s p) v.
Proof.
  intros HE (m & Hm & Hd & Hp) HX ord l io out oo HO Ho Hi. unfold ICM_ProcessParallel, safe.
  destruct (Nat.eqb_spec (deg p) 0); [lia|]. cbn [negb bind]. rewrite (proc_tail_none p m) by auto.
  rewrite (CM_workers_ok E LeIncrement (le_bytes 16) HE (length_le_bytes 16) le_enc_inc _ s p m); auto.
  rewrite (good_deg p m Hp Hd) in HX. replace (16 * m / 16)%nat with m in HX by (rewrite Nat.mul_comm, Nat.div_mul; lia).
  intros i H. destruct (HX i H) as [A B]. rewrite Nat.mul_comm. apply le_enc_increase; [lia|exact B].
Qed.

Lemma CTR_Transform_ok E s p ord l io out oo len ctr : block_fun E -> bytes ctr -> length ctr = 16%nat ->
  (oo + len <= length out)%nat -> (io + len <= length l)%nat ->
  (par p = true -> (pblk p <= len)%nat -> good_profile (deg p) (pblk p) /\ (forall i, schedule (deg p) (ord i)) /\
     positions_ok (2 ^ 32) p len (be_val ctr)) ->
  CTR_Transform E s p ord (Some l) io out oo len ctr =
  Ok (splice out oo (ctr_crypt E (be_bytes 16) (be_val ctr) (slice l io len)), be_bytes 16 (be_val ctr + Z.of_nat (blocks_for len))).
Proof.
  intros HE Hb Hc Ho Hi HP. unfold CTR_Transform.
  assert (EC : ctr = be_bytes 16 (be_val ctr)) by (rewrite <- Hc; symmetry; now apply be_bytes_be_val).
  rewrite EC at 1.
  apply (CM_Transform_ok E BeIncrement8 (be_bytes 16) HE (length_be_bytes 16) be_enc_inc); auto.
  intros C1 C2. destruct (HP C1 C2) as (G & HO & PO). split; [exact G|]. split; [exact HO|].
  intros k Hk. apply CTR_par_exact; auto.
Qed.
Lemma ICM_Transform_ok E s p ord l io out oo len ctr : block_fun E -> bytes ctr -> length ctr = 16%nat ->
  (oo + len <= length out)%nat -> (io + len <= length l)%nat ->
  (par p = true -> (pblk p <= len)%nat -> good_profile (deg p) (pblk p) /\ (forall i, schedule (deg p) (ord i)) /\
     positions_ok (2 ^ 64) p len (le_val ctr)) ->
  ICM_Transform E s p ord (Some l) io out oo len ctr =
  Ok (splice out oo (ctr_crypt E (le_bytes 16) (le_val ctr) (slice l io len)), le_bytes 16 (le_val ctr + Z.of_nat (blocks_for len))).
Proof.
  intros HE Hb Hc Ho Hi HP. unfold ICM_Transform.
  assert (EC : ctr = le_bytes 16 (le_val ctr)) by (rewrite <- Hc; symmetry; now apply le_bytes_le_val).
  rewrite EC at 1.
  apply (CM_Transform_ok E LeIncrement (le_bytes 16) HE (length_le_bytes 16) le_enc_inc); auto.
  intros C1 C2. destruct (HP C1 C2) as (G & HO & PO). split; [exact G|]. split; [exact HO|].
  intros k Hk. apply ICM_par_exact; auto.
Qed.
