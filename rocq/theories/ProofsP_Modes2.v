From Coq Require Import Permutation.
From Verif Require Import BaseLemmas Spec_Common Spec_Modes Proofs_Common Model_IntegerTools Proofs_IntegerTools Proofs_IntegerTools2 Model_Modes Proofs_Windows Proofs_Modes Proofs_Modes2 Proofs_Modes3 Proofs_Modes4 Proofs_Modes5 ProofsP_Modes.
Open Scope Z_scope.

(** ** when the worker positions are exact *)
Lemma small_no_carry v d : 0 <= d < 65280 -> ~ carry_into_ff v d.
Proof.
  intros Hd (j & Hj & A & B). destruct j as [|[|j]].
  - change (256 ^ Z.of_nat 0) with 1 in B. rewrite !Z.mod_1_r in B. lia.
  - change (256 ^ Z.of_nat 1) with 256 in A. lia.
  - assert (P : 65536 <= 256 ^ Z.of_nat (S (S j))).
    { change 65536 with (256 ^ 2). apply Z.pow_le_mono_r; lia. }
    rewrite Z.div_small in A by lia. rewrite Z.mod_0_l in A by lia. discriminate.
Qed.
Definition small_profile (p : prof) (ord : nat -> list nat) : Prop :=
  par p = true -> good_profile (deg p) (pblk p) /\ (forall i, schedule (deg p) (ord i)) /\ Z.of_nat (pblk p) <= 1044480.
Lemma small_positions lim p len v : 65536 <= lim -> good_profile (deg p) (pblk p) -> Z.of_nat (pblk p) <= 1044480 -> positions_ok lim p len v.
Proof.
  intros Hl (m & Hm & Hd & Hp) Hs k i Hk Hi. rewrite (good_deg p m Hp Hd).
  replace (16 * m / 16)%nat with m by (rewrite Nat.mul_comm, Nat.div_mul; lia).
  assert (H : (i * m + m <= deg p * m)%nat) by nia.
  assert (Z.of_nat (i * m) < 65280) by lia. split; [lia|]. apply small_no_carry. lia.
Qed.

(** what both modes satisfy, in terms of the number their counter holds *)
Definition counter_mode (enc : Z -> list Z) (T : (list Z -> list Z) -> list Z -> nat -> list Z -> nat -> nat -> list Z -> res (list Z * list Z)) : Prop :=
  forall E l io out oo len v, block_fun E -> (oo + len <= length out)%nat -> (io + len <= length l)%nat ->
  T E l io out oo len (enc v) = Ok (splice out oo (ctr_crypt E enc v (slice l io len)), enc (v + Z.of_nat (blocks_for len))).
Lemma ctr_val v : 0 <= v -> be_val (be_bytes 16 v) = v mod 2 ^ 128.
Proof. intros. rewrite be_val_be_bytes. reflexivity. Qed.
Lemma crypt_cong E enc v w msg : (forall x y, x mod 2 ^ 128 = y mod 2 ^ 128 -> enc x = enc y) -> v mod 2 ^ 128 = w mod 2 ^ 128 ->
  ctr_crypt E enc v msg = ctr_crypt E enc w msg.
Proof.
  intros H1 H2. unfold ctr_crypt. apply map_ext. intros i. do 3 f_equal. apply H1.
  rewrite (Z.add_mod v), (Z.add_mod w) by lia. now rewrite H2.
Qed.
Lemma ctr_counter_mode s p ord : small_profile p ord ->
  counter_mode (be_bytes 16) (fun E i io o oo len st => CTR_Transform E s p ord (Some i) io o oo len st).
Proof.
  intros SP E l io out oo len v HE Ho Hi. rewrite CTR_Transform_ok; auto.
  - rewrite be_val_be_bytes. f_equal. f_equal.
    + f_equal. apply crypt_cong; [intros; now apply be_bytes_cong|]. apply Z.mod_mod. lia.
    + apply be_bytes_cong. change (256 ^ Z.of_nat 16) with (2 ^ 128). apply Zplus_mod_idemp_l.
  - apply bytes_be_bytes.
  - intros C _. destruct (SP C) as (G & O & S). split; [exact G|]. split; [exact O|]. apply small_positions; auto. lia.
Qed.
Lemma icm_counter_mode s p ord : small_profile p ord ->
  counter_mode (le_bytes 16) (fun E i io o oo len st => ICM_Transform E s p ord (Some i) io o oo len st).
Proof.
  intros SP E l io out oo len v HE Ho Hi. rewrite ICM_Transform_ok; auto.
  - rewrite le_val_le_bytes. f_equal. f_equal.
    + f_equal. apply crypt_cong; [intros; now apply le_bytes_cong|]. apply Z.mod_mod. lia.
    + apply le_bytes_cong. change (256 ^ Z.of_nat 16) with (2 ^ 128). apply Zplus_mod_idemp_l.
  - apply bytes_le_bytes.
  - intros C _. destruct (SP C) as (G & O & S). split; [exact G|]. split; [exact O|]. apply small_positions; auto. lia.
Qed.

Section Generic.
  Context (enc : Z -> list Z) (T : (list Z -> list Z) -> list Z -> nat -> list Z -> nat -> nat -> list Z -> res (list Z * list Z)).
  Hypothesis enc_len : forall v, length (enc v) = 16%nat.
  Hypothesis CMH : counter_mode enc T.

  Lemma ctr_twice E v msg : block_fun E -> ctr_crypt E enc v (ctr_crypt E enc v msg) = msg.
  Proof.
    intros HE. rewrite !(ctr_crypt_eq E enc HE enc_len).
    assert (L := kst_len E enc HE enc_len (length msg) v).
    rewrite length_xorl, L, Nat.min_id. apply xorl_cancel_r. lia.
  Qed.
  Lemma g16_def E l io out oo len v : block_fun E -> (oo + len <= length out)%nat -> (io + len <= length l)%nat ->
    exists out', T E l io out oo len (enc v) = Ok (out', enc (v + Z.of_nat (blocks_for len))) /\
      written out out' oo (ctr_crypt E enc v (slice l io len)).
  Proof.
    intros HE Ho Hi. rewrite CMH by auto. eexists. split; [reflexivity|]. apply splice_written.
    rewrite (ctr_crypt_len E enc HE enc_len), length_slice; lia.
  Qed.
  Lemma g16_twice E l io out oo len out2 oo2 v : block_fun E -> (oo + len <= length out)%nat -> (io + len <= length l)%nat -> (oo2 + len <= length out2)%nat ->
    exists c st r st2, T E l io out oo len (enc v) = Ok (c, st) /\ T E c oo out2 oo2 len (enc v) = Ok (r, st2) /\
      written out2 r oo2 (slice l io len) /\ st2 = st.
  Proof.
    intros HE Ho Hi Ho2. assert (L := ctr_crypt_len E enc HE enc_len v (slice l io len)). rewrite length_slice in L by lia.
    exists (splice out oo (ctr_crypt E enc v (slice l io len))). do 3 eexists. split; [now apply CMH|].
    split; [apply CMH; auto; rewrite length_splice; lia|].
    split; [|reflexivity]. rewrite slice_splice_here by lia. rewrite ctr_twice by auto. apply splice_written. rewrite length_slice; lia.
  Qed.

  Definition ctr_list (v : Z) (n : nat) : list (list Z) := map (fun i => enc (v + Z.of_nat i)) (seq 0 n).
  Lemma ctr_list_len v n : length (ctr_list v n) = n.
  Proof. unfold ctr_list. now rewrite map_length, seq_length. Qed.
  Lemma ctr_list_app v a b : ctr_list v (a + b) = ctr_list v a ++ ctr_list (v + Z.of_nat a) b.
  Proof.
    unfold ctr_list. rewrite seq_app, map_app. f_equal. cbn [Nat.add].
    replace (seq a b) with (map (fun i => (a + i)%nat) (seq 0 b)).
    - rewrite map_map. apply map_ext. intros i. f_equal. lia.
    - clear. revert a; induction b as [|m IH]; intros n; [reflexivity|]. cbn [seq map]. f_equal; [lia|].
      rewrite <- (IH (S n)). rewrite <- seq_shift, map_map. apply map_ext. intros; lia.
  Qed.
  Fixpoint per_call (cs : list call) (v : Z) : list (list (list Z)) :=
    match cs with [] => [] | c :: t => ctr_list v (blocks_for (c_len c)) :: per_call t (v + Z.of_nat (blocks_for (c_len c))) end.
  Lemma per_call_concat cs : forall v, concat (per_call cs v) = ctr_list v (total_blocks cs).
  Proof. induction cs as [|c t IH]; intros v; [reflexivity|]. cbn [per_call concat total_blocks]. now rewrite IH, ctr_list_app. Qed.
  Lemma g_history E : block_fun E -> forall cs v, (forall c, In c cs -> fits c) ->
    exists outs, history (T E) cs (enc v) = Ok (outs, enc (v + Z.of_nat (total_blocks cs))) /\
      length outs = length cs /\ length (per_call cs v) = length cs /\
      forall k c, nth_error cs k = Some c -> length (nth k (per_call cs v) []) = blocks_for (c_len c) /\
        written (c_out c) (nth k outs []) (c_oo c) (xorl (message c) (firstn (c_len c) (concat (map E (nth k (per_call cs v) []))))).
  Proof.
    intros HE. induction cs as [|c t IH]; intros v HF.
    - exists []. cbn [history total_blocks]. split; [rewrite Z.add_0_r; reflexivity|]. split; [reflexivity|]. split; [reflexivity|]. intros k c; destruct k; discriminate.
    - destruct (HF c (or_introl eq_refl)) as [F1 F2].
      destruct (IH (v + Z.of_nat (blocks_for (c_len c))) (fun x Hx => HF x (or_intror Hx))) as (outs & H1 & H2 & H3 & H4).
      cbn [history]. rewrite CMH by auto. cbn [bind snd fst]. rewrite H1. cbn [bind fst snd].
      eexists. split; [cbn [total_blocks]; rewrite Nat2Z.inj_add, Z.add_assoc; reflexivity|].
      split; [cbn [length]; now f_equal|]. split; [cbn [length per_call]; now f_equal|]. intros [|k] x Hx.
      + cbn in Hx. injection Hx as <-. cbn [nth per_call]. split; [apply ctr_list_len|].
        assert (LM : length (message c) = c_len c) by (apply length_slice; lia).
        rewrite (ctr_crypt_eq E enc HE enc_len). fold (message c). rewrite LM. unfold kst.
        replace (concat (map E (ctr_list v (blocks_for (c_len c))))) with (ksb E enc (blocks_for (c_len c)) v).
        2:{ unfold ksb, ctr_list. now rewrite map_map. }
        apply splice_written. rewrite length_xorl, LM. fold (kst E enc (c_len c) v). rewrite (kst_len E enc HE enc_len). lia.
      + cbn in Hx |- *. now apply H4.
  Qed.
  Lemma ctr_list_nodup v n : (forall x y, enc x = enc y -> x mod 2 ^ 128 = y mod 2 ^ 128) -> Z.of_nat n <= 2 ^ 128 -> NoDup (ctr_list v n).
  Proof.
    intros Hinj Hn. unfold ctr_list.
    assert (G : forall a m, (a + m <= n)%nat -> NoDup (map (fun i => enc (v + Z.of_nat i)) (seq a m))).
    { intros a m; revert a; induction m as [|m IH]; intros a Ha; cbn [seq map]; [constructor|]. constructor; [|apply IH; lia].
      intros Hin. apply in_map_iff in Hin. destruct Hin as (j & Ej & Hj). apply in_seq in Hj. apply Hinj in Ej.
      assert (Q : (v + Z.of_nat j) mod 2 ^ 128 - (v + Z.of_nat a) mod 2 ^ 128 = 0) by lia.
      assert (Q2 : (Z.of_nat j - Z.of_nat a) mod 2 ^ 128 = 0).
      { replace (Z.of_nat j - Z.of_nat a) with ((v + Z.of_nat j) - (v + Z.of_nat a)) by lia.
        rewrite Zminus_mod, Q. reflexivity. }
      rewrite Z.mod_small in Q2 by lia. lia. }
    apply (G 0%nat n). lia.
  Qed.
  Lemma g17 cs v : (forall x y, enc x = enc y -> x mod 2 ^ 128 = y mod 2 ^ 128) ->
    (forall c, In c cs -> fits c) -> Z.of_nat (total_blocks cs) <= 2 ^ 128 ->
    exists ctrs : list (list (list Z)), NoDup (concat ctrs) /\ length ctrs = length cs /\
      (forall b, In b (concat ctrs) -> length b = 16%nat) /\
      forall E, block_fun E -> exists outs st, history (T E) cs (enc v) = Ok (outs, st) /\
        forall k c, nth_error cs k = Some c -> length (nth k ctrs []) = blocks_for (c_len c) /\
          written (c_out c) (nth k outs []) (c_oo c) (xorl (message c) (firstn (c_len c) (concat (map E (nth k ctrs []))))).
  Proof.
    intros Hinj HF HT. exists (per_call cs v). rewrite per_call_concat. split; [now apply ctr_list_nodup|].
    split; [clear; revert v; induction cs as [|c t IH]; intros v; cbn; auto|].
    split; [intros b Hb; apply in_map_iff in Hb; destruct Hb as (i & <- & _); apply enc_len|].
    intros E HE. destruct (g_history E HE cs v HF) as (outs & H1 & H2 & H3 & H4). eauto.
  Qed.

  (** block-aligned histories *)
  Lemma g19 E : block_fun E -> forall cs v, aligned cs ->
    exists outs ds st, history (T E) cs (enc v) = Ok (outs, st) /\ wrote cs outs ds /\
      concat ds = ctr_crypt E enc v (data cs) /\ st = enc (v + Z.of_nat (blocks_for (length (data cs)))).
  Proof.
    intros HE. induction cs as [|c t IH]; intros v [HF HM].
    - exists [], [], (enc v). split; [reflexivity|]. split; [|split; [reflexivity|]].
      + split; [reflexivity|]. split; [reflexivity|]. intros k c; destruct k; discriminate.
      + cbn [data map concat length]. change (blocks_for 0) with 0%nat. now rewrite Z.add_0_r.
    - destruct (HF c (or_introl eq_refl)) as [F1 F2].
      assert (LM : length (message c) = c_len c) by (apply length_slice; lia).
      destruct (IH (v + Z.of_nat (blocks_for (c_len c)))) as (outs & ds & st & H1 & H2 & H3 & H4).
      { split; [intros; apply HF; now right|]. intros k x Hx Hk. apply (HM (S k)); auto. cbn; lia. }
      exists (splice (c_out c) (c_oo c) (ctr_crypt E enc v (message c)) :: outs), (ctr_crypt E enc v (message c) :: ds), st.
      assert (LC := ctr_crypt_len E enc HE enc_len v (message c)).
      split; [|split; [|split]].
      + cbn [history]. rewrite CMH by auto. cbn [bind snd fst]. rewrite H1. reflexivity.
      + destruct H2 as (L1 & L2 & L3). split; [cbn; lia|]. split; [cbn; lia|]. intros [|k] x Hx.
        * cbn in Hx. injection Hx as <-. cbn [nth]. split; [lia|]. apply splice_written. lia.
        * cbn in Hx |- *. now apply L3.
      + unfold data. cbn [map concat]. fold (data t). rewrite H3.
        destruct t as [|c2 t].
        * cbn. now rewrite !app_nil_r.
        * assert (M : (c_len c mod 16 = 0)%nat) by (apply (HM 0%nat); auto; cbn; lia).
          set (q := (c_len c / 16)%nat). assert (Q : c_len c = (q * 16)%nat) by (pose proof (Nat.div_mod (c_len c) 16); unfold q; lia).
          rewrite (ctr_crypt_app E enc HE enc_len q) by lia. rewrite Q. replace (q * 16)%nat with (q * 16 + 0)%nat by lia.
          rewrite blocks_for_mul. change (blocks_for 0) with 0%nat. rewrite Nat.add_0_r. reflexivity.
      + unfold data. cbn [map concat]. fold (data t). rewrite H4. f_equal. rewrite app_length, LM.
        destruct t as [|c2 t].
        * cbn. rewrite Nat.add_0_r. change (blocks_for 0) with 0%nat. lia.
        * assert (M : (c_len c mod 16 = 0)%nat) by (apply (HM 0%nat); auto; cbn; lia).
          set (q := (c_len c / 16)%nat). assert (Q : c_len c = (q * 16)%nat) by (pose proof (Nat.div_mod (c_len c) 16); unfold q; lia).
          rewrite Q, blocks_for_mul. replace (q * 16)%nat with (q * 16 + 0)%nat by lia. rewrite blocks_for_mul. change (blocks_for 0) with 0%nat. lia.
  Qed.
End Generic.

Lemma be_inj x y : be_bytes 16 x = be_bytes 16 y -> x mod 2 ^ 128 = y mod 2 ^ 128.
Proof. intros H. apply (f_equal be_val) in H. rewrite !be_val_be_bytes in H. exact H. Qed.
Lemma le_inj x y : le_bytes 16 x = le_bytes 16 y -> x mod 2 ^ 128 = y mod 2 ^ 128.
Proof. intros H. apply (f_equal le_val) in H. rewrite !le_val_le_bytes in H. exact H. Qed.
Lemma as_be ctr : bytes ctr -> length ctr = 16%nat -> ctr = be_bytes 16 (value_be ctr).
Proof. intros H1 H2. rewrite value_be_eq. rewrite <- H2 at 1. symmetry. now apply be_bytes_be_val. Qed.
Lemma as_le ctr : bytes ctr -> length ctr = 16%nat -> ctr = le_bytes 16 (value_le ctr).
Proof. intros H1 H2. rewrite value_le_eq. rewrite <- H2 at 1. symmetry. now apply le_bytes_le_val. Qed.
