(** The TSX ciphers: Process is the keystream applied to the window, for every profile and order of the workers. *)
From Coq Require Import Permutation.
From Verif Require Import BaseLemmas Spec_Common Proofs_Common Model_IntegerTools Proofs_IntegerTools Proofs_IntegerTools2 Model_Modes Proofs_Windows
  Spec_Threefish Model_Threefish Proofs_Threefish Proofs_Threefish2 Spec_Keccak Session_KMAC
  Model_ChaCha Spec_ChaCha Proofs_ChaCha Proofs_ChaCha2 Spec_Stream Spec_TSX Model_TSX Session_CSX Session_TSX Proofs_CSX.
Open Scope Z_scope.

Section KS.
Variables (B : nat) (kb : Z -> list Z).
Hypothesis HB : (0 < B)%nat.
Hypothesis HK : forall v, length (kb v) = B.
Variable perm : list Z -> nat -> list Z -> res (list Z).
Local Notation enc := (counter_words 64).
Hypothesis HP : forall out oo v, (oo + B <= length out)%nat -> perm out oo (enc v) = Ok (splice out oo (kb v)).
Local Lemma W64 : 0 < 64. Proof. lia. Qed.
Local Notation S_Generate_ok := (S_Generate_ok B kb HB HK 64 perm W64 HP 0).
Local Notation keystream_len := (keystream_len B kb).
Local Notation crypt_len := (crypt_len B kb HB HK).
Local Notation crypt_app := (crypt_app B kb HB HK).
Local Notation nblocks_exact := (nblocks_exact B kb HB HK).
Local Notation nblocks_mul := (nblocks_mul B kb HB HK).
Local Notation crypt_concat := (crypt_concat B kb HB HK 64 perm HP).
Local Notation wcopy2 := (wcopy2 B kb HB HK 64 perm HP).
Local Notation xor_tail := (xor_tail B kb HB HK 64 perm HP).
Local Notation prclen_ok := (prclen_ok B kb HB HK 64 perm HP).
Lemma T_seq_ok p ord l io out oo len v : fit l out io oo len -> (sp_par p = false \/ (len < sp_min p)%nat) ->
  T_Process B perm p ord (Some l) io out oo len (enc v) = Ok (splice out oo (stream_crypt B kb v (slice l io len)), enc (v + Z.of_nat (nblocks B len))).
Proof.
  intros F HS. pose proof (S_seq_ok B kb HB HK 64 perm W64 HP 0 p ord l io out oo len v F HS) as E. unfold S_Process, T_Process, T_Generate in *.
  destruct F as (Hi & Ho & Hl & Hl'). cbn [src] in *. rewrite prclen_ok in E by auto.
  replace (negb (sp_par p) || (len <? sp_min p)%nat) with true in *; [exact E|].
  symmetry. apply orb_true_iff. destruct HS as [->|HS]; [left; reflexivity|right; apply Nat.ltb_lt; exact HS].
Qed.
Lemma T_par_ok p ord l io out oo len v : fit l out io oo len -> (0 < sp_deg p)%nat -> (sp_deg p * B <= sp_min p)%nat -> Permutation ord (seq 0 (sp_deg p)) ->
  Z.of_nat (len / B) < 2 ^ 64 ->
  T_Process B perm p ord (Some l) io out oo len (enc v) = Ok (splice out oo (stream_crypt B kb v (slice l io len)), enc (v + Z.of_nat (nblocks B len))).
Proof.
  intros F Hd Hm HO Hc. destruct (Bool.orb_true_iff (negb (sp_par p)) (len <? sp_min p)%nat) as [HC _].
  destruct (negb (sp_par p) || (len <? sp_min p)%nat) eqn:EC.
  { apply T_seq_ok; [exact F|]. destruct (HC eq_refl) as [H|H]; [left; now destruct (sp_par p)|right; now apply Nat.ltb_lt]. }
  clear HC. destruct F as (Hi & Ho & Hl & Hl'). unfold T_Process, T_Generate. cbn [src]. rewrite EC. apply Bool.orb_false_iff in EC. destruct EC as [_ EC]. apply Nat.ltb_ge in EC.
  replace (sp_deg p =? 0)%nat with false by (symmetry; apply Nat.eqb_neq; lia). cbn [negb safe bind]. cbv zeta.
  set (dg := sp_deg p) in *. set (m := (len / B / dg)%nat).
  assert (Hq : (len / B = dg * m + (len / B) mod dg)%nat) by (apply Nat.div_mod; lia).
  assert (Hqm : ((len / B) mod dg < dg)%nat) by (apply Nat.mod_upper_bound; lia).
  assert (Hlb : (len = (len / B) * B + len mod B)%nat) by (pose proof (Nat.div_mod len B); lia).
  assert (Hlm : (len mod B < B)%nat) by (apply Nat.mod_upper_bound; lia).
  assert (Hm0 : (0 < m)%nat).
  { unfold m. apply Nat.div_str_pos. split; [lia|]. apply Nat.div_le_lower_bound; nia. }
  replace (m * B / B)%nat with m by (rewrite Nat.div_mul; lia).
  set (q := (len / B)%nat) in *. clearbody m q.
  set (cnk := (m * B)%nat) in *. assert (Hcn : (cnk * dg <= len)%nat) by (unfold cnk; clear - Hlb Hq; nia).
  assert (B0 : forall i, (i < dg)%nat -> (i * cnk + cnk <= len)%nat) by (intros i H; clear - H Hcn; nia).
  assert (B1 : forall i, (i < dg)%nat -> (io + i * cnk + cnk <= length l)%nat) by (intros i H; specialize (B0 i H); lia).
  assert (B2 : forall i, (i < dg)%nat -> (oo + i * cnk + cnk <= length out)%nat) by (intros i H; specialize (B0 i H); lia).
  assert (NB : nblocks B cnk = m) by (apply nblocks_exact).
  assert (BC : forall i, (i < dg)%nat -> 0 <= Z.of_nat (m * i) < 2 ^ 64).
  { intros i H. assert (m * i <= q)%nat by (clear - H Hq; nia). lia. }
  assert (BO : (oo + dg * cnk <= length out)%nat) by lia.
  rewrite (workers_ok cnk dg oo out (fun i => stream_crypt B kb (v + Z.of_nat (m * i)) (slice l (io + i * cnk) cnk))
    (fun i t => if (i =? dg - 1)%nat then enc (v + Z.of_nat (m * (dg - 1)) + Z.of_nat m) else t) (fun t => length t = 2%nat)); [| | |  | |reflexivity|exact HO].
  3:{ exact BO. }
  2:{ intros i H. rewrite crypt_len. apply length_slice. auto. }
  2:{ intros i t H Ht. destruct (i =? dg - 1)%nat; auto. }
  2:{ intros i out' t H L Ht _. rewrite increase_counter by (first [lia|auto; reflexivity]). cbn [bind].
      specialize (B1 i H). specialize (B2 i H). rewrite S_Generate_ok by lia. cbn [bind]. pose proof (keystream_len (v + Z.of_nat (m * i)) cnk) as LK.
      rewrite wxor_ok by (rewrite ?length_splice; lia). cbn [bind]. rewrite slice_splice_here by lia.
      assert (LS : length (slice l (io + i * cnk) cnk) = cnk) by (apply length_slice; lia).
      rewrite splice_over by (rewrite ?length_xorl; lia). unfold stream_crypt. rewrite LS, xorl_comm, NB.
      destruct (Nat.eqb_spec i (dg - 1)) as [->|]; [|reflexivity]. rewrite wcopy2 by auto. reflexivity. }
  cbn [bind]. rewrite fold_last by (apply (Permutation_in _ (Permutation_sym HO)); apply in_seq; lia).
  rewrite wcopy2 by reflexivity. cbn [bind]. unfold cnk at 1. rewrite crypt_concat by (fold cnk; lia). fold cnk.
  replace (v + Z.of_nat (m * (dg - 1)) + Z.of_nat m) with (v + Z.of_nat (dg * m)) by (clear - Hd; nia).
  assert (HR : (cnk * dg = dg * m * B)%nat) by (unfold cnk; lia).
  destruct (Nat.ltb_spec (cnk * dg) len) as [LT|GE].
  - set (rnd := (cnk * dg)%nat) in *.
    assert (LSR : length (slice l io rnd) = rnd) by (apply length_slice; lia).
    replace (dg * cnk)%nat with rnd by (unfold rnd; lia).
    rewrite S_Generate_ok by (rewrite length_splice; rewrite ?crypt_len; lia). cbn [bind].
    set (v' := v + Z.of_nat (dg * m)). pose proof (keystream_len v' (len - rnd)) as LK.
    set (out1 := splice out oo (stream_crypt B kb v (slice l io rnd))). assert (LO : length out1 = length out) by (unfold out1; rewrite length_splice; rewrite ?crypt_len; lia).
    pose proof (xor_tail l (io + rnd) out1 (oo + rnd) (keystream B kb v' (len - rnd)) 0 (len - rnd) [] eq_refl) as X. rewrite splice_nil in X. cbn [app skipn] in X.
    rewrite X by lia. cbn [bind]. rewrite Nat.add_0_r.
    replace (nblocks B len) with (dg * m + nblocks B (len - rnd))%nat by (rewrite <- nblocks_mul; f_equal; lia).
    do 2 f_equal; [|f_equal; unfold v'; lia].
    pose proof (splice_splice_next out oo (stream_crypt B kb v (slice l io rnd)) (xorl (slice l (io + rnd) (len - rnd)) (keystream B kb v' (len - rnd)))) as SS.
    rewrite crypt_len, LSR in SS. unfold out1. rewrite SS by (rewrite length_xorl, length_slice; lia). f_equal.
    replace len with (rnd + (len - rnd))%nat at 3 by lia. rewrite slice_app. rewrite (crypt_app v (dg * m)) by lia. f_equal. unfold stream_crypt. rewrite length_slice by lia. reflexivity.
  - assert (len = cnk * dg)%nat by lia. subst len. rewrite (Nat.mul_comm cnk dg). do 3 f_equal. rewrite (Nat.mul_comm dg cnk), HR, nblocks_exact. lia.
Qed.
End KS.

(** * the three configurations *)
Record tmatches (cf : tconf) (c : tcipher) : Prop := {
  T_mB : f_B cf = t_B c; T_strict : f_strict cf = t_exact c; T_omega : f_omega cf = t_default c; T_mname : f_name cf = t_name c;
  T_mrate : f_rate cf = t_rate c; T_mmac : f_mac cf = t_mac c; T_mtag : f_tag cf = t_tag c;
  T_len : forall key tw v, length key = (t_B c / 8)%nat -> length tw = 2%nat -> length (t_block c key tw v) = t_B c;
  T_bytes : forall key tw v, bytes (t_block c key tw v);
  T_permok : forall key tw v, length key = (t_B c / 8)%nat -> length tw = 2%nat -> exists ws, f_perm cf key (counter_words 64 v) tw = Ok ws /\ t_block c key tw v = concat (map (le_bytes 8) ws);
  T_num : (64 <= t_rate c <= 190)%nat /\ (t_rate c mod 8 = 0)%nat /\ (16 <= t_B c <= 2 * t_rate c)%nat /\ (t_B c mod 8 = 0)%nat /\ (16 <= t_mac c <= t_rate c)%nat /\ (t_mac c <= t_tag c <= 1000)%nat;
  T_om : length (t_default c) = 16%nat /\ bytes (t_default c);
  T_nm : bytes (t_name c) /\ (0 < length (t_name c) <= 100)%nat /\ fits_block (t_rate c) [] (tcustom c) }.
Lemma tsx256_block key tw v : length key = 4%nat -> length tw = 2%nat -> exists ws, PemuteR72P256U key (counter_words 64 v) tw = Ok ws /\ t_block tsx256 key tw v = concat (map (le_bytes 8) ws).
Proof. intros H1 H2. eexists. split; [exact (tsx256_ok key (counter_words 64 v) tw H1 eq_refl H2)|reflexivity]. Qed.
Lemma tsx512_block key tw v : length key = 8%nat -> length tw = 2%nat -> exists ws, PemuteR96P512U key (counter_words 64 v) tw = Ok ws /\ t_block tsx512 key tw v = concat (map (le_bytes 8) ws).
Proof. intros H1 H2. eexists. split; [exact (tsx512_ok key (counter_words 64 v) tw H1 eq_refl H2)|reflexivity]. Qed.
Lemma tsx1024_block key tw v : length key = 16%nat -> length tw = 2%nat -> exists ws, PemuteR120P1024U key (counter_words 64 v) tw = Ok ws /\ t_block tsx1024 key tw v = concat (map (le_bytes 8) ws).
Proof. intros H1 H2. eexists. split; [exact (tsx1024_ok key (counter_words 64 v) tw H1 eq_refl H2)|reflexivity]. Qed.

(** a block has the size of the state *)
Lemma fold_tf_len F key tw l : length (f_pi F) = f_n F -> forall x, length x = f_n F -> length (fold_left (tf_round F key tw) l x) = f_n F.
Proof.
  intros HP. induction l as [|d l IH]; intros x H; [exact H|]. cbn [fold_left]. apply IH. unfold tf_round. cbv zeta. rewrite map_length. exact HP.
Qed.
Lemma tf_encrypt_len F rounds last key tw v : length (f_pi F) = f_n F -> length last = f_n F -> length v = f_n F -> length (tf_encrypt F rounds last key tw v) = f_n F.
Proof.
  intros HP HL HV. unfold tf_encrypt. pose proof (fold_tf_len F key tw (seq 0 rounds) HP v HV) as L. rewrite add_words_len; [exact L|]. rewrite L. exact HL.
Qed.
Lemma block_len8 F rounds key tw s c v k : length (f_pi F) = f_n F -> (2 + k = f_n F)%nat ->
  length (out_bytes (tf_encrypt F rounds (subkey F key tw s c) key tw (counter_words 64 v ++ all_ones k))) = (8 * f_n F)%nat.
Proof.
  intros HP HK. unfold out_bytes. rewrite concat_le_len, tf_encrypt_len; [reflexivity|exact HP| |].
  - unfold subkey. now rewrite map_length, seq_length.
  - rewrite app_length. unfold all_ones. rewrite repeat_length. exact HK.
Qed.
Lemma tcustom_ok c : bytes (t_name c) -> bytes (tcustom c).
Proof. intros H. unfold tcustom. apply Forall_app. split; [apply bytes_le_bytes|exact H]. Qed.
Lemma tsx256_matches : tmatches tsx256_conf tsx256.
Proof.
  split; [reflexivity|reflexivity|reflexivity|reflexivity|reflexivity|reflexivity|reflexivity| | | | | |].
  - intros key tw v H1 H2. exact (block_len8 threefish256 72 key tw (72 / 4) (Z.of_nat (72 / 4)) v 2 eq_refl eq_refl).
  - intros key tw v. cbn [t_block tsx256]. apply concat_le_bytes.
  - intros key tw v H1 H2. cbn [f_perm tsx256_conf]. exact (tsx256_block key tw v H1 H2).
  - cbn [t_rate t_B t_mac t_tag tsx256]. repeat split; try lia; reflexivity.
  - cbn [t_default tsx256]. split; [reflexivity|bytelist].
  - cbn [t_name t_rate tsx256]. split; [bytelist|]. split; [cbn; lia|]. apply Nat.leb_le. vm_compute. reflexivity.
Qed.
Lemma tsx512_matches : tmatches tsx512_conf tsx512.
Proof.
  split; [reflexivity|reflexivity|reflexivity|reflexivity|reflexivity|reflexivity|reflexivity| | | | | |].
  - intros key tw v H1 H2. exact (block_len8 threefish512 96 key tw 18 24 v 6 eq_refl eq_refl).
  - intros key tw v. cbn [t_block tsx512]. apply concat_le_bytes.
  - intros key tw v H1 H2. cbn [f_perm tsx512_conf]. exact (tsx512_block key tw v H1 H2).
  - cbn [t_rate t_B t_mac t_tag tsx512]. repeat split; try lia; reflexivity.
  - cbn [t_default tsx512]. split; [reflexivity|bytelist].
  - cbn [t_name t_rate tsx512]. split; [bytelist|]. split; [cbn; lia|]. apply Nat.leb_le. vm_compute. reflexivity.
Qed.
Lemma tsx1024_matches : tmatches tsx1024_conf tsx1024.
Proof.
  split; [reflexivity|reflexivity|reflexivity|reflexivity|reflexivity|reflexivity|reflexivity| | | | | |].
  - intros key tw v H1 H2. exact (block_len8 threefish1024 120 key tw 20 30 v 14 eq_refl eq_refl).
  - intros key tw v. cbn [t_block tsx1024]. apply concat_le_bytes.
  - intros key tw v H1 H2. cbn [f_perm tsx1024_conf]. exact (tsx1024_block key tw v H1 H2).
  - cbn [t_rate t_B t_mac t_tag tsx1024]. repeat split; try lia; reflexivity.
  - cbn [t_default tsx1024]. split; [reflexivity|bytelist].
  - cbn [t_name t_rate tsx1024]. split; [bytelist|]. split; [cbn; lia|]. apply Nat.leb_le. vm_compute. reflexivity.
Qed.
Lemma all_tmatch cf c : In (cf, c) tsx_ciphers -> tmatches cf c.
Proof. unfold tsx_ciphers. cbn [In]. intros [E|[E|[E|[]]]]; [apply pair_equal_spec in E|apply pair_equal_spec in E|apply pair_equal_spec in E]; destruct E as [<- <-]; [exact tsx256_matches|exact tsx512_matches|exact tsx1024_matches]. Qed.
