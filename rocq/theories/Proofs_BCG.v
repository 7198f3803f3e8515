(** The BCG object. *)
From Coq Require Import Permutation.
From Verif Require Import BaseLemmas Spec_Common Proofs_Common Model_IntegerTools Proofs_IntegerTools Proofs_IntegerTools2 Model_Modes Proofs_Windows Proofs_Modes5 Model_KDF Proofs_KDF Proofs_KDF2
  Spec_Keccak Proofs_Keccak Session_Digest Session_KMAC Session_SHAKE Model_SHAKE Proofs_KMAC Proofs_KMAC2 Proofs_KMAC3 Proofs_SHAKE
  Model_ChaCha Spec_ChaCha Proofs_ChaCha Proofs_ChaCha2 Spec_Stream Model_CSX Session_CSX Proofs_CSX Proofs_CSX2
  Spec_AES Proofs_AES Model_Rijndael Proofs_Rijndael Spec_RCS Model_RCS Session_RCS Proofs_RCS Proofs_RCS2 Proofs_RCS3 Session_CSG Spec_BCG Model_BCG Session_BCG.
Open Scope Z_scope.

Local Notation rij := (rijndael [0; 1; 3; 4]%nat).
(** * the stream *)
Lemma wc32 a b : length a = 32%nat -> length b = 32%nat -> wcopy a 0 b 0 32 = Ok a.
Proof. intros H1 H2. rewrite wcopy_ok by lia. rewrite slice_all by lia. rewrite splice_all by lia. reflexivity. Qed.
Definition keyed_ok (keys : list (list Z)) (rk : list Z) (R : nat) : Prop := chunks 32 (rk_bytes rk) = keys /\ length rk = (8 * (R + 1))%nat /\ (1 <= R)%nat.
Definition nonce_ok (n : list Z) : Prop := length n = 32%nat /\ bytes n.
Lemma start_split n : nonce_ok n -> nonce_at (skipn 16 n) (start n) = n.
Proof. intros [L B]. apply nonce_split; [exact B|lia]. Qed.
Lemma at_ok n v : nonce_ok n -> nonce_ok (nonce_at (skipn 16 n) v).
Proof.
  intros [L B]. unfold nonce_at. split; [rewrite app_length, length_le_bytes, skipn_length; lia|]. apply bytes_app. split; [apply bytes_le_bytes|now apply bytes_skipn].
Qed.
Lemma moved_ok n k : nonce_ok n -> nonce_ok (bmoved n k).
Proof. intros H. now apply at_ok. Qed.
Lemma apart_ok n d : nonce_ok (apart n d).
Proof. split; [apply length_be_bytes|apply bytes_be_bytes]. Qed.
Section stream.
Context (keys : list (list Z)) (rk : list Z) (R : nat).
Hypothesis HK : keyed_ok keys rk R.
Lemma block_st n v : nonce_ok n -> st 8 (bblock keys n v).
Proof.
  intros Hn. destruct HK as (<- & L & HR). unfold bblock.
  apply (wide_st rcs_fam 8 [0; 1; 3; 4]%nat R rk eq_refl ltac:(lia) (V_offs _ _ _ wm_rcs) (V_shift _ _ _ wm_rcs) HR L). exact (at_ok n v Hn).
Qed.
Lemma block_ok n v out oo : nonce_ok n -> (oo + 32 <= length out)%nat -> R_block rcs_fam rk R (nonce_at (skipn 16 n) v) out oo = Ok (splice out oo (bblock keys n v)).
Proof.
  intros Hn Ho. destruct HK as (<- & L & HR).
  exact (R_block_ok rcs_fam 8 [0; 1; 3; 4]%nat R rk eq_refl ltac:(lia) (V_offs _ _ _ wm_rcs) (V_shift _ _ _ wm_rcs) HR L (nonce_at (skipn 16 n) v) out oo (at_ok n v Hn) Ho).
Qed.
Lemma stream_len n len : length (bstream keys n len) = len.
Proof. apply keystream_len. Qed.
Lemma bstream_bytes n len : nonce_ok n -> bytes (bstream keys n len).
Proof. intros Hn. unfold bstream. apply keystream_bytes; [lia| |]; intros v; apply (block_st n v Hn). Qed.
Lemma transform_ok n out oo len : nonce_ok n -> (oo + len <= length out)%nat ->
  W_Generate 32 (R_block rcs_fam rk R) out oo len n = Ok (splice out oo (bstream keys n len), bmoved n len).
Proof.
  intros Hn Ho. rewrite <- (start_split n Hn) at 1.
  refine (W_Generate_ok 32 (rij keys) (R_block rcs_fam rk R) (skipn 16 n) ltac:(lia) _ _ _ _ out oo len (start n) Ho).
  - rewrite skipn_length. destruct Hn. lia.
  - apply bytes_skipn, Hn.
  - intros v. apply (block_st n v Hn).
  - intros v out' oo' Ho'. exact (block_ok n v out' oo' Hn Ho').
Qed.
End stream.
Lemma bmoved_0 n : nonce_ok n -> bmoved n 0 = n.
Proof. intros Hn. unfold bmoved. change (Z.of_nat (nblocks 32 0)) with 0. rewrite Z.add_0_r. now apply start_split. Qed.

(** the counters of the workers *)
Lemma be32_add n d : nonce_ok n -> Z.of_nat d < 65280 -> BeIncrease8 4 n (zeros 32) (u32 (Z.of_nat d)) = Ok (apart n d).
Proof.
  intros [Ln Bn] Hd. assert (E32 : u32 (Z.of_nat d) = Z.of_nat d) by (unfold u32; apply Z.mod_small; lia). rewrite E32.
  destruct (BeIncrease8_spec 4 n (zeros 32) (Z.of_nat d) Bn) as (r & E & B & L & I).
  - intros Q. rewrite Q in Ln. discriminate.
  - rewrite Ln. reflexivity.
  - rewrite E. f_equal. rewrite Ln in *.
    rewrite (Z.mod_small (Z.of_nat d)) in I by (change (256 ^ Z.of_nat 4) with (2 ^ 32); lia).
    assert (V : be_val r = (be_val n + Z.of_nat d) mod 256 ^ Z.of_nat 32).
    { apply I. intros (j & Hj & Q1 & Q2). destruct j as [|[|j]].
      - change (256 ^ Z.of_nat 0) with 1 in Q2. rewrite !Z.mod_1_r in Q2. lia.
      - change (256 ^ Z.of_nat 1) with 256 in Q1. rewrite Z.mod_small in Q1; lia.
      - rewrite Z.div_small in Q1; [rewrite Z.mod_0_l in Q1 by lia; lia|]. assert (256 ^ 2 <= 256 ^ Z.of_nat (S (S j))) by (apply Z.pow_le_mono_r; lia). lia. }
    rewrite <- (be_bytes_be_val r) by auto. rewrite V, L. unfold apart.
    rewrite <- (be_bytes_be_val (be_bytes 32 (be_val n + Z.of_nat d))) by apply bytes_be_bytes. rewrite length_be_bytes, be_val_be_bytes. reflexivity.
Qed.

(** * the object *)
Definition room (g : bgen) : Prop := bytes (b_custom g) /\ Z.of_nat (length (b_custom g)) <= 2 ^ 32 + 16 * (b_reseeds g + 1).
Definition brel (o : bcg) (g : bgen) : Prop :=
  (bg_custom o = b_custom g /\ room g) /\ (bg_nonce o = b_nonce g /\ nonce_ok (b_nonce g)) /\
  (bg_counter o = b_since g /\ bg_reseed o = b_reseeds g /\ 0 <= b_reseeds g) /\ bg_ready o = b_ready g /\ bg_calls o = b_calls g /\
  (b_ready g = true -> keyed_ok (b_keys g) (bg_rk o) (bg_rounds o)) /\ (b_ready g = false -> b_since g = 0).
Lemma brel_new : brel BCG_new bgen_new.
Proof.
  unfold brel, room, BCG_new, bgen_new. cbn [bg_custom bg_nonce bg_counter bg_reseed bg_ready bg_calls b_ready b_keys b_custom b_nonce b_since b_reseeds b_calls].
  repeat split; try reflexivity; try lia; try discriminate; try apply bytes_zeros; try constructor; try (cbn [length]; lia).
Qed.
Lemma nonce_rel o g n : brel o g -> nonce_ok n -> brel (set_nonce o n) (bwith g n (b_since g) (b_reseeds g)).
Proof.
  intros (H1 & H2 & H3 & H4 & H5 & H6 & H7) Hn. unfold brel, room, set_nonce, bwith in *. cbn [bg_custom bg_nonce bg_counter bg_reseed bg_ready bg_calls bg_rk bg_rounds b_ready b_keys b_custom b_nonce b_since b_reseeds b_calls]. auto 20.
Qed.
Lemma count_rel o g c r : brel o g -> b_ready g = true \/ c = 0 -> b_reseeds g <= r -> brel (set_counts o c r) (bwith g (b_nonce g) c r).
Proof.
  intros (H1 & H2 & H3 & H4 & H5 & H6 & H7) Hc Hr. unfold brel, room, set_counts, bwith in *. cbn [bg_custom bg_nonce bg_counter bg_reseed bg_ready bg_calls bg_rk bg_rounds b_ready b_keys b_custom b_nonce b_since b_reseeds b_calls].
  destruct H1 as (A & B & C). destruct H3 as (D & E & F). split; [split; [exact A|split; [exact B|lia]]|]. split; [exact H2|]. split; [split; [reflexivity|split; [reflexivity|lia]]|]. do 3 (split; [assumption|]).
  intros Q. destruct Hc as [Hc|Hc]; [congruence|exact Hc].
Qed.

(** Process *)
Section process.
Context (p : sprof).
Hypothesis HP : bprofile p.
Lemma bnext_len keys n len : length (fst (bnext (par_of p) keys n len)) = len.
Proof.
  unfold bnext, par_of. destruct (sp_par p) eqn:EP; [|apply keystream_len]. destruct (HP EP) as (H1 & H2 & H3). destruct (Nat.leb_spec (sp_blk p) len) as [L|L]; [|apply keystream_len]. cbv zeta. cbn [fst].
  set (cnk := (sp_blk p / sp_deg p)%nat). assert (M : (cnk * sp_deg p <= sp_blk p)%nat) by (unfold cnk; rewrite Nat.mul_comm; apply Nat.mul_div_le; lia).
  rewrite app_length. unfold bstream at 2. rewrite keystream_len. rewrite (concat_length_eq cnk), map_length, seq_length; [nia|]. intros b Hb. apply in_map_iff in Hb. destruct Hb as (i & <- & _). apply keystream_len.
Qed.
Lemma bnext_ok keys n len : nonce_ok n -> nonce_ok (snd (bnext (par_of p) keys n len)).
Proof.
  intros Hn. unfold bnext. destruct (par_of p) as [[P d]|]; [|now apply moved_ok]. destruct (P <=? len)%nat; cbv zeta; cbn [snd]; [|now apply moved_ok]. apply moved_ok, moved_ok, apart_ok.
Qed.
Lemma process_ok o g out oo len ord : brel o g -> b_ready g = true -> (oo + len <= length out)%nat -> (sp_par p = true -> Permutation ord (seq 0 (sp_deg p))) ->
  let nx := bnext (par_of p) (b_keys g) (b_nonce g) len in
  BCG_Process p ord o out oo len = Ok (splice out oo (fst nx), snd nx).
Proof.
  intros (_ & (EN & HN) & _ & _ & _ & HK & _) RD Ho HO. specialize (HK RD). cbv zeta. unfold BCG_Process, bnext, par_of, BCG_Transform. rewrite EN.
  destruct (sp_par p) eqn:EP; cbn [negb orb]; [|now apply transform_ok].
  destruct (HP EP) as (H1 & H2 & H3). destruct (Nat.ltb_spec len (sp_blk p)) as [L|L].
  { replace (sp_blk p <=? len)%nat with false by (symmetry; apply Nat.leb_gt; lia). cbn [fst snd]. now apply transform_ok. }
  replace (sp_blk p <=? len)%nat with true by (symmetry; apply Nat.leb_le; lia).
  replace (sp_deg p =? 0)%nat with false by (symmetry; apply Nat.eqb_neq; lia). cbn [negb safe bind fst snd].
  set (dg := sp_deg p) in *. set (cnk := (sp_blk p / dg)%nat) in *. assert (M : (cnk * dg <= sp_blk p)%nat) by (unfold cnk; rewrite Nat.mul_comm; apply Nat.mul_div_le; lia).
  set (q := (cnk / 32)%nat) in *. set (K := b_keys g) in *. set (n := b_nonce g) in *. clearbody cnk q K n. specialize (HO eq_refl).
  set (lst := bmoved (apart n (q * (dg - 1))) cnk).
  assert (HL : nonce_ok lst) by (apply moved_ok, apart_ok).
  assert (B0 : forall i, (i < dg)%nat -> (i * cnk + cnk <= len)%nat) by (intros i Hi; clear - Hi M L; nia).
  rewrite (workers_ok cnk dg oo out (fun i => bstream K (apart n (q * i)) cnk) (fun i t => if (i =? dg - 1)%nat then lst else t) (fun t => length t = 32%nat)); [| | | | |apply length_zeros|exact HO].
  3:{ clear - M L Ho. nia. }
  2:{ intros i H. apply keystream_len. }
  2:{ intros i t H Ht. destruct (i =? dg - 1)%nat; [apply HL|exact Ht]. }
  2:{ intros i out' t H Lo Ht _. specialize (B0 i H).
      rewrite be32_add by (try exact HN; assert (q * i <= q * dg)%nat by (apply Nat.mul_le_mono_l; lia); lia). cbn [bind].
      rewrite (transform_ok K (bg_rk o) (bg_rounds o) HK) by (try apply apart_ok; lia). cbn [bind].
      destruct (Nat.eqb_spec i (dg - 1)) as [->|]; [|reflexivity]. fold lst. rewrite wc32 by (try exact Ht; apply HL). reflexivity. }
  cbn [bind]. rewrite fold_last by (apply (Permutation_in _ (Permutation_sym HO)); apply in_seq; lia).
  destruct HN as [LN BN]. rewrite LN. rewrite wc32 by (try exact LN; apply HL). cbn [bind].
  set (A := concat _). assert (LA : length A = (cnk * dg)%nat).
  { unfold A. rewrite (concat_length_eq cnk), map_length, seq_length; [lia|]. intros b Hb. apply in_map_iff in Hb. destruct Hb as (i & <- & _). apply keystream_len. }
  clearbody A. destruct (Nat.ltb_spec (cnk * dg) len) as [T|T].
  - rewrite (transform_ok K (bg_rk o) (bg_rounds o) HK) by (try exact HL; rewrite length_splice; lia). do 2 f_equal. rewrite <- LA. apply splice_splice_next. unfold bstream. rewrite keystream_len. lia.
  - replace (len - cnk * dg)%nat with 0%nat by lia. rewrite bmoved_0 by exact HL. unfold bstream, keystream. cbn [seq map]. now rewrite app_nil_r.
Qed.
End process.

(** Initialize *)
Lemma legal_num key : blegal key = true -> In (length key) [32; 64; 128]%nat.
Proof. intros H. now apply existsb_In. Qed.
Lemma shake_keys key custom nm n : (4 <= length key)%nat -> bytes key -> bytes custom -> short custom -> (4 <= length custom)%nat -> bytes nm -> (length nm <= 31)%nat -> Z.of_nat n <= 100000000 ->
  forall out, length out = n ->
  exists g g1, SHAKE_Initialize 136 SHAKE_new key custom nm = Ok g /\ SHAKE_Generate 136 g out 0 n = Ok (g1, cshake 24 136 key n nm custom) /\ length (cshake 24 136 key n nm custom) = n.
Proof.
  intros Lk Bk Bc Sc Lc Bn Ln Hn out LO. assert (SN : short nm) by (red; clear - Ln; lia).
  destruct (SHAKE_Init_ok 136 ltac:(lia) SHAKE_new None key custom nm eq_refl) as (g & E & G); [cbn [scall_ok]; repeat split; auto; apply small_name_fits; auto; lia|lia|lia|].
  destruct (SHAKE_Gen_ok 136 ltac:(lia) g key custom nm 0 0 out 0 n G) as (g1 & E1 & L1 & G1); [lia| |].
  { cbn [Nat.add]. rewrite Nat2Z.inj_div. assert (Z.of_nat n / Z.of_nat 136 <= 100000000 / Z.of_nat 136) by (apply Z.div_le_mono; lia). change (100000000 / Z.of_nat 136) with 735294 in H. lia. }
  cbn [Nat.mul Nat.add] in *. rewrite skipn_O in *. exists g, g1. split; [exact E|]. split; [|exact L1]. rewrite E1. do 2 f_equal. apply splice_all. lia.
Qed.
Lemma rounds_num key : blegal key = true -> let ks := length key in
  (if negb (ks =? 128) then Z.to_nat (u16 (Z.of_nat (ks / 4))) + 14 else 38)%nat = brounds ks /\ (1 <= brounds ks <= 38)%nat /\ u16 (Z.of_nat (ks * 8)) = 8 * Z.of_nat ks /\ (32 <= ks <= 128)%nat.
Proof. intros H. apply legal_num in H. cbv zeta. destruct H as [<-|[<-|[<-|[]]]]; (split; [reflexivity|]); (split; [cbv; lia|]); (split; [reflexivity|lia]). Qed.
Lemma resized_len (l : list Z) n : length (resized l n) = n.
Proof. unfold resized. rewrite app_length, firstn_length, length_zeros. lia. Qed.
Lemma version_ok : BCG_INFO = version /\ bytes version /\ length version = 16%nat.
Proof. split; [reflexivity|]. split; [|reflexivity]. repeat (constructor; [red; lia|]); constructor. Qed.
Lemma init_rel o g key iv info : brel o g -> bytes key -> bytes info -> Z.of_nat (length info) <= 2 ^ 32 + 16 * b_reseeds g -> b_reseeds g <= 20000 \/ Z.of_nat (length info) <= 2 ^ 32 -> blegal key = true -> nonce_ok iv ->
  exists o', BCG_Initialize o key iv info = Ok o' /\ brel o' (bkeyed g key iv info).
Proof.
  intros HR Bk Bf LF LF2 HL [Lv Bv]. destruct (rounds_num key HL) as (E1 & E2 & E3 & E4). cbv zeta in E1, E2, E3, E4. unfold BCG_Initialize.
  unfold blegal in HL. rewrite HL. cbn [guard bind]. rewrite Lv. cbn [Nat.eqb guard bind]. rewrite E1, E3.
  set (o1 := if bg_ready o then BCG_Reset o else o).
  assert (HN : length (bg_nonce o) = 32%nat) by (destruct HR as (_ & (EN & LN & _) & _); rewrite EN; exact LN).
  assert (Q : length (bg_nonce o1) = 32%nat /\ bg_counter o1 = 0 /\ bg_reseed o1 = b_reseeds g /\ bg_calls o1 = b_calls g).
  { destruct HR as (_ & _ & (C1 & C2 & _) & C4 & C5 & _ & C7). unfold o1. rewrite C4. destruct (b_ready g); [unfold BCG_Reset; cbn [bg_nonce bg_counter bg_reseed bg_calls]; rewrite length_zeros; auto|]. rewrite C1, C7 by reflexivity. auto. }
  destruct Q as (Q1 & Q2 & Q3 & Q4). clearbody o1. destruct version_ok as (V1 & V2 & V3). rewrite V1, V3.
  rewrite wcopy_ok by (rewrite ?resized_len; lia). cbn [bind]. rewrite slice_all by lia.
  rewrite wcopy_ok by (rewrite ?length_splice; rewrite ?resized_len; lia). cbn [bind]. rewrite slice_all by lia.
  assert (EC : splice (splice (resized (bg_custom o1) (length info + 16)) 0 version) 16 info = version ++ info).
  { pose proof (splice_splice_next (resized (bg_custom o1) (length info + 16)) 0 version info) as S. rewrite V3 in S. cbn [Nat.add] in S. rewrite S by (rewrite resized_len; lia). apply splice_all. rewrite app_length, resized_len. lia. }
  rewrite EC. rewrite wcopy_ok by lia. cbn [bind]. rewrite slice_all by lia. rewrite splice_all by lia.
  assert (BC : bytes (version ++ info)) by (apply bytes_app; auto). assert (LC : length (version ++ info) = (16 + length info)%nat) by (rewrite app_length; lia).
  assert (R0 : 0 <= b_reseeds g) by apply HR.
  remember (brounds (length key)) as R eqn:ER. set (nm := le_bytes 2 (8 * Z.of_nat (length key)) ++ BCG_name).
  assert (BN : bytes nm /\ length nm = 5%nat). { unfold nm. split; [apply bytes_app; split; [apply bytes_le_bytes|repeat (constructor; [red; lia|]); constructor]|rewrite app_length, length_le_bytes; reflexivity]. }
  change (32 / 4)%nat with 8%nat. replace (8 * (R + 1) * 4)%nat with (32 * (R + 1))%nat by lia.
  assert (SC : short (version ++ info)) by (red; rewrite LC; lia). assert (C4 : (4 <= length (version ++ info))%nat) by (rewrite LC; lia).
  destruct BN as [BN LN]. assert (LN' : (length nm <= 31)%nat) by (rewrite LN; lia).
  destruct (shake_keys key (version ++ info) nm (32 * (R + 1)) ltac:(lia) Bk BC SC C4 BN LN' ltac:(lia) (zeros (32 * (R + 1))) (length_zeros _)) as (s & s1 & -> & F1 & F2).
  cbn [bind]. rewrite F1. cbn [bind snd]. set (ks := cshake _ _ _ _ _ _) in *.
  assert (BK : bytes ks) by (unfold ks; apply cshake_bytes).
  assert (EK : bround_keys key (version ++ info) = chunks 32 ks) by (unfold bround_keys, ks; rewrite <- ER; reflexivity). clearbody ks.
  destruct (be_words_ok ks BK (8 * (R + 1)) 0 ltac:(lia)) as (ws & -> & W1 & W2 & W3). cbn [bind]. eexists. split; [reflexivity|].
  unfold brel, room, bkeyed. cbn [bg_custom bg_nonce bg_counter bg_reseed bg_ready bg_calls bg_rk bg_rounds b_ready b_keys b_custom b_nonce b_since b_reseeds b_calls].
  split; [split; [reflexivity|split; [exact BC|rewrite LC; lia]]|]. split; [split; [reflexivity|split; assumption]|]. split; [auto|]. split; [reflexivity|]. split; [exact Q4|]. split; [|discriminate].
  intros _. unfold keyed_ok. split; [|split; [exact W1|lia]]. rewrite W3, EK. rewrite slice_all by lia. reflexivity.
Qed.

(** Update *)
Section calls.
Context (p : sprof) (prov : option (nat -> nat -> list Z)) (thr : Z).
Hypothesis HP : bprofile p.
Hypothesis HV : provider_ok prov.
Lemma mix_len f g key : (4 <= length key)%nat -> bytes key -> Z.of_nat (length key) <= 100000000 -> (forall k n, length (f k n) = n /\ bytes (f k n)) ->
  forall o, bg_calls o = b_calls g -> BCG_Derive f o key = Ok (Bcg (bg_rk o) (bg_custom o) (bg_nonce o) (bg_counter o) (bg_reseed o) (bg_rounds o) (bg_ready o) (S (bg_calls o)), bmix f g key) /\ length (bmix f g key) = length key.
Proof.
  intros Lk Bk Hk Hf o EC. unfold BCG_Derive, bmix. rewrite EC. destruct (Hf (b_calls g) 32%nat) as [L B].
  assert (S : short (f (b_calls g) 32%nat)) by (red; rewrite L; lia).
  destruct (shake_keys key (f (b_calls g) 32%nat) [] (length key) Lk Bk B S ltac:(lia) ltac:(constructor) ltac:(cbn [length]; lia) Hk key eq_refl) as (s & s1 & -> & F1 & F2). cbn [bind]. rewrite F1. cbn [bind snd]. split; [reflexivity|exact F2].
Qed.
Lemma called_rel o g : brel o g -> brel (Bcg (bg_rk o) (bg_custom o) (bg_nonce o) (bg_counter o) (bg_reseed o) (bg_rounds o) (bg_ready o) (S (bg_calls o))) (bcalled g).
Proof.
  intros (H1 & H2 & H3 & H4 & H5 & H6 & H7). unfold brel, room, bcalled in *. cbn [bg_custom bg_nonce bg_counter bg_reseed bg_ready bg_calls bg_rk bg_rounds b_ready b_keys b_custom b_nonce b_since b_reseeds b_calls]. auto 20.
Qed.
Lemma illegal_init o key iv info : blegal key = false -> BCG_Initialize o key iv info = Throw InvalidKey.
Proof. intros H. unfold BCG_Initialize. unfold blegal in H. rewrite H. reflexivity. Qed.
Lemma legal_same a b : length a = length b -> blegal a = blegal b.
Proof. intros H. unfold blegal. now rewrite H. Qed.
(** after the count *)
Lemma update_ok o g key : brel o g -> bytes key -> (16 <= length key)%nat -> Z.of_nat (length key) <= 100000000 -> b_reseeds g < 10000 ->
  let g1 := bwith g (b_nonce g) (b_since g) (b_reseeds g + 1) in
  if blegal key then exists o', BCG_Update prov o key = Ok (o', None) /\ brel o' (bseeded prov g1 key) else exists o', BCG_Update prov o key = Ok (o', Some InvalidKey) /\ brel o' (bfailed prov g1).
Proof.
  intros HR Bk Lk Hk Hr g1. unfold BCG_Update. replace (length key <? 16)%nat with false by (symmetry; apply Nat.ltb_ge; lia). cbn [negb guard bind].
  assert (ES : bg_counter o = b_since g /\ bg_reseed o = b_reseeds g) by (split; apply HR). destruct ES as [-> ES]. rewrite ES.
  assert (H1 : brel (set_counts o (b_since g) (b_reseeds g + 1)) g1).
  { apply count_rel; [exact HR| |lia]. destruct (b_ready g) eqn:Q; [now left|right]. apply HR. exact Q. }
  set (o1 := set_counts o (b_since g) (b_reseeds g + 1)) in *. assert (E1 : bg_reseed o1 = b_reseeds g + 1) by reflexivity. rewrite E1. replace (10000 <? b_reseeds g + 1) with false by (symmetry; apply Z.ltb_ge; lia).
  assert (K : forall o2 g2 k2, brel o2 g2 -> b_custom g2 = b_custom g1 -> b_nonce g2 = b_nonce g1 -> b_reseeds g2 = b_reseeds g1 -> bytes k2 -> length k2 = length key ->
    if blegal key then exists o', match BCG_Initialize o2 k2 (bg_nonce o2) (bg_custom o2) with Ok o => Ok (set_counts o 0 (bg_reseed o), None) | Throw e => Ok (o2, Some e) | UB => UB end = Ok (o', None) /\ brel o' (bkeyed g2 k2 (b_nonce g1) (b_custom g1))
    else match BCG_Initialize o2 k2 (bg_nonce o2) (bg_custom o2) with Ok o => Ok (set_counts o 0 (bg_reseed o), None) | Throw e => Ok (o2, Some e) | UB => UB end = Ok (o2, Some InvalidKey)).
  { intros o2 g2 k2 H2 C1 C2 C3 B2 L2. rewrite <- (legal_same _ _ L2). destruct (blegal k2) eqn:EL; [|now rewrite illegal_init].
    assert (EN : bg_nonce o2 = b_nonce g1 /\ nonce_ok (b_nonce g1)) by (rewrite <- C2; apply H2). destruct EN as [-> NO]. assert (EC : bg_custom o2 = b_custom g1) by (rewrite <- C1; apply H2). rewrite EC.
    destruct H1 as ((_ & RM) & _). destruct HR as ((_ & RM0) & _ & (_ & _ & R0) & _). unfold room in RM0. assert (CG : b_custom g1 = b_custom g) by reflexivity. assert (RG : b_reseeds g1 = b_reseeds g + 1) by reflexivity.
    destruct (init_rel o2 g2 k2 (b_nonce g1) (b_custom g1) H2 B2 ltac:(apply RM) ltac:(rewrite C3, CG, RG; lia) ltac:(left; rewrite C3, RG; lia) EL NO) as (o3 & -> & H3).
    eexists. split; [reflexivity|]. assert (E3 : bg_reseed o3 = b_reseeds (bkeyed g2 k2 (b_nonce g1) (b_custom g1))) by apply H3. rewrite E3.
    exact (count_rel o3 _ 0 _ H3 (or_introl eq_refl) (Z.le_refl _)). }
  unfold bseeded, bfailed, provider_ok in *. destruct prov as [f|].
  - destruct (mix_len f g1 key ltac:(lia) Bk Hk HV o1) as [-> LM]; [apply H1|]. cbn [bind]. pose proof (called_rel o1 g1 H1) as H2. set (o2 := Bcg _ _ _ _ _ _ _ _) in *.
    specialize (K o2 (bcalled g1) (bmix f g1 key) H2 eq_refl eq_refl eq_refl ltac:(apply cshake_bytes) LM). destruct (blegal key); [exact K|]. exists o2. split; [exact K|exact H2].
  - cbn [bind]. specialize (K o1 g1 key H1 eq_refl eq_refl eq_refl Bk eq_refl). destruct (blegal key); [exact K|]. exists o1. split; [exact K|exact H1].
Qed.
Lemma bstep_ok o g c : brel o g -> bcall_ok p c ->
  exists o' r g', bstep p prov thr o c = Ok (o', r) /\ brel o' g' /\ forall cs rs, bexpected p prov thr g' cs rs -> bexpected p prov thr g (c :: cs) (r :: rs).
Proof.
  intros HG HC. destruct c as [key iv info|out oo n ord|key].
  - cbn [bstep bexpected bcall_ok] in *. destruct HC as (Bk & Bv & Bf & LF). destruct (blegal key) eqn:EL; cbn [negb].
    + destruct (Nat.eqb_spec (length iv) 32) as [L|L]; cbn [negb].
      * assert (R0 : 0 <= b_reseeds g) by apply HG. destruct (init_rel o g key iv info HG Bk Bf ltac:(lia) ltac:(right; lia) EL (conj L Bv)) as (o' & -> & H'). exists o', GDone, (bkeyed g key iv info). auto.
      * unfold BCG_Initialize. unfold blegal in EL. rewrite EL. cbn [guard bind]. replace (length iv =? 32)%nat with false by (symmetry; now apply Nat.eqb_neq). cbn [guard bind]. exists o, (GFailed InvalidNonce), g. auto.
    + rewrite illegal_init by exact EL. exists o, (GFailed InvalidKey), g. auto.
  - cbn [bstep bexpected bcall_ok] in *. destruct HC as [HO HW]. assert (ER : bg_ready o = b_ready g) by apply HG. unfold BCG_Generate. rewrite ER. destruct (b_ready g) eqn:RD; cbn [guard bind negb].
    2:{ exists o, (GFailed NotInitialized), g. auto. }
    destruct (Nat.ltb_spec (length out) (oo + n)) as [L|L].
    { replace ((oo <=? length out)%nat && (length out - oo <? n)%nat) with true by (symmetry; apply andb_true_iff; split; [apply Nat.leb_le; lia|apply Nat.ltb_lt; lia]). cbn [negb guard bind]. exists o, (GFailed InvalidSize), g. auto. }
    replace ((oo <=? length out)%nat && (length out - oo <? n)%nat) with false by (symmetry; apply andb_false_iff; right; apply Nat.ltb_ge; lia). cbn [negb guard bind].
    destruct (Z.ltb_spec 102400000 (Z.of_nat n)) as [M|M].
    { replace (Z.of_nat n <=? 102400000) with false by (symmetry; apply Z.leb_gt; lia). cbn [guard bind]. exists o, (GFailed MaxExceeded), g. auto. }
    replace (Z.of_nat n <=? 102400000) with true by (symmetry; apply Z.leb_le; lia). cbn [guard bind].
    rewrite (process_ok p HP o g out oo n ord HG RD L HW). cbn [bind].
    pose proof (bnext_len p HP (b_keys g) (b_nonce g) n) as LN. pose proof (bnext_ok p (b_keys g) (b_nonce g) n ltac:(apply HG)) as NO. set (nx := bnext (par_of p) (b_keys g) (b_nonce g) n) in *. clearbody nx.
    assert (W : written out (splice out oo (fst nx)) oo (fst nx)) by (apply splice_written; lia). set (o1 := splice out oo (fst nx)) in *. clearbody o1.
    pose proof (nonce_rel o g (snd nx) HG NO) as H1. set (g1 := bwith g (snd nx) (b_since g) (b_reseeds g)) in *. set (oa := set_nonce o (snd nx)) in *.
    assert (ES : bg_counter oa = b_since g /\ bg_reseed oa = b_reseeds g) by (split; apply H1). destruct ES as [ES1 ES2].
    assert (RD1 : b_ready g1 = true) by exact RD. assert (R0 : 0 <= b_reseeds g) by apply HG.
    pose proof update_ok as UP. unfold provider_ok in HV. destruct prov as [f|] eqn:EP.
    + cbv zeta. rewrite ES1, ES2. set (tot := b_since g + Z.of_nat n).
      change (bg_counter (set_counts oa tot (b_reseeds g))) with tot. change (bg_reseed (set_counts oa tot (b_reseeds g))) with (b_reseeds g).
      change (set_counts (set_counts oa tot (b_reseeds g)) tot (b_reseeds g + 1)) with (set_counts oa tot (b_reseeds g + 1)). change (bg_reseed (set_counts oa tot (b_reseeds g + 1))) with (b_reseeds g + 1).
      pose proof (count_rel oa g1 tot (b_reseeds g) H1 (or_introl RD1) (Z.le_refl _)) as H2. pose proof (count_rel oa g1 tot (b_reseeds g + 1) H1 (or_introl RD1) ltac:(cbn [g1 bwith b_reseeds]; lia)) as H3.
      destruct (Z.ltb_spec tot thr) as [T|T].
      * replace (thr <=? tot) with false by (symmetry; apply Z.leb_gt; lia). eexists _, (GWrote o1), _. split; [reflexivity|]. split; [exact H2|]. intros cs rs Hx. exists o1. auto.
      * replace (thr <=? tot) with true by (symmetry; apply Z.leb_le; lia). destruct (Z.leb_spec 10000 (b_reseeds g)) as [X|X].
        -- replace (10000 <? b_reseeds g + 1) with true by (symmetry; apply Z.ltb_lt; lia). eexists _, (GLate MaxExceeded o1), _. split; [reflexivity|]. split; [exact H3|]. intros cs rs Hx. exists o1. auto.
        -- replace (10000 <? b_reseeds g + 1) with false by (symmetry; apply Z.ltb_ge; lia).
           set (ob := set_counts oa tot (b_reseeds g + 1)) in *. set (gb := bwith g1 (b_nonce g1) tot (b_reseeds g + 1)) in *.
           rewrite (process_ok p HP ob gb (zeros 32) 0 32 ord H3 RD ltac:(rewrite length_zeros; lia) HW). cbn [bind].
           assert (EX : bnext (par_of p) (b_keys gb) (b_nonce gb) 32 = (bstream (b_keys g) (snd nx) 32, bmoved (snd nx) 32)).
           { unfold bnext, par_of. destruct (sp_par p) eqn:EQ; [|reflexivity]. destruct (HP EQ) as (_ & HB & _). replace (sp_blk p <=? 32)%nat with false by (symmetry; apply Nat.leb_gt; lia). reflexivity. }
           rewrite EX. cbn [fst snd]. set (tk := bstream (b_keys g) (snd nx) 32). assert (LT : length tk = 32%nat) by apply keystream_len.
           rewrite splice_all by (rewrite LT; reflexivity).
           assert (BT : bytes tk). { unfold tk. apply (bstream_bytes (b_keys g) (bg_rk o) (bg_rounds o)); [|exact NO]. destruct HG as (_ & _ & _ & _ & _ & HKK & _). exact (HKK RD). }
           pose proof (nonce_rel ob gb (bmoved (snd nx) 32) H3 (moved_ok _ _ NO)) as H4. set (oc := set_nonce ob (bmoved (snd nx) 32)) in *. set (gc := bwith gb (bmoved (snd nx) 32) (b_since gb) (b_reseeds gb)) in *.
           destruct (Z.leb_spec 9999 (b_reseeds g)) as [Y|Y].
           ++ unfold BCG_Update. rewrite LT. cbn [Nat.ltb Nat.leb negb guard bind].
              assert (RC : bg_reseed oc = b_reseeds g + 1) by reflexivity. assert (CC : bg_counter oc = tot) by reflexivity. rewrite RC, CC. cbn [set_counts bg_reseed]. replace (10000 <? b_reseeds g + 1 + 1) with true by (symmetry; apply Z.ltb_lt; lia). cbn [bind].
              pose proof (count_rel oc gc tot (b_reseeds g + 2) H4 (or_introl RD) ltac:(cbn [gc gb bwith b_reseeds]; lia)) as H5. replace (b_reseeds g + 1 + 1) with (b_reseeds g + 2) by lia.
              eexists _, (GLate MaxExceeded o1), _. split; [reflexivity|]. split; [exact H5|]. intros cs rs Hx. exists o1. split; [exact W|]. split; [reflexivity|exact Hx].
           ++ specialize (UP oc gc tk H4 BT ltac:(lia) ltac:(rewrite LT; lia) ltac:(cbn [gc gb bwith b_reseeds]; lia)). cbv zeta in UP. assert (LG : blegal tk = true) by (unfold blegal; rewrite LT; reflexivity). rewrite LG in UP.
              destruct UP as (od & -> & H5). cbn [bind].
              assert (EG : bwith gc (b_nonce gc) (b_since gc) (b_reseeds gc + 1) = bwith g (bmoved (snd nx) 32) tot (b_reseeds g + 2)).
              { unfold gc, gb, g1, bwith. cbn [b_ready b_keys b_custom b_nonce b_since b_reseeds b_calls]. f_equal. lia. }
              rewrite EG in H5. set (gd := bseeded (Some f) (bwith g (bmoved (snd nx) 32) tot (b_reseeds g + 2)) tk) in *.
              assert (SD : bwith gd (b_nonce gd) 0 (b_reseeds gd) = gd) by reflexivity.
              pose proof (count_rel od gd 0 (b_reseeds gd) H5 (or_introl eq_refl) (Z.le_refl _)) as H6. rewrite SD in H6. assert (RE : bg_reseed od = b_reseeds gd) by apply H5. rewrite RE.
              eexists _, (GWrote o1), _. split; [reflexivity|]. split; [exact H6|]. intros cs rs Hx. exists o1. split; [exact W|]. split; [reflexivity|exact Hx].
    + eexists _, (GWrote o1), _. split; [reflexivity|]. split; [exact H1|]. intros cs rs Hx. exists o1. split; [exact W|]. split; [reflexivity|exact Hx].
  - cbn [bstep bexpected bcall_ok] in *. destruct HC as [Bk Hk]. destruct (Nat.ltb_spec (length key) 16) as [L|L].
    { unfold BCG_Update. replace (length key <? 16)%nat with true by (symmetry; apply Nat.ltb_lt; lia). cbn [negb guard bind]. exists o, (GFailed InvalidKey), g. auto. }
    destruct (Z.leb_spec 10000 (b_reseeds g)) as [X|X].
    + unfold BCG_Update. replace (length key <? 16)%nat with false by (symmetry; apply Nat.ltb_ge; lia). cbn [negb guard bind].
      assert (ES : bg_counter o = b_since g /\ bg_reseed o = b_reseeds g) by (split; apply HG). destruct ES as [-> ->]. cbn [set_counts bg_reseed]. replace (10000 <? b_reseeds g + 1) with true by (symmetry; apply Z.ltb_lt; lia).
      eexists _, (GFailed MaxExceeded), _. split; [reflexivity|]. split; [apply (count_rel o g); [exact HG| |lia]; destruct (b_ready g) eqn:Q; [now left|right]; apply HG; exact Q|]. auto.
    + pose proof (update_ok o g key HG Bk L Hk X) as UP. cbv zeta in UP. destruct (blegal key); cbn [negb]; destruct UP as (o' & -> & H'); [exists o', GDone|exists o', (GFailed InvalidKey)]; eexists; (split; [reflexivity|]); (split; [exact H'|]); auto.
Qed.
Lemma bhistory_ok cs : forall o g, brel o g -> Forall (bcall_ok p) cs -> exists rs, bhistory p prov thr o cs = Ok rs /\ bexpected p prov thr g cs rs.
Proof.
  induction cs as [|c cs IH]; intros o g HG HC; [exists []; split; [reflexivity|exact Logic.I]|]. inversion HC as [|? ? Hc HC']; subst c cs. cbn [bhistory].
  destruct (bstep_ok o g _ HG Hc) as (o' & r & g' & -> & HG' & K). cbn [bind fst snd]. destruct (IH o' g' HG' HC') as (rs & -> & E). cbn [bind]. exists (r :: rs). split; [reflexivity|]. now apply K.
Qed.
Lemma bcg_history cs : Forall (bcall_ok p) cs -> exists rs, bhistory p prov thr BCG_new cs = Ok rs /\ bexpected p prov thr bgen_new cs rs.
Proof. apply bhistory_ok, brel_new. Qed.
End calls.
