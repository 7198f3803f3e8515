(** Proofs about Model_GCM. *)
From Verif Require Import Base BaseLemmas Spec_Common Proofs_Common Spec_Modes Spec_GCM Model_IntegerTools Proofs_IntegerTools Proofs_IntegerTools2 Model_Modes Proofs_Windows Proofs_Modes5 ProofsP_Modes ProofsP_Modes2 Model_GHASH Proofs_GF Proofs_CMUL Proofs_GHASH Model_GCM.
Open Scope Z_scope.

Definition gh0 (h : list Z) : ghash := {| gh_key := key_of h; gh_buf := zeros 16; gh_pos := 0 |}.
Definition idle (g : gcm) : Prop := g_aad g = [] /\ g_nonce g = zeros 16 /\ length (g_tag g) = 16%nat /\ length (g_ctr g) = 16%nat.
Lemma idle_new : idle GCM_new. Proof. repeat split. Qed.

Lemma ctr_def E s p ord l io out oo len ctr : block_fun E -> small_profile p ord -> bytes ctr -> length ctr = 16%nat ->
  (oo + len <= length out)%nat -> (io + len <= length l)%nat ->
  exists out', CTR_Transform E s p ord (Some l) io out oo len ctr = Ok (out', be_bytes 16 (value_be ctr + Z.of_nat (blocks_for len))) /\
    written out out' oo (ctr_crypt E (be_bytes 16) (value_be ctr) (slice l io len)).
Proof.
  intros HE HU Hb Hl Ho Hi. pose proof (as_be ctr Hb Hl) as Q. revert Q. generalize (value_be ctr). intros v ->.
  exact (g16_def _ _ (BaseLemmas.length_be_bytes 16) (ctr_counter_mode s p ord HU) E l io out oo len v HE Ho Hi).
Qed.
Lemma written_eq out out' o d : (o + length d <= length out)%nat -> written out out' o d -> out' = splice out o d.
Proof. intros H W. apply (written_unique out _ _ o d); auto. now apply splice_written. Qed.

Lemma length_ctr_crypt E e v m : length (ctr_crypt E e v m) = length m.
Proof. unfold ctr_crypt. now rewrite map_length, seq_length. Qed.
Lemma ctr_crypt_block E v : block_fun E -> ctr_crypt E (be_bytes 16) v (zeros 16) = E (be_bytes 16 v).
Proof.
  intros HE. assert (L : length (E (be_bytes 16 v)) = 16%nat) by (apply HE, length_be_bytes).
  apply (list_ext 0). { rewrite length_ctr_crypt, length_zeros. now rewrite L. }
  intros i Hi. rewrite length_ctr_crypt, length_zeros in Hi. unfold ctr_crypt. rewrite length_zeros.
  erewrite nth_indep by (rewrite map_length, seq_length; exact Hi).
  rewrite (map_nth (fun i => Z.lxor (nth i (zeros 16) 0) (nth (i mod 16) (E (be_bytes 16 (v + Z.of_nat (i / 16)))) 0)) (seq 0 16) 0%nat), seq_nth by exact Hi.
  cbn [Nat.add]. rewrite Nat.mod_small, Nat.div_small by exact Hi. cbn [Z.of_nat]. rewrite Z.add_0_r.
  unfold zeros. rewrite nth_repeat. now rewrite Z.lxor_0_l.
Qed.

Lemma Finalize_pos0 h out a c : blk16 h -> blk16 out -> Z.of_nat a < 2 ^ 61 -> Z.of_nat c < 2 ^ 61 ->
  GHASH_Finalize (gh0 h) out a c = Ok (gh0 h, ghash_from h out [len_block a c]).
Proof.
  intros Hh Ho Ha Hc.
  destruct (Finalize_ok h out [] (gh0 h) out a c Hh Ho) as (g' & E1 & _); auto.
  { apply ginv_start; [reflexivity|apply blk16_zeros|reflexivity]. }
  unfold GHASH_Finalize in E1 |- *. cbn [gh0 gh_pos Nat.eqb bind] in E1 |- *.
  destruct (Be64ToBytes _ _ _) as [t| |]; cbn [bind] in E1 |- *; try discriminate.
  destruct (Be64ToBytes _ _ _) as [t'| |]; cbn [bind] in E1 |- *; try discriminate.
  destruct (wxor _ _ _ _ _) as [t''| |]; cbn [bind] in E1 |- *; try discriminate.
  destruct (GHASH_Permute _ _) as [t3| |]; cbn [bind] in E1 |- *; try discriminate.
  injection E1 as _ ->. reflexivity.
Qed.

Lemma ctr_crypt_bytes E v m : block_fun E -> (forall b, blk16 b -> bytes (E b)) -> bytes m -> bytes (ctr_crypt E (be_bytes 16) v m).
Proof.
  intros HE HB Hm. apply Forall_map, Forall_forall. intros i _. apply lxor_byte; apply bytes_nth; auto.
  apply HB. split; [apply bytes_be_bytes|apply length_be_bytes].
Qed.

(** * Initialize *)
Section G.
Variables (sizes : list nat) (E : list Z -> list Z -> list Z) (s : nat) (p : prof) (ord : nat -> list nat).
Hypothesis (HE : cipher E) (HP : small_profile p ord).

Lemma cipher_block k : block_fun (E k).
Proof using HE. intros b Hb. now apply HE. Qed.
Lemma cipher_blk16 k b : blk16 b -> blk16 (E k b).
Proof using HE. intros (B & L). destruct (HE k b L) as (L' & B'). split; auto. Qed.

Record session (k h iv aad : list Z) (enc : bool) (g : gcm) : Prop := {
  s_aad : g_aad g = aad; s_buf : g_buf g = iv; s_key : g_key g = k; s_nonce : g_nonce g = E k (gcm_j0 h iv);
  s_tag : g_tag g = ghash_from h (zeros 16) (pad_blocks aad); s_count : g_count g = 0%nat; s_enc : g_enc g = enc; s_init : g_init g = true;
  s_gh : g_gh g = gh0 h; s_ctr : g_ctr g = be_bytes 16 (value_be (gcm_j0 h iv) + 1); s_ekey : g_ekey g = k; s_cinit : g_cinit g = true }.

Lemma j0_blk h iv : blk16 h -> bytes iv -> blk16 (gcm_j0 h iv).
Proof.
  intros Hh Hi. unfold gcm_j0. destruct (Nat.eqb_spec (length iv) 12) as [Q|Q].
  - split. { apply bytes_app. split; auto. repeat constructor; cbv; congruence. } rewrite app_length, Q. reflexivity.
  - apply ghash_from_blk, blk16_zeros.
Qed.

Lemma load_nonce_ok h iv : blk16 h -> bytes iv -> Z.of_nat (length iv) < 2 ^ 61 ->
  gcm_load_nonce (gh0 h) (zeros 16) iv = Ok (gh0 h, gcm_j0 h iv).
Proof.
  intros Hh Hi Hl. unfold gcm_load_nonce, gcm_j0. destruct (Nat.eqb_spec (length iv) 12) as [Q|Q].
  - rewrite Q. rewrite wcopy_ok by (rewrite ?length_zeros; lia). cbn [bind].
    rewrite slice_all by auto. unfold splice. cbn [firstn app]. rewrite Q.
    rewrite put_ok by (rewrite app_length, Q; cbn; lia). cbn [bind]. do 2 f_equal.
    assert (U : forall w, upd (iv ++ w) 15 1 = iv ++ upd w 3 1) by (intros w; rewrite <- upd_app_r; f_equal; lia).
    rewrite U. reflexivity.
  - rewrite (Multiply_ok h) by (auto; apply blk16_zeros). cbn [bind].
    rewrite Finalize_pos0; auto; [|apply ghash_from_blk, blk16_zeros|lia]. cbn [bind].
    rewrite wcopy_all. 2:{ rewrite length_zeros. apply ghash_from_blk, ghash_from_blk, blk16_zeros. }
    cbn [bind]. do 2 f_equal. unfold ghash_of. rewrite <- ghash_from_app. reflexivity.
Qed.

Lemma init_core g enc key iv k h : idle g -> blk16 h -> bytes iv -> (8 <= length iv)%nat -> Z.of_nat (length iv) < 2 ^ 61 ->
  gcm_load_key sizes E g GHASH_Reset (zeros (length (g_buf g))) key iv = Ok (gh0 h, k) -> legal sizes k = true ->
  exists g1, GCM_Initialize sizes E s p ord g enc key iv = Ok g1 /\ session k h iv [] enc g1.
Proof using HE HP.
  intros (A & N & T & C) Hh Hi H8 H61 HK HL. unfold GCM_Initialize.
  assert (G : (8 <=? length iv)%nat = true) by (apply Nat.leb_le; lia). rewrite G. cbn [guard bind].
  rewrite HK. cbn [bind]. rewrite N, load_nonce_ok by auto. cbn [bind]. rewrite HL. cbn [guard bind].
  destruct (j0_blk h iv Hh Hi) as (JB & JL). rewrite JL, Nat.eqb_refl. cbn [guard bind].
  rewrite wcopy_all by congruence. cbn [bind].
  destruct (ctr_def (E k) s p ord (zeros 16) 0 (gcm_j0 h iv) 0 16 (gcm_j0 h iv)) as (o & EQ & W); auto; try (rewrite ?length_zeros; lia).
  { apply cipher_block. }
  rewrite EQ. cbn [bind]. eexists. split; [reflexivity|].
  rewrite slice_all in W by reflexivity. rewrite ctr_crypt_block in W by apply cipher_block.
  rewrite <- (as_be _ JB JL) in W.
  apply written_eq in W; [|rewrite (cipher_block k _ JL); lia].
  rewrite splice_all in W by (rewrite (cipher_block k _ JL); lia).
  constructor; cbn; auto. { now rewrite A. } { now rewrite T. }
Qed.

Lemma key_of_val h : blk16 h -> BeBytesTo64 h 0 = Ok (fst (key_of h)) /\ BeBytesTo64 h 8 = Ok (snd (key_of h)).
Proof. intros (B & L). rewrite !BeBytesTo64_correct by (auto; lia). split; reflexivity. Qed.

Lemma init_ok g enc key iv : idle g -> legal sizes key = true -> key <> [] -> bytes iv -> (8 <= length iv)%nat -> Z.of_nat (length iv) < 2 ^ 61 ->
  exists g1, GCM_Initialize sizes E s p ord g enc key iv = Ok g1 /\ session key (E key (zeros 16)) iv [] enc g1.
Proof using HE HP.
  intros HI HL HK Hi H8 H61. assert (Hh : blk16 (E key (zeros 16))) by apply cipher_blk16, blk16_zeros.
  apply init_core with (k := key); auto. unfold gcm_load_key.
  assert (K0 : (length key =? 0)%nat = false) by (apply Nat.eqb_neq; destruct key; [congruence|discriminate]). rewrite K0, HL. cbn [guard bind].
  assert (L := proj2 Hh). rewrite blk_ok; [|cbn; lia|cbn; lia|rewrite slice_all by reflexivity; exact L]. rewrite slice_all by reflexivity.
  rewrite splice_all by (rewrite length_zeros; exact L). cbn [bind].
  destruct (key_of_val _ Hh) as (K1 & K2). rewrite K1, K2. reflexivity.
Qed.

Lemma init_keyless_ok g enc iv : idle g -> g_cinit g = true -> legal sizes (g_key g) = true -> bytes iv -> (8 <= length iv)%nat ->
  Z.of_nat (length iv) < 2 ^ 61 -> iv <> zeros (length (g_buf g)) ->
  exists g1, GCM_Initialize sizes E s p ord g enc [] iv = Ok g1 /\ session (g_key g) (zeros 16) iv [] enc g1.
Proof using HE HP.
  intros HI HC HL Hi H8 H61 Hne. apply init_core with (k := g_key g); auto. { apply blk16_zeros. }
  unfold gcm_load_key. cbn [length Nat.eqb]. unfold same_bytes. destruct (list_eq_dec _ _ _) as [Q|_]; [contradiction|].
  rewrite HC. reflexivity.
Qed.

Lemma aad_ok k h iv enc g inp off len : blk16 h -> session k h iv [] enc g -> bytes inp -> (off + len <= length inp)%nat ->
  exists g1, GCM_SetAssociatedData g inp off len = Ok g1 /\ session k h iv (slice inp off len) enc g1.
Proof.
  intros Hh S Hi Hl. destruct S as [S1 S2 S3 S4 S5 S6 S7 S8 S9 S10 S11 S12]. unfold GCM_SetAssociatedData. rewrite S8, S1. cbn [guard bind length Nat.eqb].
  rewrite rd_ok by auto. cbn [bind]. rewrite S9, S5. cbn [pad_blocks chunks chunks_fuel map length ghash_from fold_left].
  pose proof (Multiply_ok h (gh0 h) (slice inp off len) (zeros 16) Hh eq_refl (bytes_slice _ _ _ Hi) blk16_zeros) as M.
  rewrite length_slice in M by auto. rewrite M. cbn [bind]. eexists. split; [reflexivity|]. constructor; auto.
Qed.

(** * Transform *)
Definition tag_of (k h iv aad c : list Z) : list Z := xorl (ghash_of h aad c) (E k (gcm_j0 h iv)).

Lemma finalize_ok k h iv aad g c out oo : blk16 h -> bytes iv -> blk16 (g_nonce g) -> g_nonce g = E k (gcm_j0 h iv) -> g_aad g = aad -> g_init g = true ->
  ginv h (ghash_from h (zeros 16) (pad_blocks aad)) c (g_gh g) (g_tag g) -> g_count g = length c ->
  Z.of_nat (length aad) < 2 ^ 61 -> Z.of_nat (length c) < 2 ^ 61 -> (oo + 16 <= length out)%nat ->
  exists g', gcm_finalize g out oo 16 = Ok (g', splice out oo (tag_of k h iv aad c), None) /\
    g_aad g' = [] /\ g_nonce g' = zeros 16 /\ g_tag g' = tag_of k h iv aad c /\ g_ctr g' = g_ctr g /\ g_key g' = g_key g /\ g_ekey g' = g_ekey g /\
    g_cinit g' = g_cinit g /\ g_buf g' = g_buf g /\ g_init g' = false.
Proof.
  intros Hh Hi Hn En Ea Ei G Ec La Lc Ho. unfold gcm_finalize. rewrite Ei. cbn [Nat.ltb Nat.leb orb negb].
  destruct (Finalize_ok h (ghash_from h (zeros 16) (pad_blocks aad)) c (g_gh g) (g_tag g) (length aad) (length c) Hh) as (gh' & E1 & _); auto.
  { apply ghash_from_blk, blk16_zeros. }
  rewrite Ea, Ec, E1. cbn [bind].
  assert (L : forall y bs, blk16 y -> length (ghash_from h y bs) = 16%nat) by (intros; now apply ghash_from_blk).
  assert (T : xorl (ghash_from h (ghash_from h (zeros 16) (pad_blocks aad)) (pad_blocks c ++ [len_block (length aad) (length c)])) (g_nonce g) = tag_of k h iv aad c).
  { unfold tag_of, ghash_of. now rewrite <- ghash_from_app, En. }
  rewrite xor_block. 2:{ apply L, ghash_from_blk, blk16_zeros. } 2:{ destruct Hn; lia. }
  cbn [bind]. rewrite slice_all by (destruct Hn; auto). rewrite T.
  assert (LT : length (tag_of k h iv aad c) = 16%nat).
  { rewrite <- T. rewrite length_xorl. rewrite L by apply ghash_from_blk, blk16_zeros. destruct Hn; lia. }
  rewrite wcopy_ok by lia. cbn [bind]. rewrite slice_all by auto.
  eexists. split; [reflexivity|]. cbn. destruct Hn as (_ & ->). repeat split; auto.
Qed.

Lemma tag_blk k h iv aad c : blk16 h -> bytes iv -> blk16 (tag_of k h iv aad c).
Proof using HE. intros Hh Hi. apply blk16_xorl; [apply ghash_from_blk, blk16_zeros|]. apply cipher_blk16, j0_blk; auto. Qed.

Definition done (k iv : list Z) (g : gcm) : Prop :=
  idle g /\ g_key g = k /\ g_cinit g = true /\ g_buf g = iv /\ g_init g = false.

Lemma encrypt_ok k h iv aad g l io out oo len : blk16 h -> bytes iv -> session k h iv aad true g -> bytes l -> bytes out ->
  (io + len <= length l)%nat -> (oo + len + 16 <= length out)%nat -> Z.of_nat (length aad) < 2 ^ 61 -> Z.of_nat len < 2 ^ 61 ->
  let c := ctr_crypt (E k) (be_bytes 16) (value_be (gcm_j0 h iv) + 1) (slice l io len) in
  exists g' out', GCM_Transform E s p ord g (Some l) io out oo len = Ok (g', out', None) /\
    written out out' oo (c ++ tag_of k h iv aad c) /\ g_tag g' = tag_of k h iv aad c /\ done k iv g'.
Proof using HE HP.
  intros Hh Hi S Bl Bo H1 H2 La Ll c. destruct S as [S1 S2 S3 S4 S5 S6 S7 S8 S9 S10 S11 S12].
  unfold GCM_Transform. rewrite S7, S11, S10.
  destruct (ctr_def (E k) s p ord l io out oo len (be_bytes 16 (value_be (gcm_j0 h iv) + 1))) as (o1 & E1 & W1); auto; try lia.
  { apply cipher_block. } { apply bytes_be_bytes. }
  rewrite E1. cbn [bind].
  assert (V : ctr_crypt (E k) (be_bytes 16) (value_be (be_bytes 16 (value_be (gcm_j0 h iv) + 1))) (slice l io len) = c).
  { unfold c, ctr_crypt. apply map_ext. intros i. do 3 f_equal. apply be_bytes_cong. rewrite value_be_eq, be_val_be_bytes. apply Zplus_mod_idemp_l. }
  rewrite V in W1. assert (Lc : length c = len) by (unfold c; rewrite length_ctr_crypt, length_slice; auto).
  apply written_eq in W1; [|lia]. assert (Lo1 : length o1 = length out) by (rewrite W1; apply length_splice; lia).
  assert (Sl : slice o1 oo len = c) by (rewrite W1, <- Lc; apply slice_splice_same; lia).
  assert (Bc : bytes c). { unfold c. apply ctr_crypt_bytes; [apply cipher_block|intros; now apply cipher_blk16|now apply bytes_slice]. }
  destruct (Update_ok h (ghash_from h (zeros 16) (pad_blocks aad)) [] (g_gh g) (g_tag g) o1 oo len) as (g1 & t1 & E2 & G2); auto.
  { apply ghash_from_blk, blk16_zeros. } { rewrite S9, S5. apply ginv_start; auto. apply blk16_zeros. } { rewrite W1. now apply bytes_splice. } { lia. }
  rewrite E2. cbn [bind app] in G2 |- *. rewrite Sl in G2.
  destruct (finalize_ok k h iv aad (gcm_set_ctr (gcm_absorb g len g1 t1) (be_bytes 16 (value_be (be_bytes 16 (value_be (gcm_j0 h iv) + 1)) + Z.of_nat (blocks_for len)))) c o1 (oo + len)) as (g' & E3 & F1 & F2 & F3 & F4 & F5 & F6 & F7 & F8 & F9);
    cbn [g_nonce g_aad g_init g_gh g_tag g_count gcm_set_ctr gcm_absorb]; auto; try lia.
  { rewrite S4. apply cipher_blk16, j0_blk; auto. }
  exists g'. eexists. split; [exact E3|].
  assert (LT := proj2 (tag_blk k h iv aad c Hh Hi)).
  split; [|split; [exact F3|]].
  - rewrite W1. replace (oo + len)%nat with (oo + length c)%nat by lia. rewrite splice_splice_next by lia.
    apply splice_written. rewrite app_length. lia.
  - cbn [g_aad g_buf g_key g_nonce g_tag g_count g_enc g_init g_gh g_ctr g_ekey g_cinit gcm_set_ctr gcm_set_tag gcm_absorb] in F4, F5, F7, F8. split; [|repeat split; congruence]. split; [exact F1|split; [exact F2|split; [now rewrite F3|]]]. rewrite F4. apply length_be_bytes.
Qed.

Lemma decrypt_ok k h iv aad g l io out oo len : blk16 h -> bytes iv -> session k h iv aad false g -> bytes l ->
  (io + len + 16 <= length l)%nat -> (oo + len <= length out)%nat -> Z.of_nat (length aad) < 2 ^ 61 -> Z.of_nat len < 2 ^ 61 ->
  let c := slice l io len in
  exists g' out' e, GCM_Transform E s p ord g (Some l) io out oo len = Ok (g', out', e) /\ done k iv g' /\
    ((slice l (io + len) 16 = tag_of k h iv aad c /\ e = None /\ g_tag g' = tag_of k h iv aad c /\
      written out out' oo (ctr_crypt (E k) (be_bytes 16) (value_be (gcm_j0 h iv) + 1) c)) \/
     (slice l (io + len) 16 <> tag_of k h iv aad c /\ e = Some AuthenticationFailure /\ out' = out)).
Proof using HE HP.
  intros Hh Hi S Bl H1 H2 La Ll c. destruct S as [S1 S2 S3 S4 S5 S6 S7 S8 S9 S10 S11 S12].
  unfold GCM_Transform. rewrite S7. cbn [src].
  assert (Lc : length c = len) by (unfold c; apply length_slice; lia).
  destruct (Update_ok h (ghash_from h (zeros 16) (pad_blocks aad)) [] (g_gh g) (g_tag g) l io len) as (g1 & t1 & E2 & G2); auto; try lia.
  { apply ghash_from_blk, blk16_zeros. } { rewrite S9, S5. apply ginv_start; auto. apply blk16_zeros. }
  rewrite E2. cbn [bind app] in G2 |- *. fold c in G2. unfold gcm_verify.
  destruct (finalize_ok k h iv aad (gcm_absorb g len g1 t1) c (zeros 16) 0) as (g' & E3 & F1 & F2 & F3 & F4 & F5 & F6 & F7 & F8 & F9);
    cbn [g_nonce g_aad g_init g_gh g_tag g_count gcm_absorb]; auto; try (rewrite ?length_zeros; lia).
  { rewrite S4. apply cipher_blk16, j0_blk; auto. }
  rewrite E3. cbn [bind].
  assert (TB := tag_blk k h iv aad c Hh Hi). destruct TB as (TB & LT). rewrite splice_all by (rewrite length_zeros; exact LT).
  cbn [g_ctr g_key g_ekey g_cinit g_buf gcm_absorb] in F4, F5, F6, F7, F8.
  destruct (Compare_correct (tag_of k h iv aad c) 0 l (io + len) 16) as (r & E4 & R); auto; try lia.
  rewrite E4. cbn [bind]. rewrite slice_all in R by auto.
  destruct r; cbn [negb].
  - destruct (ctr_def (E k) s p ord l io out oo len (be_bytes 16 (value_be (gcm_j0 h iv) + 1))) as (o1 & E1 & W1); auto; try lia.
    { apply cipher_block. } { apply bytes_be_bytes. }
    cbn [g_aad g_buf g_key g_nonce g_tag g_count g_enc g_init g_gh g_ctr g_ekey g_cinit gcm_set_ctr gcm_set_tag gcm_absorb]. rewrite F6, S11, F4, S10, E1. cbn [bind].
    do 3 eexists. split; [reflexivity|]. split.
    { split; [|cbn [g_aad g_buf g_key g_nonce g_tag g_count g_enc g_init g_gh g_ctr g_ekey g_cinit gcm_set_ctr gcm_set_tag gcm_absorb]; repeat split; congruence]. split; [exact F1|split; [exact F2|split; [exact LT|]]]. apply length_be_bytes. }
    left. split; [symmetry; now apply R|]. split; [reflexivity|]. split; [reflexivity|].
    replace (ctr_crypt (E k) (be_bytes 16) (value_be (gcm_j0 h iv) + 1) c) with (ctr_crypt (E k) (be_bytes 16) (value_be (be_bytes 16 (value_be (gcm_j0 h iv) + 1))) (slice l io len)); [exact W1|].
    unfold c, ctr_crypt. apply map_ext. intros i. do 3 f_equal. apply be_bytes_cong. rewrite value_be_eq, be_val_be_bytes. apply Zplus_mod_idemp_l.
  - do 3 eexists. split; [reflexivity|]. split.
    { split; [|cbn [g_aad g_buf g_key g_nonce g_tag g_count g_enc g_init g_gh g_ctr g_ekey g_cinit gcm_set_ctr gcm_set_tag gcm_absorb]; repeat split; congruence]. split; [exact F1|split; [exact F2|split; [reflexivity|]]]. cbn [g_aad g_buf g_key g_nonce g_tag g_count g_enc g_init g_gh g_ctr g_ekey g_cinit gcm_set_ctr gcm_set_tag gcm_absorb]. rewrite F4, S10. apply length_be_bytes. }
    right. split; [|split; reflexivity]. intro Q. symmetry in Q. apply R in Q. discriminate.
Qed.
End G.
