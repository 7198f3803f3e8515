(** Glue for Properties_CSX.v: splitting, in-place calls, Serialize. *)
From Coq Require Import Permutation.
From Verif Require Import BaseLemmas Spec_Common Proofs_Common Proofs_GCM Proofs_Keys Proofs_IntegerTools Spec_Keccak Proofs_Keccak Proofs_Sponge Proofs_SHA3 Proofs_XOF Proofs_KMAC Proofs_KMAC2 Session_KMAC Model_SHAKE
  Spec_ChaCha Proofs_ChaCha Proofs_ChaCha2 Model_IntegerTools Model_Modes Proofs_Windows Model_ChaCha Spec_Stream Model_CSX Session_CSX Proofs_CSX Proofs_CSX2 Proofs_CSX3 ProofsP_CSX.
Open Scope Z_scope.

(** * block-aligned pieces *)
Lemma plain_packets cf c (HM : matches cf c) ls : Forall (lok c false) ls -> forall n l, nok false n -> Forall (fun l => (length (l_msg l) mod b_B c = 0)%nat) ls -> lok c false l ->
  concat (packets c n (ls ++ [l])) = crypt c n (concat (map l_msg (ls ++ [l]))).
Proof.
  assert (HEAR : forall n l, lok c false l -> heard c n l = n) by (intros n l (_ & _ & L & _); unfold heard; now rewrite L).
  assert (PK : forall n m, nok false n -> packet c n m = crypt c n m /\ sent1 c n m = moved c n (length m)).
  { intros n m [_ N]. unfold packet, sent1. destruct (n_mac n) as [(A & x)|]; [destruct N; discriminate|auto]. }
  induction 1 as [|x ls Lx H IH]; intros n l N HB Ll; cbn [app packets map concat].
  - rewrite HEAR by exact Ll. destruct (PK n (l_msg l) N) as [-> _]. rewrite !app_nil_r. reflexivity.
  - inversion HB as [|? ? Hx HB']; subst. rewrite HEAR by exact Lx. destruct (PK n (l_msg x) N) as [-> ->].
    rewrite IH; auto. pose proof (M_B0 _ _ HM) as B0. unfold crypt. set (k := (length (l_msg x) / b_B c)%nat). assert (LK : length (l_msg x) = (k * b_B c)%nat) by (rewrite Nat.mul_comm; apply Nat.div_exact; lia).
    rewrite (crypt_app (b_B c) _ B0 (block_facts cf c HM n (proj1 N)) (n_pos n) k) by exact LK. cbn [moved n_state n_pos]. rewrite LK. rewrite (nblocks_exact (b_B c) _ B0 (block_facts cf c HM n (proj1 N))). reflexivity.
Qed.
Lemma c42_split cf c s p key iv info ls l : In (cf, c) stream_ciphers -> profile_ok (b_B c) p -> bytes key -> bytes iv -> bytes info -> accepted c key iv info = true ->
  Forall (letter_ok c false p p) (ls ++ [l]) -> Forall (fun l => (length (l_msg l) mod b_B c = 0)%nat) ls ->
  exists rs, xhistory cf s p (S_new false) (XInit true key iv info :: seal_calls 0 (ls ++ [l])) = Ok rs /\
    let L := b_layout c key iv (code_of c (zeros (b_code c)) info) in concat (outs rs) = stream_crypt (b_B c) (b_block c (fst L)) (snd L) (concat (map l_msg (ls ++ [l]))).
Proof.
  intros HI HP Bk Bi Bf HA HL HB. pose proof (all_match _ _ HI) as HM. pose proof (lok_of c false p p _ HL) as HK.
  destruct (c42_hist cf c s p false true key iv info (seal_calls 0 (ls ++ [l]))) as (rs & E & X); auto; [now apply (seal_ok c false p p)|]. rewrite E. exists (XDone :: rs). split; [reflexivity|].
  set (n := opened c false (zeros (b_code c)) true key iv info) in *. assert (N : nok false n) by (apply (opened_ok cf c false HM); auto; apply length_zeros).
  rewrite <- (app_nil_r (seal_calls _ _)) in X. destruct (seal_run cf c false HM _ HK n [] rs N eq_refl X) as (ra & rb & -> & O & _ & _ & X2). destruct rb; [|contradiction]. rewrite app_nil_r in *.
  change (outs (XDone :: ra)) with (outs ra). rewrite O. apply Forall_app in HK. destruct HK as [HK HKl]. inversion HKl; subst. rewrite (plain_packets cf c HM) by auto. reflexivity.
Qed.

(** * in place *)
Lemma xorl_self (l : list Z) : xorl l l = zeros (length l).
Proof. induction l as [|x l IH]; [reflexivity|]. cbn [xorl length]. unfold zeros in *. cbn [repeat]. now rewrite IH, Z.lxor_nilpotent. Qed.
Lemma zero_tail k n : forall a out, (k + a + n <= length out)%nat ->
  for_up a n (fun i out => x <- get out (i + k) ;; y <- get out (i + k) ;; put out (i + k) (Z.lxor y x)) out = Ok (splice out (k + a) (zeros n)).
Proof.
  induction n as [|n IH]; intros a out H; cbn [for_up].
  - unfold splice. cbn [zeros repeat app length]. rewrite Nat.add_0_r. now rewrite firstn_skipn.
  - rewrite !(get_ok _ _ 0) by lia. cbn [bind]. rewrite put_ok by lia. cbn [bind]. rewrite Z.lxor_nilpotent. rewrite IH by (rewrite length_upd; lia). f_equal.
    rewrite upd_as_splice by lia. replace (a + k)%nat with (k + a)%nat by lia. replace (k + S a)%nat with (k + a + length [0%Z])%nat by (cbn; lia).
    rewrite splice_splice_next by (rewrite length_zeros; cbn [length]; lia). reflexivity.
Qed.
Lemma splice_over (l : list Z) o a b : length a = length b -> (o + length a <= length l)%nat -> splice (splice l o a) o b = splice l o b.
Proof.
  intros E H. assert (LS : length (splice l o a) = length l) by (apply length_splice; lia). apply (list_ext 0); [rewrite !length_splice; lia|]. intros i _. rewrite nth_splice by lia. rewrite (nth_splice l o b) by lia. rewrite nth_splice by lia. rewrite E.
  destruct (i <? o)%nat; [reflexivity|]. destruct (i <? o + length b)%nat; reflexivity.
Qed.
Section place.
Context (cf : sconf) (c : cipher) (s : nat) (p : sprof).
Hypothesis HM : matches cf c.
Lemma proc_none ord o n k out len : cabs c false o n -> (k + len <= length out)%nat -> short out -> (sp_par p = false \/ (len < sp_min p)%nat) ->
  exists o', S_proc cf s p ord o None k out k len = Ok (o', splice out k (zeros len), None).
Proof.
  intros CA Ho So HS. destruct CA as (C1 & C2 & C3 & _). unfold S_proc. rewrite C1, C2, (M_w _ _ HM), (M_B _ _ HM).
  set (perm := fun (out : list Z) (oo : nat) (ctr : list Z) => c_perm cf out oo ctr (n_state n)).
  assert (HPm : forall out oo v, (oo + b_B c <= length out)%nat -> perm out oo (counter_words (b_w c) v) = Ok (splice out oo (b_block c (n_state n) v))) by (intros; now apply (M_perm _ _ HM)).
  unfold S_Process. cbn [src]. unfold short in So. rewrite (prclen_ok (b_B c) _ (M_B0 _ _ HM) (block_facts cf c HM n C3) (b_w c) perm HPm) by (auto; lia).
  replace (negb (sp_par p) || (len <? sp_min p)%nat) with true by (symmetry; apply orb_true_iff; destruct HS as [->|]; [now left|right; now apply Nat.ltb_lt]).
  rewrite (S_Generate_ok (b_B c) _ (M_B0 _ _ HM) (block_facts cf c HM n C3) (b_w c) perm (M_w0 _ _ HM) HPm) by exact Ho. cbn [bind].
  set (ks := keystream _ _ _ _). assert (LK : length ks = len) by apply keystream_len. set (out1 := splice out k ks). assert (L1 : length out1 = length out) by (apply length_splice; lia).
  set (aln := (len - len mod b_B c)%nat). assert (A1 : (aln <= len)%nat) by (unfold aln; lia).
  assert (E1 : (if (aln =? 0)%nat then Ok out1 else wxor out1 k out1 k aln) = Ok (splice out1 k (zeros aln))).
  { destruct (Nat.eqb_spec aln 0) as [->|]; [unfold splice; cbn [zeros repeat app length]; now rewrite Nat.add_0_r, firstn_skipn|]. rewrite wxor_ok by lia. rewrite xorl_self, length_slice by lia. reflexivity. }
  rewrite E1. cbn [bind]. rewrite zero_tail by (rewrite length_splice; rewrite ?length_zeros; lia). cbn [bind].
  assert (E2 : splice (splice out1 k (zeros aln)) (k + aln) (zeros (len - aln)) = splice out k (zeros len)).
  { replace (k + aln)%nat with (k + length (zeros aln))%nat by (now rewrite length_zeros). rewrite splice_splice_next by (rewrite !length_zeros; lia).
    replace (zeros aln ++ zeros (len - aln)) with (zeros len) by (unfold zeros; rewrite <- repeat_app; f_equal; lia). unfold out1. apply splice_over; rewrite ?length_zeros; lia. }
  rewrite E2. eexists. reflexivity.
Qed.
Lemma c42_in_place' ord enc key iv info k out len : profile_ok (b_B c) p -> bytes key -> bytes iv -> bytes info -> accepted c key iv info = true -> (k + len <= length out)%nat -> short out -> (sp_par p = false \/ (len < sp_min p)%nat) ->
  exists o o', S_Initialize cf p (S_new false) enc key iv info = Ok o /\ S_Transform cf s p ord o None k out k len = Ok (o', splice out k (zeros len), None).
Proof.
  intros HP Bk Bi Bf HA Ho So HS. destruct (Init_ok cf c s p false HM HP (S_new false) (zeros (b_code c)) enc key iv info) as (o & E & CA); auto; [left; auto|].
  destruct (proc_none ord o _ k out len CA Ho So HS) as (o' & E'). exists o, o'. split; [exact E|]. unfold S_Transform. destruct CA as (_ & _ & _ & _ & _ & _ & C7 & _). rewrite C7. destruct (s_enc o); exact E'.
Qed.
(** an object that was never initialised *)
Lemma fresh_plain ord m : short m -> (sp_par p = false \/ (length m < sp_min p)%nat) ->
  exists o', S_Transform cf s p ord (S_new false) (Some m) 0 (zeros (length m)) 0 (length m) = Ok (o', stream_crypt (b_B c) (b_block c (zeros 14)) 0 m, None).
Proof.
  intros Sm HS. unfold S_Transform. cbn [S_new s_enc s_auth]. unfold S_proc. cbn [s_ctr s_st]. rewrite (M_w _ _ HM), (M_B _ _ HM).
  set (perm := fun (out : list Z) (oo : nat) (ctr : list Z) => c_perm cf out oo ctr (zeros 14)).
  assert (HPm : forall out oo v, (oo + b_B c <= length out)%nat -> perm out oo (counter_words (b_w c) v) = Ok (splice out oo (b_block c (zeros 14) v))) by (intros; now apply (M_perm _ _ HM)).
  assert (Z2 : zeros 2 = counter_words (b_w c) 0) by (unfold counter_words; rewrite Zdiv_0_l, Zmod_0_l; reflexivity).
  match goal with |- context [S_Process ?w ?B ?f ?s ?p ?ord ?i ?io ?out ?oo ?len ?ctr] => change ctr with (zeros 2); rewrite Z2 end.
  assert (F : fit m (zeros (length m)) 0 0 (length m)) by (unfold short in Sm; red; rewrite length_zeros; repeat split; lia).
  rewrite (S_seq_ok (b_B c) _ (M_B0 _ _ HM) (fun v => M_len _ _ HM (zeros 14) v eq_refl) (b_w c) perm (M_w0 _ _ HM) HPm) by auto. cbn [bind]. rewrite slice_full by reflexivity.
  rewrite splice_all; [eexists; reflexivity|]. rewrite length_zeros. apply (crypt_len (b_B c) _ (M_B0 _ _ HM) (fun v => M_len _ _ HM (zeros 14) v eq_refl)).
Qed.
Lemma fresh_auth ord inp io out oo len : S_Transform cf s p ord (S_new true) inp io out oo len = UB.
Proof. reflexivity. Qed.
End place.

(** * Serialize *)
Lemma le_words_concat n ws : (0 < n)%nat -> Forall (fun x => 0 <= x < 256 ^ Z.of_nat n) ws -> le_words n (concat (map (le_bytes n) ws)) = ws.
Proof.
  intros Hn. induction 1 as [|x ws Hx H IH]; [reflexivity|]. cbn [map concat]. unfold le_words in *. rewrite chunks_app by (auto; apply length_le_bytes). cbn [map]. rewrite IH. f_equal. rewrite le_val_le_bytes. now apply Z.mod_small.
Qed.
Lemma le_words_range n l : (0 < n)%nat -> bytes l -> forall k, length l = (n * k)%nat -> Forall (fun x => 0 <= x < 256 ^ Z.of_nat n) (le_words n l).
Proof.
  intros Hn B k. revert l B. induction k as [|k IH]; intros l B H.
  - rewrite Nat.mul_0_r in H. destruct l; [constructor|discriminate].
  - replace l with (firstn n l ++ skipn n l) by apply firstn_skipn. assert (L : length (firstn n l) = n) by (rewrite firstn_length; lia). unfold le_words in *. rewrite chunks_app by auto. cbn [map]. constructor.
    + pose proof (le_val_range (firstn n l) (bytes_firstn n l B)) as R. now rewrite L in R.
    + apply IH; [now apply bytes_skipn|rewrite skipn_length; lia].
Qed.
Lemma words_at n ws a b o : (0 < n)%nat -> Forall (fun x => 0 <= x < 256 ^ Z.of_nat n) ws -> o = length a -> words n (a ++ concat (map (le_bytes n) ws) ++ b) o (length ws) = Ok ws.
Proof.
  intros Hn HW ->. pose proof (concat_le_len n ws) as L. rewrite words_ok by (rewrite ?app_length; lia). f_equal. rewrite (slice_mid a _ b); [now apply le_words_concat|reflexivity|now rewrite L].
Qed.
Lemma vec_at v a b o : Z.of_nat (length v) < 65536 -> o = length a -> vec16 (a ++ le_bytes 2 (u16 (Z.of_nat (length v))) ++ v ++ b) o = Ok (v, (o + 2 + length v)%nat).
Proof.
  intros H ->. assert (E : u16 (Z.of_nat (length v)) = Z.of_nat (length v)) by (unfold u16; apply Z.mod_small; lia). rewrite E. unfold vec16, LeBytesTo. pose proof (length_le_bytes 2 (Z.of_nat (length v))) as L2.
  rewrite rd_ok by (rewrite !app_length, L2; lia). rewrite (slice_mid a) by (auto; now rewrite L2). cbn [bind]. rewrite le_val_le_bytes. change (256 ^ Z.of_nat 2) with 65536. rewrite Z.mod_small by lia. rewrite Nat2Z.id.
  rewrite app_assoc. rewrite rd_ok by (rewrite !app_length, L2; lia). rewrite (slice_mid (a ++ le_bytes 2 (Z.of_nat (length v))) v b); [reflexivity|rewrite app_length, L2; lia|reflexivity].
Qed.
Lemma flag_at b a t o : o = length a -> flag_of (a ++ flag b :: t) o = Ok b.
Proof. intros ->. unfold flag_of. rewrite (get_ok _ _ 0) by (rewrite app_length; cbn; lia). rewrite app_nth2, Nat.sub_diag by lia. cbn [nth bind]. destruct b; reflexivity. Qed.
Lemma restore_ok cf o : (0 < c_wb cf)%nat -> length (s_st o) = 14%nat -> length (s_ctr o) = 2%nat -> Forall (fun x => 0 <= x < 256 ^ Z.of_nat (c_wb cf)) (s_st o) -> Forall (fun x => 0 <= x < 256 ^ Z.of_nat (c_wb cf)) (s_ctr o) ->
  Z.of_nat (length (s_custom o)) < 65536 -> Z.of_nat (length (s_mkey o)) < 65536 -> Z.of_nat (length (s_mtag o)) < 65536 -> 0 <= s_count o < 2 ^ 64 -> (c_thresh cf <= length (S_Serialize cf o))%nat ->
  S_restore cf (S_Serialize cf o) = (mac <- (if s_auth o then _ <- guard (negb (length (s_mkey o) =? 0)%nat) InvalidParam ;; m <- KMAC_Initialize (c_rate cf) KMAC_new (s_mkey o) [] [] ;; Ok (Some m) else Ok None) ;;
    Ok (SObj (s_ctr o) (s_st o) (s_custom o) (s_mkey o) (s_mtag o) (s_count o) (s_auth o) (s_enc o) (s_init o) mac)).
Proof.
  intros Hn L1 L2 W1 W2 S1 S2 S3 HC HT. unfold S_restore. rewrite (proj2 (Nat.leb_le _ _)) by exact HT. cbn [guard bind]. cbv zeta. set (n := c_wb cf) in *.
  set (l := S_Serialize cf o).
  set (p1 := concat (map (le_bytes n) (s_st o))). set (c1 := le_bytes 2 (u16 (Z.of_nat (length (s_custom o))))). set (c2 := le_bytes 2 (u16 (Z.of_nat (length (s_mkey o))))). set (c3 := le_bytes 2 (u16 (Z.of_nat (length (s_mtag o))))).
  set (p2 := concat (map (le_bytes n) (s_ctr o))). set (p3 := le_bytes 8 (s_count o)).
  assert (Q1 : length p1 = (14 * n)%nat) by (unfold p1; rewrite concat_le_len; lia). assert (Q2 : length p2 = (2 * n)%nat) by (unfold p2; rewrite concat_le_len; lia). assert (Q3 : length p3 = 8%nat) by apply length_le_bytes.
  assert (Qc1 : length c1 = 2%nat) by apply length_le_bytes. assert (Qc2 : length c2 = 2%nat) by apply length_le_bytes. assert (Qc3 : length c3 = 2%nat) by apply length_le_bytes.
  set (fl := [flag (s_auth o); flag (s_enc o); flag (s_init o)]).
  assert (E0 : l = [] ++ p1 ++ c1 ++ s_custom o ++ c2 ++ s_mkey o ++ c3 ++ s_mtag o ++ p2 ++ p3 ++ fl) by reflexivity.
  assert (X : words n l 0 14 = Ok (s_st o)). { rewrite E0. rewrite <- L1. now apply words_at. }
  rewrite X. cbn [bind]. clear X.
  assert (X : vec16 l (14 * n) = Ok (s_custom o, (14 * n + 2 + length (s_custom o))%nat)). { rewrite E0. cbn [app]. now apply vec_at. }
  rewrite X. cbn [bind]. clear X. set (k1 := (14 * n + 2 + length (s_custom o))%nat).
  assert (X : vec16 l k1 = Ok (s_mkey o, (k1 + 2 + length (s_mkey o))%nat)).
  { replace l with ((p1 ++ c1 ++ s_custom o) ++ c2 ++ s_mkey o ++ c3 ++ s_mtag o ++ p2 ++ p3 ++ fl) by (rewrite E0, <- !app_assoc; reflexivity). apply vec_at; [exact S2|]. unfold k1. rewrite !app_length, Q1, Qc1. lia. }
  rewrite X. cbn [bind]. clear X. set (k2 := (k1 + 2 + length (s_mkey o))%nat).
  assert (X : vec16 l k2 = Ok (s_mtag o, (k2 + 2 + length (s_mtag o))%nat)).
  { replace l with ((p1 ++ c1 ++ s_custom o ++ c2 ++ s_mkey o) ++ c3 ++ s_mtag o ++ p2 ++ p3 ++ fl) by (rewrite E0, <- !app_assoc; reflexivity). apply vec_at; [exact S3|]. unfold k2, k1. rewrite !app_length, Q1, Qc1, Qc2. lia. }
  rewrite X. cbn [bind]. clear X. set (k3 := (k2 + 2 + length (s_mtag o))%nat). set (pre := p1 ++ c1 ++ s_custom o ++ c2 ++ s_mkey o ++ c3 ++ s_mtag o).
  assert (LP : length pre = k3) by (unfold pre, k3, k2, k1; rewrite !app_length, Q1, Qc1, Qc2, Qc3; lia).
  assert (E1 : l = pre ++ p2 ++ p3 ++ fl) by (unfold pre; rewrite E0, <- !app_assoc; reflexivity).
  assert (X : words n l k3 2 = Ok (s_ctr o)). { rewrite E1, <- L2. now apply words_at. }
  rewrite X. cbn [bind]. clear X. cbv zeta. set (k4 := (k3 + 2 * n)%nat).
  assert (X : LeBytesTo 8 l k4 = Ok (s_count o)).
  { replace l with ((pre ++ p2) ++ p3 ++ fl) by (rewrite E1, <- !app_assoc; reflexivity). unfold LeBytesTo. rewrite rd_ok by (rewrite !app_length; unfold k4; lia). rewrite (slice_mid (pre ++ p2) p3); [|unfold k4; rewrite app_length; lia|lia]. cbn [bind]. f_equal. unfold p3. rewrite le_val_le_bytes. apply Z.mod_small. exact HC. }
  rewrite X. cbn [bind]. clear X.
  assert (F : forall a b f, l = a ++ flag b :: f -> forall i, i = length a -> flag_of l i = Ok b) by (intros a b f -> i Hi; now apply flag_at).
  rewrite (F (pre ++ p2 ++ p3) (s_auth o) [flag (s_enc o); flag (s_init o)]); [|rewrite E1, <- !app_assoc; reflexivity|unfold k4; rewrite !app_length; lia]. cbn [bind].
  rewrite (F (pre ++ p2 ++ p3 ++ [flag (s_auth o)]) (s_enc o) [flag (s_init o)]); [|rewrite E1, <- !app_assoc; reflexivity|unfold k4; rewrite !app_length; cbn [length]; lia]. cbn [bind].
  rewrite (F (pre ++ p2 ++ p3 ++ [flag (s_auth o); flag (s_enc o)]) (s_init o) []); [|rewrite E1, <- !app_assoc; reflexivity|unfold k4; rewrite !app_length; cbn [length]; lia]. reflexivity.
Qed.
Lemma layout_range cf c (H : In (cf, c) stream_ciphers) key iv code : bytes key -> bytes iv -> bytes code -> length key = b_key c -> length iv = b_iv c -> length code = b_code c ->
  Forall (fun x => 0 <= x < 256 ^ Z.of_nat (c_wb cf)) (fst (b_layout c key iv code)).
Proof.
  intros B1 B2 B3 L1 L2 L3. unfold stream_ciphers in H. cbn [In] in H. destruct H as [E|[E|[]]]; injection E as <- <-; cbn [b_layout chacha20 csx512 fst c_wb chacha_conf csx_conf b_key b_iv b_code] in *.
  - apply (le_words_range 4 _ ltac:(lia)) with (k := 14%nat); [rewrite ?Forall_app; unfold bytes; rewrite !Forall_app; auto|rewrite !app_length; lia].
  - apply (le_words_range 8 _ ltac:(lia)) with (k := 14%nat); [unfold bytes; rewrite !Forall_app; auto|rewrite !app_length; lia].
Qed.
Lemma ctr_range w v : w = 32 \/ w = 64 -> Forall (fun x => 0 <= x < 256 ^ Z.of_nat (Z.to_nat (w / 8))) (counter_words w v).
Proof. intros [->| ->]; unfold counter_words; (constructor; [|constructor; [|constructor]]); apply Z.mod_pos_bound; reflexivity. Qed.
(** what Initialize stores as authenticator *)
Lemma init_mac cf p o enc key iv info o' : S_Initialize cf p o enc key iv info = Ok o' -> s_auth o' = true -> exists m, KMAC_Initialize (c_rate cf) KMAC_new (s_mkey o') [] [] = Ok m /\ s_mac o' = Some m.
Proof.
  unfold S_Initialize. cbv zeta.
  repeat match goal with
  | |- bind ?r _ = Ok _ -> _ => destruct r eqn:?; cbn [bind]; [|discriminate|discriminate]
  | |- (let '(_, _) := ?x in _) = _ -> _ => destruct x
  | |- (if ?b then _ else _) = _ -> _ => destruct b eqn:?
  end; intros [= <-]; cbn [s_auth s_mkey s_mac]; [eauto|congruence].
Qed.
Lemma init_mkey cf c (HM : matches cf c) p auth enc key iv info o' : bytes key -> S_Initialize cf p (S_new auth) enc key iv info = Ok o' -> if auth then length (s_mkey o') = b_tag c else s_mkey o' = [].
Proof.
  intros Bk. unfold S_Initialize. cbv zeta. cbn [S_new s_init]. unfold guard at 1. destruct (length key =? c_key cf)%nat eqn:EK; cbn [bind]; [|discriminate].
  apply Nat.eqb_eq in EK. rewrite (M_key _ _ HM) in EK. destruct (derive cf c 0%nat HM key Bk EK) as (g & g2 & E1 & (g1 & E2 & E3) & L1 & L2).
  do 2 (match goal with |- bind ?r _ = Ok _ -> _ => destruct r eqn:?; cbn [bind]; [|discriminate|discriminate] end).
  match goal with |- bind ?r _ = Ok _ -> _ => destruct r eqn:?; cbn [bind]; [|discriminate|discriminate] end.
  cbv zeta. cbn [S_new s_custom s_auth s_mkey s_ctr]. match goal with |- bind ?r _ = Ok _ -> _ => destruct r eqn:?; cbn [bind]; [|discriminate|discriminate] end.
  destruct auth.
  - rewrite E1. cbn [bind]. rewrite E2. cbn [bind]. match goal with |- bind ?r _ = Ok _ -> _ => destruct r as [[st ctr]| |] eqn:?; cbn [bind]; [|discriminate|discriminate] end. rewrite E3. cbn [bind].
    match goal with |- bind ?r _ = Ok _ -> _ => destruct r eqn:?; cbn [bind]; [|discriminate|discriminate] end. intros [= <-]. exact L2.
  - match goal with |- bind ?r _ = Ok _ -> _ => destruct r as [[st ctr]| |] eqn:?; cbn [bind]; [|discriminate|discriminate] end. intros [= <-]. reflexivity.
Qed.
Lemma code_bytes c prev info : bytes prev -> bytes info -> bytes (b_sigma c) -> bytes (code_of c prev info).
Proof. intros H1 H2 H3. unfold code_of. destruct info; [exact H3|]. apply Forall_app. split; [now apply bytes_firstn|now apply bytes_skipn]. Qed.
Lemma widths cf c : In (cf, c) stream_ciphers -> (0 < c_wb cf)%nat /\ (b_w c = 32 \/ b_w c = 64) /\ (b_code c <= 48)%nat /\ (b_tag c <= 64)%nat /\
  (c_thresh cf <= 16 * c_wb cf + b_code c + 2 * b_tag c + 17)%nat /\ (16 * c_wb cf + b_code c + 17 < c_thresh cf)%nat.
Proof. unfold stream_ciphers. cbn [In]. intros [E|[E|[]]]; injection E as <- <-; cbn; repeat split; try lia; auto. Qed.
Lemma serial_len cf o : length (s_st o) = 14%nat -> length (s_ctr o) = 2%nat -> length (S_Serialize cf o) = (16 * c_wb cf + length (s_custom o) + length (s_mkey o) + length (s_mtag o) + 17)%nat.
Proof. intros L1 L2. unfold S_Serialize. rewrite !app_length, !concat_le_len, !length_le_bytes, L1, L2. cbn [length]. lia. Qed.
Definition serial_ok (cf : sconf) (c : cipher) (o : sobj) : Prop :=
  Forall (fun x => 0 <= x < 256 ^ Z.of_nat (c_wb cf)) (s_st o) /\ length (s_mkey o) = b_tag c /\ 0 <= s_count o < 2 ^ 64.
Lemma restored cf c o n m : In (cf, c) stream_ciphers -> cabs c true o n -> serial_ok cf c o -> KMAC_Initialize (c_rate cf) KMAC_new (s_mkey o) [] [] = Ok m -> S_restore cf (S_Serialize cf o) = Ok (set_mac o (Some m)).
Proof.
  intros HI CA (W & LM & CT) EM. pose proof (all_match _ _ HI) as HM. destruct (widths cf c HI) as (V1 & V2 & V3 & V4 & V5 & _).
  destruct CA as (C1 & C2 & C3 & C4 & C5 & C6 & C7 & C8 & C9 & C10 & C11). assert (LT : length (n_tag n) = b_tag c) by (destruct (n_mac n) as [(A & x)|]; [apply C11|now destruct C11]).
  rewrite restore_ok; auto.
  - rewrite C7, LM, EM. destruct (M_num _ _ HM) as (R1 & R2 & R3 & R4 & R5). replace (b_tag c =? 0)%nat with false by (symmetry; apply Nat.eqb_neq; lia). cbn [negb guard bind]. unfold set_mac. now rewrite C7.
  - rewrite C2. exact C3.
  - now rewrite C1.
  - rewrite C1, (M_wb _ _ HM). now apply ctr_range.
  - rewrite C4, C5. lia.
  - rewrite LM. lia.
  - rewrite C10, LT. lia.
  - rewrite serial_len; [|rewrite C2; exact C3|now rewrite C1]. rewrite C4, C5, LM, C10, LT. lia.
Qed.
Lemma accepted_of cf c (HM : matches cf c) p o0 enc key iv info o : S_Initialize cf p o0 enc key iv info = Ok o -> accepted c key iv info = true.
Proof.
  intros E. unfold accepted. unfold S_Initialize in E. rewrite (M_key _ _ HM), (M_iv _ _ HM), (M_strict _ _ HM), (M_info _ _ HM) in E. destruct (length key =? b_key c)%nat; [|discriminate]. cbn [guard bind andb] in *. destruct (length iv =? b_iv c)%nat; [|discriminate]. cbn [guard bind andb] in *.
  match type of E with context [guard ?b InvalidInfo] => destruct b; [reflexivity|discriminate] end.
Qed.
Lemma init_serial cf c p enc key iv info o : In (cf, c) stream_ciphers -> profile_ok (b_B c) p -> bytes key -> bytes iv -> bytes info ->
  S_Initialize cf p (S_new true) enc key iv info = Ok o -> serial_ok cf c o /\ cabs c true o (opened c true (zeros (b_code c)) enc key iv info).
Proof.
  intros HI HP Bk Bi Bf E. pose proof (all_match _ _ HI) as HM. pose proof (accepted_of cf c HM _ _ _ _ _ _ _ E) as HA.
  destruct (Init_ok cf c 0%nat p true HM HP (S_new true) (zeros (b_code c)) enc key iv info) as (o' & E' & CA); auto; [left; auto|]. rewrite E in E'. injection E' as <-. split; [|exact CA].
  pose proof (init_mkey cf c HM p true enc key iv info o Bk E) as LM. destruct CA as (C1 & C2 & C3 & C4 & C5 & C6 & C7 & C8 & C9 & C10 & C11). unfold opened in *. cbv zeta in *. cbn [n_pos n_state n_code n_total n_enc n_tag n_mac] in *.
  unfold accepted in HA. apply andb_true_iff in HA. destruct HA as [HA _]. apply andb_true_iff in HA. destruct HA as [H1 H2]. apply Nat.eqb_eq in H1, H2.
  destruct (derive cf c 0%nat HM key Bk H1) as (g & g2 & _ & _ & L1 & L2). split; [|split; [exact LM|rewrite C6; lia]].
  rewrite C2. apply (layout_range cf c HI); auto.
  - apply cshake_bytes.
  - apply code_bytes; [apply bytes_zeros|exact Bf|apply (M_sl _ _ HM)].
Qed.
(** what calls other than Initialize keep *)
Definition keeps (o o' : sobj) : Prop := s_mkey o' = s_mkey o /\ s_st o' = s_st o /\ (0 <= s_count o < 2 ^ 64 -> 0 <= s_count o' < 2 ^ 64).
Lemma keeps_refl o : keeps o o. Proof. repeat split; try lia; apply H. Qed.
Lemma keeps_trans a b d : keeps a b -> keeps b d -> keeps a d. Proof. intros (A1 & A2 & A3) (B1 & B2 & B3). repeat split; try congruence; try (apply B3, A3; assumption). Qed.
Definition keep (o : sobj) (r : sres) : Prop := forall o' out e, r = Ok (o', out, e) -> keeps o o'.
Lemma keep_then o r f : keep o r -> (forall o' out, keeps o o' -> keep o (f o' out)) -> keep o (andthen r f).
Proof.
  intros H1 H2 o' out e. destruct r as [[[o1 x1] [e1|]]| |]; cbn [andthen]; try discriminate; intros E.
  - injection E as <- <- <-. eapply H1; reflexivity.
  - eapply (H2 o1 x1); [eapply H1; reflexivity|exact E].
Qed.
Lemma keep_mac cf o0 o out inp io len : keeps o0 o -> keep o0 (S_mac cf o out inp io len).
Proof. intros K o' x e. unfold S_mac. destruct (s_mac o); [|discriminate]. destruct (KMAC_Update _ _ _ _ _); try discriminate; intros [= <- <- <-]; [|exact K]. eapply keeps_trans; [exact K|]. repeat split; auto; apply H. Qed.
Lemma keep_nonce cf o0 o out : keeps o0 o -> keep o0 (S_nonce cf o out).
Proof.
  intros K o' x e. unfold S_nonce. destruct (get (s_ctr o) 0) as [a| |]; cbn [bind]; try discriminate. destruct (get (s_ctr o) 1) as [b| |]; cbn [bind]; try discriminate.
  refine (keep_then o0 _ _ _ _ o' x e); [now apply keep_mac|]. intros. now apply keep_mac.
Qed.
Lemma keep_proc cf s p ord o0 o inp io out oo len : keeps o0 o -> keep o0 (S_proc cf s p ord o inp io out oo len).
Proof. intros K o' x e. unfold S_proc. destruct (S_Process _ _ _ _ _ _ _ _ _ _ _ _) as [[a b]| |]; cbn [bind]; try discriminate. intros [= <- <- <-]. eapply keeps_trans; [exact K|]. repeat split; auto; apply H. Qed.
Lemma keep_add o0 o len : keeps o0 o -> keeps o0 (S_add o len).
Proof. intros K. eapply keeps_trans; [exact K|]. split; [reflexivity|]. split; [reflexivity|]. intros _. cbn [S_add s_count]. apply Z.mod_pos_bound. reflexivity. Qed.
Lemma keep_fin cf o0 o out : keeps o0 o -> keep o0 (S_Finalize cf o out).
Proof.
  intros K. unfold S_Finalize. apply keep_then; [now apply keep_mac|]. intros o1 x1 K1 o' x e. destruct (s_mac o1); [|discriminate]. destruct (KMAC_Finalize _ _ _ _ _) as [[a b]| |]; try discriminate; intros [= <- <- <-]; [|exact K1].
  eapply keeps_trans; [exact K1|]. repeat split; auto; apply H.
Qed.
Lemma keep_transform cf s p ord o inp io out oo len : keep o (S_Transform cf s p ord o inp io out oo len).
Proof.
  pose proof (keeps_refl o) as K. unfold S_Transform. destruct (s_enc o), (s_auth o); try (now apply keep_proc).
  - destruct (s_mac o); [|intros ? ? ?; discriminate]. destruct (_ <? _); [intros ? ? ? [= <- <- <-]; exact K|].
    apply keep_then; [now apply keep_nonce|]. intros. apply keep_then; [now apply keep_proc|]. intros. apply keep_then; [now apply keep_mac|]. intros. apply keep_then; [apply keep_fin; now apply keep_add|].
    intros o4 x4 K4 o5 x e. destruct (wcopy _ _ _ _ _); cbn [bind]; try discriminate. intros [= <- <- <-]. exact K4.
  - apply keep_then; [now apply keep_nonce|]. intros. apply keep_then; [now apply keep_mac|]. intros. apply keep_then; [apply keep_fin; now apply keep_add|]. intros o4 x4 K4 o5 x e.
    destruct (Compare _ _ _ _ _) as [[|]| |]; cbn [bind]; try discriminate; [now apply keep_proc|]. intros [= <- <- <-]. exact K4.
Qed.
Lemma keep_aad cf o inp off len : keep o (S_SetAssociatedData cf o inp off len).
Proof.
  pose proof (keeps_refl o) as K. unfold S_SetAssociatedData. destruct (negb (s_init o)); [intros ? ? ? [= <- <- <-]; exact K|]. destruct (negb (s_auth o)); [intros ? ? ? [= <- <- <-]; exact K|].
  destruct (c_aadlen cf && (len =? 0)%nat); [intros ? ? ? [= <- <- <-]; exact K|]. apply keep_then; [now apply keep_mac|]. intros o1 x1 K1. destruct (c_aadlen cf); [now apply keep_mac|]. intros ? ? ? [= <- <- <-]. exact K1.
Qed.
Lemma keep_step cf s p o x o' r : other_call x -> xstep cf s p o x = Ok (o', r) -> keeps o o'.
Proof.
  assert (R : forall q (y : sres), keep o y -> xreturn q y = Ok (o', r) -> keeps o o').
  { intros q y H. destruct y as [[[o1 x1] [e|]]| |]; cbn [xreturn]; try discriminate; intros [= <- <-]; eapply H; reflexivity. }
  destruct x; cbn [xstep other_call]; try contradiction; intros _.
  - apply R. apply keep_aad.
  - apply R. apply keep_transform.
  - destruct (S_Tag o); try discriminate; intros [= <- <-]; apply keeps_refl.
Qed.
Lemma xend_ok cf c s p (HM : matches cf c) (HP : profile_ok (b_B c) p) cs : forall o n, cabs c true o n -> Forall other_call cs -> xcalls_ok c p true (n_enc n) cs ->
  exists o' n', xend cf s p o cs = Ok o' /\ cabs c true o' n' /\ keeps o o'.
Proof.
  induction cs as [|x cs IH]; intros o n CA HO HC; [exists o, n; split; [reflexivity|]; split; [exact CA|apply keeps_refl]|]. cbn [xcalls_ok] in HC. destruct HC as [Hx HC]. inversion HO as [|? ? Ox HO']; subst. cbn [xend].
  destruct (xstep_ok cf c s p true HM HP o n x cs CA Hx) as (o1 & n1 & r & E & CA1 & EE & _). rewrite E. cbn [bind fst]. unfold turned in EE. rewrite <- EE in HC. destruct (IH o1 n1 CA1 HO' HC) as (o' & n' & E' & CA' & K). exists o', n'. split; [exact E'|]. split; [exact CA'|].
  eapply keeps_trans; [|exact K]. now apply (keep_step cf s p o x o1 r).
Qed.
Lemma c46_serial cf c s p enc key iv info o cs : In (cf, c) stream_ciphers -> profile_ok (b_B c) p -> bytes key -> bytes iv -> bytes info ->
  S_Initialize cf p (S_new true) enc key iv info = Ok o -> Forall other_call cs -> xcalls_ok c p true enc cs ->
  exists o', xend cf s p o cs = Ok o' /\ S_restore cf (S_Serialize cf o') = Ok (set_mac o' (s_mac o)).
Proof.
  intros HI HP Bk Bi Bf E HO HC. pose proof (all_match _ _ HI) as HM. destruct (init_serial cf c p enc key iv info o HI HP Bk Bi Bf E) as [(W & LM & CT) CA].
  destruct (xend_ok cf c s p HM HP cs o _ CA HO HC) as (o' & n' & E' & CA' & K1 & K2 & K3). exists o'. split; [exact E'|].
  destruct (init_mac _ _ _ _ _ _ _ _ E) as (m & EM & SM); [apply CA|]. rewrite SM. apply (restored cf c o' n'); auto; [|now rewrite K1]. split; [now rewrite K2|]. split; [now rewrite K1|auto].
Qed.
Lemma c46_serial_first cf c p enc key iv info o : In (cf, c) stream_ciphers -> profile_ok (b_B c) p -> bytes key -> bytes iv -> bytes info ->
  S_Initialize cf p (S_new true) enc key iv info = Ok o -> S_restore cf (S_Serialize cf o) = Ok o.
Proof.
  intros HI HP Bk Bi Bf E. destruct (c46_serial cf c 0%nat p enc key iv info o [] HI HP Bk Bi Bf E ltac:(constructor) I) as (o' & E' & R). injection E' as <-. rewrite R. destruct o. reflexivity.
Qed.
Lemma c46_serial_plain cf c p enc key iv info o : In (cf, c) stream_ciphers -> profile_ok (b_B c) p -> bytes key -> bytes iv -> bytes info -> accepted c key iv info = true ->
  S_Initialize cf p (S_new false) enc key iv info = Ok o -> S_restore cf (S_Serialize cf o) = Throw InvalidKey.
Proof.
  intros HI HP Bk Bi Bf HA E. pose proof (all_match _ _ HI) as HM. destruct (widths cf c HI) as (V1 & V2 & V3 & V4 & V5 & V6).
  destruct (Init_ok cf c 0%nat p false HM HP (S_new false) (zeros (b_code c)) enc key iv info) as (o' & E' & CA); auto; [left; auto|]. rewrite E in E'. injection E' as <-.
  pose proof (init_mkey cf c HM p false enc key iv info o Bk E) as LM. cbn beta iota in LM.
  destruct CA as (C1 & C2 & C3 & C4 & C5 & C6 & C7 & C8 & C9 & C10 & C11). unfold opened in *. cbv zeta in *. cbn [n_pos n_state n_code n_total n_enc n_tag n_mac] in *.
  unfold S_restore. rewrite serial_len; [|rewrite C2; exact C3|now rewrite C1]. rewrite C4, C5, LM, C10. cbn [length]. rewrite (proj2 (Nat.leb_gt _ _)) by lia. reflexivity.
Qed.
