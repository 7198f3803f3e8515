(** Histories of the stream cipher objects. *)
From Coq Require Import Permutation.
From Verif Require Import BaseLemmas Spec_Common Proofs_Common Model_IntegerTools Proofs_IntegerTools Proofs_IntegerTools2 Model_Modes Proofs_Windows Model_KDF Proofs_KDF Proofs_KDF2
  Spec_Keccak Proofs_Keccak Session_Digest Session_KMAC Session_SHAKE Model_SHAKE Proofs_KMAC2 Proofs_SHAKE
  Model_ChaCha Spec_ChaCha Proofs_ChaCha Proofs_ChaCha2 Spec_Stream Model_CSX Session_CSX Proofs_CSX.
Open Scope Z_scope.

Lemma squeeze_bytes f rate k : forall A, bytes (squeeze f rate k A).
Proof.
  induction k as [|k IH]; intros A; [constructor|]. cbn [squeeze]. apply Forall_app. split; [|apply IH]. apply bytes_firstn. apply concat_le_bytes.
Qed.
Lemma sponge_bytes f rate A d m n : bytes (sponge f rate A d m n).
Proof. unfold sponge. apply bytes_firstn, squeeze_bytes. Qed.
Lemma cshake_bytes R rate x n a b : bytes (cshake R rate x n a b).
Proof. unfold cshake, shake. destruct (_ =? _)%nat; apply sponge_bytes. Qed.
Lemma kmac_out_bytes rate A m n : bytes (kmac_out rate A m n).
Proof. unfold kmac_out. apply bytes_firstn, squeeze_bytes. Qed.
Lemma bytes_xorl a : forall b, bytes a -> bytes b -> bytes (xorl a b).
Proof.
  induction a as [|x a IH]; intros [|y b] Ha Hb; cbn [xorl]; try constructor; inversion Ha; inversion Hb; subst.
  - red. apply (lxor_range 8); [lia| |]; assumption.
  - apply IH; assumption.
Qed.
Lemma keystream_bytes B kb v n : (0 < B)%nat -> (forall v, length (kb v) = B) -> (forall v, bytes (kb v)) -> bytes (keystream B kb v n).
Proof.
  intros HB HK H. unfold keystream. apply Forall_forall. intros x Hx. apply in_map_iff in Hx. destruct Hx as (i & <- & _). unfold stream_byte.
  pose proof (H (v + Z.of_nat (i / B))) as Q. apply (proj1 (Forall_forall _ _) Q). apply nth_In. rewrite HK. apply Nat.mod_upper_bound. lia.
Qed.
Lemma kname_fits rate : (64 <= rate <= 190)%nat -> fits_block rate kmac_name [].
Proof.
  intros H. unfold fits_block. assert (E : forall r, (64 <= r <= 190)%nat -> ((length (left_encode (Z.of_nat r) ++ encode_string kmac_name) - 1) mod r + 1 + length (left_encode (8 * Z.of_nat (length (@nil Z)))) <=? r)%nat = true).
  { assert (F : forallb (fun r => ((length (left_encode (Z.of_nat r) ++ encode_string kmac_name) - 1) mod r + 1 + length (left_encode (8 * Z.of_nat (length (@nil Z)))) <=? r)%nat) (seq 64 127) = true) by (vm_compute; reflexivity).
    intros r Hr. apply (proj1 (forallb_forall _ _) F). apply in_seq. lia. }
  apply Nat.leb_le. now apply E.
Qed.

Section obj.
Context (cf : sconf) (c : cipher) (s : nat) (p : sprof) (auth : bool).
Hypothesis HM : matches cf c.
Hypothesis HP : profile_ok (b_B c) p.
Local Notation rate := (b_rate c).
Local Notation tag := (b_tag c).

Definition cabs (o : sobj) (n : conn) : Prop :=
  s_ctr o = counter_words (b_w c) (n_pos n) /\ s_st o = n_state n /\ length (n_state n) = 14%nat /\ s_custom o = n_code n /\ length (n_code n) = b_code c /\
  s_count o = n_total n /\ s_auth o = auth /\ s_enc o = n_enc n /\ s_init o = true /\ s_mtag o = n_tag n /\
  match n_mac n with
  | None => auth = false /\ n_tag n = []
  | Some (A, m) => auth = true /\ length (n_tag n) = tag /\ exists k, s_mac o = Some k /\ kabs rate k (Some (A, m))
  end.
(** fresh, or initialised before *)
Definition before (o : sobj) (prev : list Z) : Prop :=
  (o = S_new auth /\ prev = zeros (b_code c)) \/ exists n, cabs o n /\ prev = n_code n.
Lemma num : (64 <= rate <= 190)%nat /\ (rate mod 8 = 0)%nat /\ (16 <= b_key c <= rate)%nat /\ (16 <= tag <= rate)%nat /\ (0 < b_code c)%nat.
Proof. exact (M_num _ _ HM). Qed.

Lemma code_ok prev info : length prev = b_code c -> length info <> 0%nat ->
  wcopy info 0 prev 0 (Nat.min (length info) (length prev)) = Ok (firstn (b_code c) info ++ skipn (length info) prev).
Proof.
  intros L LI. rewrite wcopy_ok by lia. f_equal. unfold slice, splice. cbn [skipn]. rewrite firstn_O. cbn [app Nat.add]. rewrite firstn_length. rewrite L. rewrite <- Nat.min_assoc, (Nat.min_comm (b_code c)), Nat.min_assoc, Nat.min_id.
  destruct (Nat.le_gt_cases (length info) (b_code c)).
  - rewrite Nat.min_l by lia. rewrite !firstn_all2 by lia. reflexivity.
  - rewrite Nat.min_r by lia. rewrite (skipn_all2 (n := b_code c)), (skipn_all2 (n := length info)) by lia. reflexivity.
Qed.
Lemma code_of_len prev info : length prev = b_code c -> length (code_of c prev info) = b_code c.
Proof.
  intros L. unfold code_of. destruct info as [|x info]; [apply (M_sl _ _ HM)|]. rewrite app_length, firstn_length, skipn_length, L. lia.
Qed.

Lemma derive key : bytes key -> length key = b_key c ->
  exists g g2, SHAKE_Initialize (c_rate cf) SHAKE_new key [] (c_name cf) = Ok g /\
  (exists g1, SHAKE_Generate (c_rate cf) g (zeros (c_key cf)) 0 (c_key cf) = Ok (g1, cipher_key c true key) /\
    SHAKE_Generate (c_rate cf) g1 (zeros (c_tag cf)) 0 (c_tag cf) = Ok (g2, mac_key c key)) /\
  length (cipher_key c true key) = b_key c /\ length (mac_key c key) = tag.
Proof.
  intros Bk Lk. destruct num as (R1 & R2 & R3 & R4 & R5). destruct (M_nm _ _ HM) as (N1 & N2 & N3 & N4). rewrite (M_rate _ _ HM), (M_key _ _ HM), (M_tag _ _ HM), (M_name _ _ HM).
  assert (S0 : short []) by (red; cbn; lia).
  destruct (SHAKE_Init_ok rate ltac:(lia) SHAKE_new None key [] (b_name c) eq_refl) as (g & E & G); [cbn [scall_ok]; repeat split; auto; constructor|lia|left; reflexivity|].
  assert (LZ : forall k, length (zeros k) = k) by (intros; apply length_zeros).
  destruct (SHAKE_Gen_ok rate ltac:(lia) g key [] (b_name c) 0 0 (zeros (b_key c)) 0 (b_key c) G) as (g1 & E1 & L1 & G1); [rewrite LZ; lia| |].
  { cbn [Nat.add]. assert (b_key c / rate <= 1)%nat by (apply Nat.div_le_upper_bound; lia). lia. }
  assert (K1 : (0 + (b_key c + rate - 1) / rate = 1)%nat).
  { cbn [Nat.add]. replace (b_key c + rate - 1)%nat with ((b_key c - 1) + 1 * rate)%nat by lia. rewrite Nat.div_add by lia. rewrite Nat.div_small by lia. reflexivity. }
  rewrite K1 in G1.
  destruct (SHAKE_Gen_ok rate ltac:(lia) g1 key [] (b_name c) 1 _ (zeros tag) 0 tag G1) as (g2 & E2 & L2 & G2); [rewrite LZ; lia| |].
  { assert (tag / rate <= 1)%nat by (apply Nat.div_le_upper_bound; lia). destruct (_ =? _)%nat; lia. }
  cbn [Nat.mul Nat.add] in *. rewrite skipn_O in *. rewrite Nat.add_0_r in *. exists g, g2. split; [exact E|]. split.
  - exists g1. split.
    + rewrite E1. do 2 f_equal. rewrite splice_all by (rewrite LZ; exact L1). reflexivity.
    + rewrite E2. do 2 f_equal. rewrite splice_all by (rewrite LZ; exact L2). reflexivity.
  - split; [exact L1|exact L2].
Qed.

Lemma Init_ok o prev enc key iv info : before o prev -> bytes key -> bytes iv -> bytes info -> accepted c key iv info = true ->
  exists o', S_Initialize cf p o enc key iv info = Ok o' /\ cabs o' (opened c auth prev enc key iv info).
Proof.
  intros HB Bk Bi Bf HA. destruct num as (R1 & R2 & R3 & R4 & R5). unfold accepted in HA. apply andb_true_iff in HA. destruct HA as [HA H3]. apply andb_true_iff in HA. destruct HA as [H1 H2].
  unfold S_Initialize. rewrite (M_key _ _ HM), (M_iv _ _ HM), (M_strict _ _ HM), (M_info _ _ HM), H1, H2, H3. cbn [guard bind]. apply Nat.eqb_eq in H1, H2.
  assert (G : (if sp_par p then _ <- guard (negb ((sp_blk p <? sp_min p)%nat || (max_alloc <? Z.of_nat (sp_blk p)))) InvalidSize ;; _ <- safe (negb (sp_min p =? 0)%nat) ;; guard (sp_blk p mod sp_min p =? 0)%nat InvalidParam else Ok tt) = Ok tt).
  { destruct HP as (P1 & P2 & P3 & P4). destruct (sp_par p); [|reflexivity]. destruct (P4 eq_refl) as (Q1 & Q2 & Q3).
    replace (sp_blk p <? sp_min p)%nat with false by (symmetry; apply Nat.ltb_ge; lia). replace (max_alloc <? Z.of_nat (sp_blk p)) with false by (symmetry; apply Z.ltb_ge; lia).
    cbn [orb negb guard bind]. assert (sp_min p <> 0)%nat by nia. replace (sp_min p =? 0)%nat with false by (symmetry; apply Nat.eqb_neq; lia). cbn [negb safe bind]. rewrite Q3. reflexivity. }
  rewrite G. cbn [bind]. clear G.
  (* the object after a possible Reset *)
  assert (RS : exists o1, (if s_init o then S_Reset cf o else Ok o) = Ok o1 /\ s_ctr o1 = zeros 2 /\ s_auth o1 = auth /\ s_count o1 = 0 /\
    length (resized (s_custom o1) (b_code c)) = b_code c /\
    (length info <> 0%nat -> firstn (b_code c) info ++ skipn (length info) (resized (s_custom o1) (b_code c)) = code_of c prev info) /\
    (auth = true -> resized (s_mtag o1) tag = zeros tag) /\ (auth = false -> s_mtag o1 = [] )).
  { destruct HB as [(-> & ->)|(n & CA & ->)].
    - exists (S_new auth). cbn [S_new s_init s_ctr s_auth s_count s_custom s_mtag]. repeat split; auto.
      + apply resized_len.
      + intros LI. unfold code_of. destruct info; [now elim LI|]. f_equal. f_equal. apply (resized_zeros 0).
      + intros _. apply (resized_zeros 0).
    - destruct CA as (C1 & C2 & C3 & C4 & C5 & C6 & C7 & C8 & C9 & C10 & C11). rewrite C9. unfold S_Reset. rewrite C7.
      assert (X : exists mac, (if auth then match s_mac o with Some _ => Ok (Some KMAC_new) | None => UB end else Ok (s_mac o)) = Ok mac).
      { destruct (n_mac n) as [(A & m)|]; [destruct C11 as (-> & _ & k & -> & _); eexists; reflexivity|destruct C11 as (-> & _); eexists; reflexivity]. }
      destruct X as (mac & ->). cbn [bind]. eexists. split; [reflexivity|]. cbn [s_ctr s_auth s_count s_custom s_mtag]. repeat split; auto.
      + apply resized_len.
      + intros LI. unfold code_of. destruct info as [|x info]; [now elim LI|]. set (inf := x :: info) in *.
        destruct (c_wipe cf) eqn:W.
        * assert (LE : length inf = b_code c).
          { pose proof (M_wip _ _ HM W) as E. rewrite E in H3. cbn [andb] in H3. destruct (Nat.ltb_spec 0 (length inf)); [|lia]. cbn [andb negb] in H3. destruct (Nat.eqb_spec (length inf) (b_code c)); [auto|discriminate]. }
          rewrite LE. rewrite !skipn_all2; [reflexivity|lia|rewrite resized_len; lia].
        * rewrite C4. f_equal. f_equal. unfold resized. rewrite firstn_all2 by lia. rewrite C5, Nat.sub_diag. cbn [zeros repeat]. apply app_nil_r.
      + intros _. apply resized_zeros.
      + intros AF. rewrite C10. destruct (n_mac n) as [(A & m)|]; [destruct C11 as (C11 & _); congruence|]. destruct C11 as (_ & ->). reflexivity. }
  destruct RS as (o1 & -> & A1 & A2 & A3 & A4 & A5 & A6 & A7). cbn [bind]. cbv zeta.
  set (cust := resized (s_custom o1) (b_code c)) in *.
  assert (CU : (if (length info =? 0)%nat then wcopy (c_sigma cf) 0 cust 0 (length (c_sigma cf)) else wcopy info 0 cust 0 (Nat.min (length info) (length cust))) = Ok (code_of c prev info)).
  { destruct (Nat.eqb_spec (length info) 0) as [E|E].
    - destruct info; [|discriminate]. cbn [code_of]. rewrite (M_sigma _ _ HM). destruct (M_sl _ _ HM) as [SL _]. rewrite wcopy_ok by lia. f_equal. rewrite slice_full by reflexivity. apply splice_all. lia.
    - rewrite code_ok by auto. f_equal. now apply A5. }
  rewrite CU. cbn [bind]. rewrite A2, A1. clear CU.
  assert (LP : length prev = b_code c) by (destruct HB as [(_ & ->)|(n & CA & ->)]; [apply length_zeros|apply CA]).
  pose proof (code_of_len prev info LP) as LC. unfold opened. cbv zeta. set (code := code_of c prev info) in *.
  destruct auth eqn:EA.
  - destruct (derive key Bk H1) as (g & g2 & E1 & (g1 & E2 & E3) & L1 & L2). rewrite E1. cbn [bind]. rewrite (M_key _ _ HM) in E2. rewrite E2. cbn [bind].
    destruct (M_load _ _ HM (cipher_key c true key) iv code L1 H2 LC Bi) as [LD LS]. rewrite LD. cbn [bind]. rewrite E3. cbn [bind].
    destruct (KMAC_Init_ok rate tag R1 R2 ltac:(lia) KMAC_new None (mac_key c key) [] [] eq_refl) as (k & EK & KA).
    { cbn [kcall_ok]. split; [unfold mac_key; apply bytes_skipn, cshake_bytes|]. split; [constructor|]. split; [constructor|]. split; [red; rewrite L2; lia|]. split; [red; cbn; lia|]. split; [red; cbn; lia|]. apply kname_fits. exact R1. }
    { lia. } { left. reflexivity. }
    rewrite (M_rate _ _ HM), EK. cbn [bind]. eexists. split; [reflexivity|]. red. cbn [s_ctr s_st s_custom s_count s_auth s_enc s_init s_mtag s_mac n_pos n_state n_code n_total n_enc n_tag n_mac].
    rewrite (M_tag _ _ HM), A6 by reflexivity. repeat (split; [auto; fail|]). split; [apply length_zeros|]. exists k. split; [reflexivity|]. exact KA.
  - destruct (M_load _ _ HM key iv code H1 H2 LC Bi) as [LD LS]. rewrite LD. cbn [bind]. eexists. split; [reflexivity|].
    red. cbn [s_ctr s_st s_custom s_count s_auth s_enc s_init s_mtag s_mac n_pos n_state n_code n_total n_enc n_tag n_mac cipher_key]. repeat (split; [auto; fail|]). reflexivity.
Qed.

(** the connection with another message in its authenticator *)
Definition withm (n : conn) (A m : list Z) : conn := Conn (n_enc n) (n_code n) (n_state n) (n_pos n) (Some (A, m)) (n_total n) (n_tag n).
Lemma mac_ok o n A m out inp io len : cabs o n -> n_mac n = Some (A, m) -> bytes inp -> (io + len <= length inp)%nat ->
  exists o', S_mac cf o out inp io len = Ok (o', out, None) /\ cabs o' (withm n A (m ++ slice inp io len)).
Proof.
  intros CA EM Bi HL. destruct num as (R1 & R2 & R3 & R4 & R5). destruct CA as (C1 & C2 & C3 & C4 & C5 & C6 & C7 & C8 & C9 & C10 & C11). rewrite EM in C11. destruct C11 as (CT & CL & k & CK & KA).
  unfold S_mac. rewrite CK, (M_rate _ _ HM). destruct (kabs_upd rate tag R1 R2 ltac:(lia) k A m inp io len KA Bi HL) as (k' & -> & KA'). eexists. split; [reflexivity|].
  red. cbn [s_ctr s_st s_custom s_count s_auth s_enc s_init s_mtag s_mac n_pos n_state n_code n_total n_enc n_tag n_mac withm]. repeat (split; [auto; fail|]). exists k'. split; [reflexivity|exact KA'].
Qed.
Lemma withm_mac n A m : n_mac (withm n A m) = Some (A, m). Proof. reflexivity. Qed.
Lemma nonce_ok o n A m out : cabs o n -> n_mac n = Some (A, m) ->
  exists o', S_nonce cf o out = Ok (o', out, None) /\ cabs o' (withm n A (m ++ concat (map (le_bytes (Z.to_nat (b_w c / 8))) (counter_words (b_w c) (n_pos n))))).
Proof.
  intros CA EM. unfold S_nonce. pose proof (proj1 CA) as C1. rewrite C1. unfold counter_words at 1 2. cbn [get nth_error bind]. rewrite (M_wb _ _ HM). set (wb := Z.to_nat (b_w c / 8)).
  assert (LB : forall x, length (le_bytes wb x) = wb) by (intros; apply length_le_bytes).
  set (a := n_pos n mod 2 ^ b_w c). set (b := n_pos n / 2 ^ b_w c mod 2 ^ b_w c).
  destruct (mac_ok o n A m out (le_bytes wb a) 0 wb CA EM (bytes_le_bytes _ _) ltac:(rewrite LB; lia)) as (o1 & -> & CA1). cbn [andthen].
  destruct (mac_ok o1 _ A _ out (le_bytes wb b) 0 wb CA1 (withm_mac _ _ _) (bytes_le_bytes _ _) ltac:(rewrite LB; lia)) as (o2 & -> & CA2).
  exists o2. split; [reflexivity|]. rewrite !slice_full in CA2 by apply LB. unfold counter_words. cbn [map concat]. rewrite app_nil_r. rewrite app_assoc. exact CA2.
Qed.
Lemma withm_twice n A m A' m' : withm (withm n A m) A' m' = withm n A' m'. Proof. reflexivity. Qed.

Lemma block_facts n : length (n_state n) = 14%nat -> forall v, length (b_block c (n_state n) v) = b_B c.
Proof. intros H v. now apply (M_len _ _ HM). Qed.
Lemma crypt_length n m : length (n_state n) = 14%nat -> length (crypt c n m) = length m.
Proof. intros H. unfold crypt. apply (crypt_len (b_B c) _ (M_B0 _ _ HM) (block_facts n H)). Qed.
Lemma crypt_bytes n m : length (n_state n) = 14%nat -> bytes m -> bytes (crypt c n m).
Proof.
  intros H Bm. unfold crypt, stream_crypt. apply bytes_xorl; [exact Bm|]. apply keystream_bytes; [exact (M_B0 _ _ HM)|now apply block_facts|]. intros v. apply (M_bytes _ _ HM).
Qed.
(** Process on the object *)
Definition proc_pre (inp : list Z) (io : nat) (out : list Z) (oo len : nat) (ord : list nat) : Prop :=
  (io + len <= length inp)%nat /\ (oo + len <= length out)%nat /\ short inp /\ short out /\ Permutation ord (seq 0 (sp_deg p)) /\ Z.of_nat (len / b_B c) < 2 ^ b_w c /\
  (sp_par p = false \/ (len < sp_min p)%nat \/ oo = 0%nat \/ (len mod (sp_deg p * b_B c) = 0)%nat).
Lemma proc_ok o n inp io out oo len ord : cabs o n -> proc_pre inp io out oo len ord ->
  exists o', S_proc cf s p ord o (Some inp) io out oo len = Ok (o', splice out oo (crypt c n (slice inp io len)), None) /\ cabs o' (moved c n len).
Proof.
  intros CA (P1 & P2 & P3 & P4 & P5 & P6 & P7). destruct CA as (C1 & C2 & C3 & C4 & C5 & C6 & C7 & C8 & C9 & C10 & C11). destruct HP as (Q1 & Q2 & Q3 & Q4). unfold S_proc. rewrite C1, C2, (M_w _ _ HM), (M_B _ _ HM).
  assert (F : fit inp out io oo len) by (unfold short in P3, P4; red; repeat split; lia).
  set (perm := fun (out : list Z) (oo : nat) (ctr : list Z) => c_perm cf out oo ctr (n_state n)).
  assert (HPm : forall out oo v, (oo + b_B c <= length out)%nat -> perm out oo (counter_words (b_w c) v) = Ok (splice out oo (b_block c (n_state n) v))) by (intros; now apply (M_perm _ _ HM)).
  assert (E : S_Process (b_w c) (b_B c) perm s p ord (Some inp) io out oo len (counter_words (b_w c) (n_pos n)) =
    Ok (splice out oo (stream_crypt (b_B c) (b_block c (n_state n)) (n_pos n) (slice inp io len)), counter_words (b_w c) (n_pos n + Z.of_nat (nblocks (b_B c) len)))).
  { destruct P7 as [P7|[P7|P7]].
    - apply (S_seq_ok (b_B c) _ (M_B0 _ _ HM) (block_facts n C3) (b_w c) perm (M_w0 _ _ HM) HPm); [exact F|now left].
    - apply (S_seq_ok (b_B c) _ (M_B0 _ _ HM) (block_facts n C3) (b_w c) perm (M_w0 _ _ HM) HPm); [exact F|now right].
    - apply (S_par_ok (b_B c) _ (M_B0 _ _ HM) (block_facts n C3) (b_w c) perm (M_w0 _ _ HM) HPm); auto. }
  rewrite E. cbn [bind]. eexists. split; [reflexivity|].
  red. cbn [s_ctr s_st s_custom s_count s_auth s_enc s_init s_mtag s_mac n_pos n_state n_code n_total n_enc n_tag n_mac moved]. repeat (split; [auto; fail|]). exact C11.
Qed.
(** Counter += Length; Finalize *)
Lemma fin_ok o n A m out len : cabs o n -> n_mac n = Some (A, m) ->
  exists o', S_Finalize cf (S_add o len) out = Ok (o', out, None) /\
    let M := m ++ le_bytes 8 (total_after n len) in
    s_mtag o' = kmac_out rate A M tag /\ length (kmac_out rate A M tag) = tag /\
    cabs o' (Conn (n_enc n) (n_code n) (n_state n) (n_pos n) (Some (kmac_after rate A M tag, [])) (total_after n len) (kmac_out rate A M tag)).
Proof.
  intros CA EM. destruct num as (R1 & R2 & R3 & R4 & R5). set (n1 := Conn (n_enc n) (n_code n) (n_state n) (n_pos n) (n_mac n) (total_after n len) (n_tag n)).
  assert (CA1 : cabs (S_add o len) n1).
  { destruct CA as (C1 & C2 & C3 & C4 & C5 & C6 & C7 & C8 & C9 & C10 & C11). red. unfold n1, S_add.
    cbn [s_ctr s_st s_custom s_count s_auth s_enc s_init s_mtag s_mac n_pos n_state n_code n_total n_enc n_tag n_mac]. rewrite C6. repeat (split; [auto; fail|]). exact C11. }
  unfold S_Finalize. assert (CNT : s_count (S_add o len) = total_after n len) by apply CA1. rewrite CNT.
  destruct (mac_ok (S_add o len) n1 A m out (le_bytes 8 (total_after n len)) 0 8 CA1 EM (bytes_le_bytes _ _) ltac:(rewrite length_le_bytes; lia)) as (o2 & -> & CA2). cbn [andthen].
  rewrite slice_full in CA2 by apply length_le_bytes. destruct CA2 as (C1 & C2 & C3 & C4 & C5 & C6 & C7 & C8 & C9 & C10 & C11). rewrite withm_mac in C11. destruct C11 as (CT & CL & k & CK & KA).
  rewrite CK, (M_rate _ _ HM), (M_tag _ _ HM), C10. set (M := m ++ le_bytes 8 (total_after n len)) in *. cbn [withm n_tag n1] in CL |- *.
  destruct (kabs_fin rate tag R1 R2 ltac:(lia) k A M (n_tag n) 0 KA ltac:(lia) ltac:(lia) ltac:(red; lia)) as (k' & EF & KA' & LF). rewrite Nat.sub_0_r, CL in *. rewrite EF.
  rewrite splice_all by lia. eexists. split; [reflexivity|]. cbv zeta. fold M. cbn [s_mtag]. split; [reflexivity|]. split; [exact LF|].
  red. cbn [s_ctr s_st s_custom s_count s_auth s_enc s_init s_mtag s_mac n_pos n_state n_code n_total n_enc n_tag n_mac withm n1] in *. repeat (split; [auto; fail|]). exists k'. split; [reflexivity|exact KA'].
Qed.
Lemma tagged_eq n A m ct : Conn (n_enc n) (n_code n) (n_state n) (n_pos n) (Some (kmac_after rate A ((m ++ concat (map (le_bytes (Z.to_nat (b_w c / 8))) (counter_words (b_w c) (n_pos n))) ++ ct) ++ le_bytes 8 (total_after n (length ct))) tag, []))
  (total_after n (length ct)) (kmac_out rate A ((m ++ concat (map (le_bytes (Z.to_nat (b_w c / 8))) (counter_words (b_w c) (n_pos n))) ++ ct) ++ le_bytes 8 (total_after n (length ct))) tag) = tagged c n A m ct.
Proof. unfold tagged, tag_of, mac_after, covered. rewrite <- !app_assoc. reflexivity. Qed.
Lemma crypt_withm n A m x : crypt c (withm n A m) x = crypt c n x. Proof. reflexivity. Qed.
Lemma tag_len n A m ct o : cabs o (tagged c n A m ct) -> length (tag_of c n A m ct) = tag.
Proof. intros (C1 & C2 & C3 & C4 & C5 & C6 & C7 & C8 & C9 & C10 & C11). apply C11. Qed.

Lemma Transform_plain o n inp io out oo len ord : cabs o n -> n_mac n = None -> proc_pre inp io out oo len ord ->
  exists o', S_Transform cf s p ord o (Some inp) io out oo len = Ok (o', splice out oo (crypt c n (slice inp io len)), None) /\ cabs o' (moved c n len).
Proof.
  intros CA EM PP. destruct (proc_ok o n inp io out oo len ord CA PP) as (o' & E & CA'). exists o'. split; [|exact CA']. unfold S_Transform.
  destruct CA as (C1 & C2 & C3 & C4 & C5 & C6 & C7 & C8 & C9 & C10 & C11). rewrite EM in C11. destruct C11 as [C11 _]. rewrite C7, C11. destruct (s_enc o); exact E.
Qed.
Lemma Transform_seal o n A m inp io out oo len ord : cabs o n -> n_mac n = Some (A, m) -> n_enc n = true -> bytes inp -> bytes out -> proc_pre inp io out oo len ord -> (oo + len + tag <= length out)%nat ->
  exists o', let ct := crypt c n (slice inp io len) in S_Transform cf s p ord o (Some inp) io out oo len = Ok (o', splice out oo (ct ++ tag_of c n A m ct), None) /\
    cabs o' (moved c (tagged c n A m ct) len) /\ length (ct ++ tag_of c n A m ct) = (len + tag)%nat.
Proof.
  intros CA EM EE Bi Bo PP HT. pose proof CA as (C1 & C2 & C3 & C4 & C5 & C6 & C7 & C8 & C9 & C10 & C11). rewrite EM in C11. destruct C11 as (CT & CL & k & CK & KA). destruct num as (R1 & R2 & R3 & R4 & R5).
  unfold S_Transform. rewrite C8, EE, C7, CT, CK, (M_tag _ _ HM). pose proof PP as (P1 & P2 & P3 & P4 & _). unfold short in P3, P4.
  replace (Z.of_nat (length out) <? u64 (Z.of_nat len + Z.of_nat oo + Z.of_nat tag)) with false by (symmetry; apply Z.ltb_ge; unfold u64; rewrite Z.mod_small; lia).
  destruct (nonce_ok o n A m out CA EM) as (o1 & -> & CA1). cbn [andthen]. set (nn := concat (map (le_bytes (Z.to_nat (b_w c / 8))) (counter_words (b_w c) (n_pos n)))) in *.
  destruct (proc_ok o1 _ inp io out oo len ord CA1 PP) as (o2 & -> & CA2). cbn [andthen]. rewrite crypt_withm. set (data := slice inp io len) in *. assert (LD : length data = len) by (apply length_slice; lia).
  assert (LC : length (crypt c n data) = len) by (rewrite crypt_length by exact C3; exact LD). set (ct := crypt c n data) in *.
  assert (Bct : bytes ct) by (apply crypt_bytes; [exact C3|now apply bytes_slice]).
  assert (Bo2 : bytes (splice out oo ct)) by (apply bytes_splice; auto).
  assert (Lo2 : length (splice out oo ct) = length out) by (apply length_splice; lia).
  assert (EM2 : n_mac (moved c (withm n A (m ++ nn)) len) = Some (A, m ++ nn)) by reflexivity.
  destruct (mac_ok o2 _ A (m ++ nn) (splice out oo ct) (splice out oo ct) oo len CA2 EM2 Bo2 ltac:(lia)) as (o3 & -> & CA3). cbn [andthen].
  assert (SS : slice (splice out oo ct) oo len = ct) by (replace len with (length ct) by exact LC; apply slice_splice_same; lia). rewrite SS in CA3.
  destruct (fin_ok o3 _ A ((m ++ nn) ++ ct) (splice out oo ct) len CA3 (withm_mac _ _ _)) as (o4 & -> & F). cbn [andthen]. cbv zeta in F. destruct F as (F1 & F2 & F3).
  cbn [withm moved n_enc n_code n_state n_pos n_total n_tag total_after] in F1, F2, F3. change (total_after (withm (moved c (withm n A (m ++ nn)) len) A ((m ++ nn) ++ ct)) len) with (total_after n len) in *.
  assert (TE : kmac_out rate A (((m ++ nn) ++ ct) ++ le_bytes 8 (total_after n len)) tag = tag_of c n A m ct) by (unfold tag_of, covered; rewrite LC; fold nn; rewrite <- !app_assoc; reflexivity).
  assert (AE : kmac_after rate A (((m ++ nn) ++ ct) ++ le_bytes 8 (total_after n len)) tag = mac_after c n A m ct) by (unfold mac_after, covered; rewrite LC; fold nn; rewrite <- !app_assoc; reflexivity).
  rewrite TE, AE in *. rewrite F1, F2. rewrite wcopy_ok by lia. cbn [bind]. rewrite slice_full by exact F2. exists o4. cbv zeta. split; [|split].
  - do 3 f_equal. replace (oo + len)%nat with (oo + length ct)%nat by lia. apply splice_splice_next. rewrite F2. lia.
  - unfold moved, tagged. cbn [n_enc n_code n_state n_pos n_mac n_total n_tag]. rewrite LC. exact F3.
  - rewrite app_length. lia.
Qed.
Lemma Transform_open o n A m inp io out oo len ord : cabs o n -> n_mac n = Some (A, m) -> n_enc n = false -> bytes inp -> bytes out -> proc_pre inp io out oo len ord -> (io + len + tag <= length inp)%nat ->
  let data := slice inp io len in exists o',
    (slice inp (io + len) tag = tag_of c n A m data /\ S_Transform cf s p ord o (Some inp) io out oo len = Ok (o', splice out oo (crypt c n data), None) /\ cabs o' (moved c (tagged c n A m data) len)) \/
    (slice inp (io + len) tag <> tag_of c n A m data /\ S_Transform cf s p ord o (Some inp) io out oo len = Ok (o', out, Some AuthenticationFailure) /\ cabs o' (tagged c n A m data)).
Proof.
  intros CA EM EE Bi Bo PP HT data. pose proof CA as (C1 & C2 & C3 & C4 & C5 & C6 & C7 & C8 & C9 & C10 & C11). rewrite EM in C11. destruct C11 as (CT & CL & k & CK & KA). destruct num as (R1 & R2 & R3 & R4 & R5).
  unfold S_Transform. rewrite C8, EE, C7, CT. cbn [src].
  destruct (nonce_ok o n A m out CA EM) as (o1 & -> & CA1). cbn [andthen]. set (nn := concat (map (le_bytes (Z.to_nat (b_w c / 8))) (counter_words (b_w c) (n_pos n)))) in *.
  destruct (mac_ok o1 _ A (m ++ nn) out inp io len CA1 (withm_mac _ _ _) Bi ltac:(lia)) as (o2 & -> & CA2). cbn [andthen]. fold data in CA2. assert (LD : length data = len) by (apply length_slice; lia).
  destruct (fin_ok o2 _ A ((m ++ nn) ++ data) out len CA2 (withm_mac _ _ _)) as (o3 & -> & F). cbn [andthen]. cbv zeta in F. destruct F as (F1 & F2 & F3).
  cbn [withm n_enc n_code n_state n_pos n_total n_tag] in F3. change (total_after (withm (withm n A (m ++ nn)) A ((m ++ nn) ++ data)) len) with (total_after n len) in *.
  assert (TE : kmac_out rate A (((m ++ nn) ++ data) ++ le_bytes 8 (total_after n len)) tag = tag_of c n A m data) by (unfold tag_of, covered; rewrite LD; fold nn; rewrite <- !app_assoc; reflexivity).
  assert (AE : kmac_after rate A (((m ++ nn) ++ data) ++ le_bytes 8 (total_after n len)) tag = mac_after c n A m data) by (unfold mac_after, covered; rewrite LD; fold nn; rewrite <- !app_assoc; reflexivity).
  rewrite TE, AE in *. assert (CA3 : cabs o3 (tagged c n A m data)) by (unfold tagged; rewrite LD; exact F3). clear F3. rewrite F1, F2.
  assert (Bt : bytes (tag_of c n A m data)) by (unfold tag_of; apply kmac_out_bytes).
  destruct (Compare_correct inp (io + len) (tag_of c n A m data) 0 tag ltac:(lia) ltac:(lia) Bi Bt) as (b & -> & HC). cbn [bind]. rewrite (slice_full _ _ F2) in HC. destruct b.
  - destruct (proc_ok o3 _ inp io out oo len ord CA3 PP) as (o4 & E4 & CA4). exists o4. left. split; [now apply HC|]. split; [|exact CA4]. exact E4.
  - exists o3. right. split; [intros Q; apply HC in Q; discriminate|]. split; [reflexivity|exact CA3].
Qed.
Lemma Aad_ok o n A m inp off len : cabs o n -> n_mac n = Some (A, m) -> bytes inp -> (off + len <= length inp)%nat -> b_mark c && (len =? 0)%nat = false ->
  exists o', S_SetAssociatedData cf o inp off len = Ok (o', [], None) /\ cabs o' (aad c n A m (slice inp off len)).
Proof.
  intros CA EM Bi HL HZ. pose proof CA as (C1 & C2 & C3 & C4 & C5 & C6 & C7 & C8 & C9 & C10 & C11). rewrite EM in C11. destruct C11 as (CT & _).
  unfold S_SetAssociatedData. rewrite C9, C7, CT, (M_mark _ _ HM), HZ. cbn [negb].
  destruct (mac_ok o n A m [] inp off len CA EM Bi HL) as (o1 & -> & CA1). cbn [andthen]. unfold aad. rewrite length_slice by lia. destruct (b_mark c).
  - destruct (mac_ok o1 _ A _ [] (le_bytes 4 (u32 (Z.of_nat len))) 0 4 CA1 (withm_mac _ _ _) (bytes_le_bytes _ _) ltac:(rewrite length_le_bytes; lia)) as (o2 & -> & CA2).
    exists o2. split; [reflexivity|]. rewrite slice_full in CA2 by apply length_le_bytes. rewrite <- app_assoc in CA2. exact CA2.
  - exists o1. split; [reflexivity|]. rewrite app_nil_r. exact CA1.
Qed.

(** the direction after a call *)
Definition turned (e : bool) (x : xcall) : bool := match x with XInit e' key iv info => if accepted c key iv info then e' else e | _ => e end.
Lemma xstep_ok o n x cs : cabs o n -> xcall_ok c p (auth && negb (n_enc n)) x ->
  exists o' n' r, xstep cf s p o x = Ok (o', r) /\ cabs o' n' /\ n_enc n' = turned (n_enc n) x /\ (forall rs, xexpected c auth n' cs rs -> xexpected c auth n (x :: cs) (r :: rs)).
Proof.
  intros CA Hx. unfold turned.
  assert (STEP : forall o' n' r, xstep cf s p o x = Ok (o', r) -> cabs o' n' -> n_enc n' = (match x with XInit e key iv info => if accepted c key iv info then e else n_enc n | _ => n_enc n end) ->
    (forall rs, xexpected c auth n' cs rs -> xexpected c auth n (x :: cs) (r :: rs)) ->
    exists o' n' r, xstep cf s p o x = Ok (o', r) /\ cabs o' n' /\ n_enc n' = (match x with XInit e key iv info => if accepted c key iv info then e else n_enc n | _ => n_enc n end) /\ (forall rs, xexpected c auth n' cs rs -> xexpected c auth n (x :: cs) (r :: rs))) by eauto 10.
  destruct x as [enc key iv info|inp off len|inp io out oo len ord|].
  - destruct Hx as (Bk & Bv & Bf). destruct (accepted c key iv info) eqn:AC.
    + destruct (Init_ok o (n_code n) enc key iv info ltac:(right; exists n; auto) Bk Bv Bf AC) as (o' & E & CA'). eapply (STEP o' _ XDone); [cbn [xstep]; rewrite E; reflexivity|exact CA'|reflexivity|].
      intros rs H. cbn [xexpected]. unfold accepted in AC. apply andb_true_iff in AC. destruct AC as [AC A3]. apply andb_true_iff in AC. destruct AC as [A1 A2]. rewrite A1, A2. cbn [negb]. apply negb_true_iff in A3. rewrite A3. split; [reflexivity|exact H].
    + assert (E : exists e, xstep cf s p o (XInit enc key iv info) = Ok (o, XFail e []) /\ forall rs, xexpected c auth n cs rs -> xexpected c auth n (XInit enc key iv info :: cs) (XFail e [] :: rs)).
      { cbn [xstep xexpected]. unfold S_Initialize. rewrite (M_key _ _ HM), (M_iv _ _ HM), (M_strict _ _ HM), (M_info _ _ HM). unfold accepted in AC.
        destruct (length key =? b_key c)%nat; [|exists InvalidKey; split; [reflexivity|intros rs H; split; [reflexivity|exact H]]]. cbn [guard bind negb andb] in *.
        destruct (length iv =? b_iv c)%nat; [|exists InvalidNonce; split; [reflexivity|intros rs H; split; [reflexivity|exact H]]]. cbn [guard bind negb andb] in *.
        rewrite AC. cbn [guard bind]. apply negb_false_iff in AC. rewrite AC. exists InvalidInfo. split; [reflexivity|intros rs H; split; [reflexivity|exact H]]. }
      destruct E as (e & E1 & E2). apply (STEP o n (XFail e [])); [exact E1|exact CA|reflexivity|exact E2].
  - destruct Hx as (Bi & HL). destruct (n_mac n) as [(A & m)|] eqn:EM.
    + destruct (b_mark c && (len =? 0)%nat) eqn:HZ.
      * apply (STEP o n (XFail InvalidSize [])); [|exact CA|reflexivity|].
        -- pose proof CA as (C1 & C2 & C3 & C4 & C5 & C6 & C7 & C8 & C9 & C10 & C11). rewrite EM in C11. destruct C11 as (CT & _). cbn [xstep]. unfold S_SetAssociatedData. rewrite C9, C7, CT, (M_mark _ _ HM), HZ. reflexivity.
        -- intros rs H. cbn [xexpected]. rewrite EM, HZ. split; [reflexivity|exact H].
      * destruct (Aad_ok o n A m inp off len CA EM Bi HL HZ) as (o' & E & CA'). eapply (STEP o' _ XDone); [cbn [xstep]; rewrite E; reflexivity|exact CA'|reflexivity|].
        intros rs H. cbn [xexpected]. rewrite EM, HZ. split; [reflexivity|exact H].
    + apply (STEP o n (XFail IllegalOperation [])); [|exact CA|reflexivity|].
      * pose proof CA as (C1 & C2 & C3 & C4 & C5 & C6 & C7 & C8 & C9 & C10 & C11). rewrite EM in C11. destruct C11 as (CT & _). cbn [xstep]. unfold S_SetAssociatedData. rewrite C9, C7, CT. reflexivity.
      * intros rs H. cbn [xexpected]. rewrite EM. split; [reflexivity|exact H].
  - destruct Hx as (Bi & Bo & HI & HO & S1 & S2 & PO & PC & PT). assert (PP : proc_pre inp io out oo len ord) by (red; repeat split; auto; lia).
    pose proof CA as (C1 & C2 & C3 & C4 & C5 & C6 & C7 & C8 & C9 & C10 & C11).
    assert (LD : length (slice inp io len) = len) by (apply length_slice; lia).
    assert (LC : length (crypt c n (slice inp io len)) = len) by (rewrite crypt_length; auto).
    destruct (n_mac n) as [(A & m)|] eqn:EM.
    + destruct C11 as (CT & CL & k & CK & KA). destruct (n_enc n) eqn:EE.
      * destruct (Nat.ltb_spec (length out) (oo + len + tag)) as [LT|GE].
        -- apply (STEP o n (XFail InvalidSize out)); [|exact CA|exact EE|].
           ++ cbn [xstep]. unfold S_Transform. rewrite C8, C7, CT, CK, (M_tag _ _ HM). unfold short in S1, S2. destruct num as (R1 & R2 & R3 & R4 & R5).
              replace (Z.of_nat (length out) <? u64 (Z.of_nat len + Z.of_nat oo + Z.of_nat tag)) with true by (symmetry; apply Z.ltb_lt; unfold u64; rewrite Z.mod_small; lia). reflexivity.
           ++ intros rs H. cbn [xexpected]. rewrite EM, EE. replace (length out <? oo + len + tag)%nat with true by (symmetry; apply Nat.ltb_lt; lia). split; [reflexivity|exact H].
        -- destruct (Transform_seal o n A m inp io out oo len ord CA EM EE Bi Bo PP GE) as (o' & E & CA' & LL). cbv zeta in *.
           eapply (STEP o' _ (XOut (splice out oo (crypt c n (slice inp io len) ++ tag_of c n A m (crypt c n (slice inp io len)))))); [cbn [xstep]; rewrite E; reflexivity|exact CA'|exact EE|].
           intros rs H. cbn [xexpected]. rewrite EM, EE. replace (length out <? oo + len + tag)%nat with false by (symmetry; apply Nat.ltb_ge; lia). split; [|exact H].
           eexists. split; [reflexivity|]. apply splice_written. rewrite LL. lia.
      * rewrite CT in HI. cbn [andb negb] in HI. destruct (Transform_open o n A m inp io out oo len ord CA EM EE Bi Bo PP HI) as (o' & [(TQ & E & CA')|(TQ & E & CA')]).
        -- eapply (STEP o' _ (XOut (splice out oo (crypt c n (slice inp io len))))); [cbn [xstep]; rewrite E; reflexivity|exact CA'|exact EE|].
           intros rs H. cbn [xexpected]. rewrite EM, EE. left. split; [exact TQ|]. split; [|exact H]. eexists. split; [reflexivity|]. apply splice_written. lia.
        -- eapply (STEP o' _ (XFail AuthenticationFailure out)); [cbn [xstep]; rewrite E; reflexivity|exact CA'|exact EE|].
           intros rs H. cbn [xexpected]. rewrite EM, EE. right. split; [exact TQ|]. split; [reflexivity|exact H].
    + destruct (Transform_plain o n inp io out oo len ord CA EM PP) as (o' & E & CA').
      eapply (STEP o' _ (XOut (splice out oo (crypt c n (slice inp io len))))); [cbn [xstep]; rewrite E; reflexivity|exact CA'|reflexivity|].
      intros rs H. cbn [xexpected]. rewrite EM. split; [|exact H]. eexists. split; [reflexivity|]. apply splice_written. lia.
  - pose proof CA as (C1 & C2 & C3 & C4 & C5 & C6 & C7 & C8 & C9 & C10 & C11). destruct num as (R1 & R2 & R3 & R4 & R5). destruct (n_mac n) as [(A & m)|] eqn:EM.
    + destruct C11 as (CT & CL & _). apply (STEP o n (XOut (n_tag n))); [|exact CA|reflexivity|].
      * cbn [xstep]. unfold S_Tag. rewrite C10, C7, CT, CL. replace (tag =? 0)%nat with false by (symmetry; apply Nat.eqb_neq; lia). reflexivity.
      * intros rs H. cbn [xexpected]. rewrite EM. split; [reflexivity|exact H].
    + destruct C11 as (CT & CL). apply (STEP o n (XFail NotInitialized [])); [|exact CA|reflexivity|].
      * cbn [xstep]. unfold S_Tag. rewrite C10, CL. reflexivity.
      * intros rs H. cbn [xexpected]. rewrite EM. split; [reflexivity|exact H].
Qed.
Lemma xhistory_ok cs : forall o n, cabs o n -> xcalls_ok c p auth (n_enc n) cs -> exists rs, xhistory cf s p o cs = Ok rs /\ xexpected c auth n cs rs.
Proof.
  induction cs as [|x cs IH]; intros o n CA HC; [exists []; split; [reflexivity|exact I]|]. cbn [xcalls_ok] in HC. destruct HC as [Hx HC]. cbn [xhistory].
  destruct (xstep_ok o n x cs CA Hx) as (o' & n' & r & E & CA' & EE & H). rewrite E. cbn [bind fst snd]. unfold turned in EE. rewrite <- EE in HC. destruct (IH o' n' CA' HC) as (rs & -> & H4). cbn [bind]. exists (r :: rs). split; [reflexivity|]. now apply H.
Qed.
End obj.
