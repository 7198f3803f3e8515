(** Histories of the TSX objects. *)
From Coq Require Import Permutation.
From Verif Require Import BaseLemmas Spec_Common Proofs_Common Model_IntegerTools Proofs_IntegerTools Proofs_IntegerTools2 Model_Modes Proofs_Windows Model_KDF Proofs_KDF Proofs_KDF2
  Spec_Keccak Proofs_Keccak Session_Digest Session_KMAC Session_SHAKE Model_SHAKE Proofs_KMAC2 Proofs_SHAKE
  Model_ChaCha Spec_ChaCha Proofs_ChaCha Proofs_ChaCha2 Spec_Stream Spec_TSX Model_CSX Model_TSX Session_CSX Session_TSX Proofs_CSX Proofs_CSX2 Proofs_TSX.
Open Scope Z_scope.

Section obj.
Context (cf : tconf) (c : tcipher) (p : sprof) (auth : bool).
Hypothesis HM : tmatches cf c.
Hypothesis HP : profile_ok (t_B c) p.
Local Notation rate := (t_rate c).
Local Notation tag := (t_tag c).
Local Notation mk := (t_mac c).

Definition tabs (o : tobj) (n : tconn) : Prop :=
  o_ctr o = counter_words 64 (k_pos n) /\ o_key o = k_key n /\ length (k_key n) = (t_B c / 8)%nat /\ o_tweak o = k_tweak n /\ length (k_tweak n) = 2%nat /\
  o_count o = k_total n /\ o_auth o = auth /\ o_enc o = k_enc n /\ o_init o = true /\ o_mtag o = k_tag n /\
  match k_mac n with
  | None => auth = false /\ k_tag n = []
  | Some (A, m) => auth = true /\ length (k_tag n) = tag /\ exists k x, o_mac o = Some k /\ kabs rate k (Some (A, m)) /\ o_custom o = x ++ t_name c /\ length x = 8%nat
  end.
(** fresh, or initialised before *)
Definition tbefore (o : tobj) : Prop := o = T_new cf auth \/ exists n, tabs o n.
Lemma tnum : (64 <= rate <= 190)%nat /\ (rate mod 8 = 0)%nat /\ (16 <= t_B c <= 2 * rate)%nat /\ (t_B c mod 8 = 0)%nat /\ (16 <= mk <= rate)%nat /\ (mk <= tag <= 1000)%nat.
Proof. exact (T_num _ _ HM). Qed.

Lemma tderive key : bytes key -> length key = t_B c ->
  exists g g1 g2, SHAKE_Initialize (f_rate cf) SHAKE_new key (tcustom c) [] = Ok g /\
  SHAKE_Generate (f_rate cf) g (zeros (f_B cf)) 0 (f_B cf) = Ok (g1, tcipher_key c true key) /\
  SHAKE_Generate (f_rate cf) g1 (zeros (f_mac cf)) 0 (f_mac cf) = Ok (g2, tmac_key c key) /\
  length (tcipher_key c true key) = t_B c /\ length (tmac_key c key) = mk.
Proof.
  intros Bk Lk. destruct tnum as (R1 & R2 & R3 & R4 & R5 & R6). destruct (T_nm _ _ HM) as (N1 & N2 & N3). rewrite (T_mrate _ _ HM), (T_mB _ _ HM), (T_mmac _ _ HM).
  assert (LT : length (tcustom c) = (8 + length (t_name c))%nat) by (unfold tcustom; rewrite app_length, length_le_bytes; reflexivity).
  destruct (SHAKE_Init_ok rate ltac:(lia) SHAKE_new None key (tcustom c) [] eq_refl) as (g & E & G).
  { cbn [scall_ok]. split; [exact Bk|]. split; [now apply tcustom_ok|]. split; [constructor|]. split; [red; lia|]. split; [red; cbn; lia|]. exact N3. }
  { lia. } { right. lia. }
  assert (LZ : forall k, length (zeros k) = k) by (intros; apply length_zeros).
  destruct (SHAKE_Gen_ok rate ltac:(lia) g key (tcustom c) [] 0 0 (zeros (t_B c)) 0 (t_B c) G) as (g1 & E1 & L1 & G1); [rewrite LZ; lia| |].
  { cbn [Nat.add]. assert (t_B c / rate <= 2)%nat by (apply Nat.div_le_upper_bound; lia). lia. }
  cbn [Nat.add] in G1. change ((t_B c + rate - 1) / rate)%nat with (nblocks rate (t_B c)) in G1.
  destruct (SHAKE_Gen_ok rate ltac:(lia) g1 key (tcustom c) [] (nblocks rate (t_B c)) _ (zeros mk) 0 mk G1) as (g2 & E2 & L2 & G2); [rewrite LZ; lia| |].
  { assert (t_B c / rate <= 2)%nat by (apply Nat.div_le_upper_bound; lia). assert (mk / rate <= 1)%nat by (apply Nat.div_le_upper_bound; lia). destruct (_ =? _)%nat; lia. }
  cbn [Nat.mul Nat.add] in E1, L1. rewrite skipn_O in *. exists g, g1, g2. split; [exact E|]. split; [|split; [|split; [exact L1|exact L2]]].
  - rewrite E1. do 2 f_equal. rewrite splice_all by (rewrite LZ; exact L1). reflexivity.
  - rewrite E2. do 2 f_equal. rewrite splice_all by (rewrite LZ; exact L2). reflexivity.
Qed.
Lemma iv_counter iv : bytes iv -> length iv = 16%nat -> words 8 iv 0 2 = Ok (counter_words 64 (value_le iv)).
Proof.
  intros Bi H2. rewrite words_ok by lia. rewrite slice_full by lia. f_equal.
  replace iv with (firstn 8 iv ++ skipn 8 iv) at 1 by apply firstn_skipn. unfold le_words. rewrite chunks_app by (rewrite ?firstn_length; lia).
  replace (skipn 8 iv) with (skipn 8 iv ++ []) by apply app_nil_r. rewrite chunks_app by (rewrite ?skipn_length; lia). rewrite chunks_nil. cbn [map].
  pose proof (le_val_range _ (bytes_firstn 8 iv Bi)) as R1. pose proof (le_val_range _ (bytes_skipn 8 iv Bi)) as R2.
  rewrite firstn_length, H2 in R1. rewrite skipn_length, H2 in R2.
  apply counter_uniq; [lia|exact R1|exact R2|]. rewrite value_le_eq. replace iv with (firstn 8 iv ++ skipn 8 iv) at 3 by apply firstn_skipn.
  rewrite le_val_app, firstn_length, H2. change (256 ^ Z.of_nat (Nat.min 8 16)) with (2 ^ 64) in *. change (256 ^ Z.of_nat (16 - 8)) with (2 ^ 64) in *.
  rewrite Z.mod_small; [reflexivity|]. change (2 ^ (2 * 64)) with (2 ^ 64 * 2 ^ 64). set (M := 2 ^ 64) in *. nia.
Qed.
Lemma key_words k : length k = t_B c -> words 8 k 0 (t_B c / 8) = Ok (le_words 8 k) /\ length (le_words 8 k) = (t_B c / 8)%nat.
Proof.
  intros H. destruct tnum as (R1 & R2 & R3 & R4 & R5 & R6). assert (E : (t_B c = 8 * (t_B c / 8))%nat) by (pose proof (Nat.div_mod (t_B c) 8); lia).
  rewrite words_ok by lia. rewrite <- E. rewrite slice_full by exact H. split; [reflexivity|]. apply le_words_len; lia.
Qed.
Definition tw_of (info : list Z) : list Z := match info with [] => t_default c | _ => info end.
Lemma tweak_ok info : length info = 0%nat \/ length info = 16%nat ->
  (if negb (length info =? 0)%nat then words 8 info 0 2 else words 8 (f_omega cf) 0 2) = Ok (le_words 8 (tw_of info)) /\ length (le_words 8 (tw_of info)) = 2%nat.
Proof.
  intros H. destruct (T_om _ _ HM) as (O1 & O2). rewrite (T_omega _ _ HM). assert (L : length (tw_of info) = 16%nat) by (destruct info; [exact O1|destruct H as [H|H]; [discriminate|exact H]]).
  split; [|apply le_words_len; lia]. replace (if negb (length info =? 0)%nat then words 8 info 0 2 else words 8 (t_default c) 0 2) with (words 8 (tw_of info) 0 2) by (destruct info; reflexivity).
  rewrite words_ok by lia. now rewrite slice_full by lia.
Qed.
Lemma custom_ok l : bind (wr (resized l (8 + length (t_name c))) 0 (le_bytes 8 1)) (fun cust => wcopy (t_name c) 0 cust 8 (length (t_name c))) = Ok (tcustom c).
Proof.
  pose proof (resized_len l (8 + length (t_name c))) as L. rewrite wr_ok by (rewrite length_le_bytes; lia). cbn [bind].
  rewrite wcopy_ok by (rewrite ?length_splice; rewrite ?length_le_bytes; lia). rewrite slice_full by reflexivity.
  pose proof (splice_splice_next (resized l (8 + length (t_name c))) 0 (le_bytes 8 1) (t_name c)) as S. rewrite length_le_bytes in S. cbn [Nat.add] in S, L |- *. rewrite S by lia.
  rewrite splice_all; [reflexivity|]. rewrite app_length, length_le_bytes. cbn [Nat.add] in L |- *. lia.
Qed.

Lemma info_guard (info : list Z) : (length info = 0 \/ length info = 16)%nat ->
  negb ((0 <? length info)%nat && (if f_strict cf then negb (length info =? 16)%nat else (16 <? length info)%nat)) = true.
Proof. intros [->| ->]; [reflexivity|]. now destruct (f_strict cf). Qed.
Lemma tInit_ok o enc key iv info : tbefore o -> bytes key -> bytes iv -> bytes info -> taccepted c key iv info = true ->
  exists o', T_Initialize cf p o enc key iv info = Ok o' /\ tabs o' (topened c auth enc key iv info).
Proof.
  intros HB Bk Bi Bf HA. destruct tnum as (R1 & R2 & R3 & R4 & R5 & R6). unfold taccepted in HA. apply andb_true_iff in HA. destruct HA as [HA H3]. apply andb_true_iff in HA. destruct HA as [H1 H2].
  assert (HI : (length info = 0 \/ length info = 16)%nat) by (apply orb_true_iff in H3; destruct H3 as [H3|H3]; apply Nat.eqb_eq in H3; auto).
  unfold T_Initialize. rewrite (T_mB _ _ HM), H1, H2, (info_guard info HI). cbn [guard bind]. apply Nat.eqb_eq in H1, H2.
  assert (G : (if sp_par p then _ <- guard (negb ((sp_blk p <? sp_min p)%nat || (max_alloc <? Z.of_nat (sp_blk p)))) InvalidSize ;; _ <- safe (negb (sp_min p =? 0)%nat) ;; guard (sp_blk p mod sp_min p =? 0)%nat InvalidParam else Ok tt) = Ok tt).
  { destruct HP as (P1 & P2 & P3 & P4). destruct (sp_par p); [|reflexivity]. destruct (P4 eq_refl) as (Q1 & Q2 & Q3).
    replace (sp_blk p <? sp_min p)%nat with false by (symmetry; apply Nat.ltb_ge; lia). replace (max_alloc <? Z.of_nat (sp_blk p)) with false by (symmetry; apply Z.ltb_ge; lia).
    cbn [orb negb guard bind]. assert (sp_min p <> 0)%nat by nia. replace (sp_min p =? 0)%nat with false by (symmetry; apply Nat.eqb_neq; lia). cbn [negb safe bind]. rewrite Q3. reflexivity. }
  rewrite G. cbn [bind]. clear G.
  assert (RS : exists o1, (if o_init o then T_Reset cf o else Ok o) = Ok o1 /\ o_auth o1 = auth /\ o_count o1 = 0 /\ (auth = true -> resized (o_mtag o1) tag = zeros tag) /\ (auth = false -> o_mtag o1 = [])).
  { destruct HB as [->|(n & CA)].
    - exists (T_new cf auth). cbn [T_new o_init o_auth o_count o_mtag]. split; [reflexivity|]. split; [reflexivity|]. split; [reflexivity|]. split; [intros _; apply (resized_zeros 0)|reflexivity].
    - destruct CA as (C1 & C2 & C3 & C4 & C5 & C6 & C7 & C8 & C9 & C10 & C11). rewrite C9. unfold T_Reset. rewrite C7.
      assert (X : exists mac, (if auth then match o_mac o with Some _ => Ok (Some KMAC_new) | None => UB end else Ok (o_mac o)) = Ok mac).
      { destruct (k_mac n) as [(A & m)|]; [destruct C11 as (-> & _ & k & x & -> & _); eexists; reflexivity|destruct C11 as (-> & _); eexists; reflexivity]. }
      destruct X as (mac & ->). cbn [bind]. eexists. split; [reflexivity|]. cbn [o_auth o_count o_mtag]. split; [reflexivity|]. split; [reflexivity|]. split; [intros _; apply resized_zeros|].
      intros AF. rewrite C10. destruct (k_mac n) as [(A & m)|]; [destruct C11 as (C11 & _); congruence|]. destruct C11 as (_ & ->). reflexivity. }
  destruct RS as (o1 & -> & A2 & A3 & A6 & A7). cbn [bind]. rewrite (iv_counter iv Bi H2). cbn [bind]. destruct (tweak_ok info HI) as (-> & LW). cbn [bind]. rewrite A2. unfold topened. fold (tw_of info).
  destruct auth eqn:EA.
  - cbv zeta. pose proof (custom_ok (o_custom o1)) as CU. rewrite (T_mname _ _ HM). destruct (wr _ 0 (le_bytes 8 1)) as [cu|e|]; [|discriminate CU|discriminate CU]. cbn [bind] in CU |- *. rewrite CU. cbn [bind].
    destruct (tderive key Bk H1) as (g & g1 & g2 & E1 & E2 & E3 & L1 & L2). rewrite E1. cbn [bind]. rewrite (T_mB _ _ HM) in E2. rewrite E2. cbn [bind].
    destruct (key_words _ L1) as (-> & LK). cbn [bind]. rewrite E3. cbn [bind].
    destruct (KMAC_Init_ok rate mk R1 R2 ltac:(lia) KMAC_new None (tmac_key c key) [] [] eq_refl) as (k & EK & KA).
    { cbn [kcall_ok]. split; [unfold tmac_key; apply bytes_skipn, cshake_bytes|]. split; [constructor|]. split; [constructor|]. split; [red; rewrite L2; lia|]. split; [red; cbn; lia|]. split; [red; cbn; lia|]. apply kname_fits. exact R1. }
    { lia. } { left. reflexivity. }
    rewrite (T_mrate _ _ HM), EK. cbn [bind]. eexists. split; [reflexivity|]. red. cbn [o_ctr o_key o_tweak o_count o_auth o_enc o_init o_mtag o_mac o_custom k_pos k_key k_tweak k_total k_enc k_tag k_mac].
    rewrite (T_mtag _ _ HM), A6 by reflexivity. repeat (split; [auto; fail|]). split; [apply length_zeros|]. exists k, (le_bytes 8 1). split; [reflexivity|]. split; [exact KA|]. split; [reflexivity|apply length_le_bytes].
  - destruct (key_words _ H1) as (-> & LK). cbn [bind]. eexists. split; [reflexivity|].
    red. cbn [o_ctr o_key o_tweak o_count o_auth o_enc o_init o_mtag o_mac o_custom k_pos k_key k_tweak k_total k_enc k_tag k_mac tcipher_key]. repeat (split; [auto; fail|]). reflexivity.
Qed.

(** the connection with another message in its authenticator *)
Definition withm (n : tconn) (A m : list Z) : tconn := TConn (k_enc n) (k_key n) (k_tweak n) (k_pos n) (Some (A, m)) (k_total n) (k_tag n).
Lemma mac_ok o n A m out inp io len : tabs o n -> k_mac n = Some (A, m) -> bytes inp -> (io + len <= length inp)%nat ->
  exists o', T_mac cf o out inp io len = Ok (o', out, None) /\ tabs o' (withm n A (m ++ slice inp io len)).
Proof.
  intros CA EM Bi HL. destruct tnum as (R1 & R2 & R3 & R4 & R5 & R6). destruct CA as (C1 & C2 & C3 & C4 & C5 & C6 & C7 & C8 & C9 & C10 & C11). rewrite EM in C11. destruct C11 as (CT & CL & k & x & CK & KA & CX & LX).
  unfold T_mac. rewrite CK, (T_mrate _ _ HM). destruct (kabs_upd rate mk R1 R2 ltac:(lia) k A m inp io len KA Bi HL) as (k' & -> & KA'). eexists. split; [reflexivity|].
  red. cbn [o_ctr o_key o_tweak o_count o_auth o_enc o_init o_mtag o_mac o_custom k_pos k_key k_tweak k_total k_enc k_tag k_mac withm]. repeat (split; [auto; fail|]). exists k', x. split; [reflexivity|]. split; [exact KA'|]. split; [exact CX|exact LX].
Qed.
Lemma withm_mac n A m : k_mac (withm n A m) = Some (A, m). Proof. reflexivity. Qed.
Lemma nonce_ok o n A m out : tabs o n -> k_mac n = Some (A, m) ->
  exists o', T_nonce cf o out = Ok (o', out, None) /\ tabs o' (withm n A (m ++ concat (map (le_bytes 8) (counter_words 64 (k_pos n))))).
Proof.
  intros CA EM. unfold T_nonce. pose proof (proj1 CA) as C1. rewrite C1. unfold counter_words at 1 2. cbn [get nth_error bind].
  set (a := k_pos n mod 2 ^ 64). set (b := k_pos n / 2 ^ 64 mod 2 ^ 64).
  destruct (mac_ok o n A m out (le_bytes 8 a) 0 8 CA EM (bytes_le_bytes _ _) ltac:(rewrite length_le_bytes; lia)) as (o1 & -> & CA1). cbn [tthen].
  destruct (mac_ok o1 _ A _ out (le_bytes 8 b) 0 8 CA1 (withm_mac _ _ _) (bytes_le_bytes _ _) ltac:(rewrite length_le_bytes; lia)) as (o2 & -> & CA2).
  exists o2. split; [reflexivity|]. rewrite !slice_full in CA2 by apply length_le_bytes. unfold counter_words. cbn [map concat]. rewrite app_nil_r. rewrite app_assoc. exact CA2.
Qed.
Lemma withm_twice n A m A' m' : withm (withm n A m) A' m' = withm n A' m'. Proof. reflexivity. Qed.

Definition sized (n : tconn) : Prop := length (k_key n) = (t_B c / 8)%nat /\ length (k_tweak n) = 2%nat.
Lemma B_pos : (0 < t_B c)%nat. Proof. destruct tnum as (R1 & R2 & R3 & R4 & R5 & R6). lia. Qed.
Lemma block_facts n : sized n -> forall v, length (t_block c (k_key n) (k_tweak n) v) = t_B c.
Proof. intros [H1 H2] v. now apply (T_len _ _ HM). Qed.
Lemma crypt_length n m : sized n -> length (tcrypt c n m) = length m.
Proof. intros H. unfold tcrypt. apply (crypt_len (t_B c) _ B_pos (block_facts n H)). Qed.
Lemma crypt_bytes n m : sized n -> bytes m -> bytes (tcrypt c n m).
Proof.
  intros H Bm. unfold tcrypt, stream_crypt. apply bytes_xorl; [exact Bm|]. apply keystream_bytes; [exact B_pos|now apply block_facts|]. intros v. apply (T_bytes _ _ HM).
Qed.
(** Process on the object *)
Definition proc_pre (inp : list Z) (io : nat) (out : list Z) (oo len : nat) (ord : list nat) : Prop :=
  (io + len <= length inp)%nat /\ (oo + len <= length out)%nat /\ short inp /\ short out /\ Permutation ord (seq 0 (sp_deg p)) /\ Z.of_nat (len / t_B c) < 2 ^ 64.
Lemma proc_ok o n inp io out oo len ord : tabs o n -> proc_pre inp io out oo len ord ->
  exists o', T_proc cf p ord o (Some inp) io out oo len = Ok (o', splice out oo (tcrypt c n (slice inp io len)), None) /\ tabs o' (tmoved c n len).
Proof.
  intros CA (P1 & P2 & P3 & P4 & P5 & P6). destruct CA as (C1 & C2 & C3 & C4 & C5 & C6 & C7 & C8 & C9 & C10 & C11). destruct HP as (Q1 & Q2 & Q3 & Q4). unfold T_proc. rewrite C1, C2, C4, (T_mB _ _ HM).
  assert (F : fit inp out io oo len) by (unfold short in P3, P4; red; repeat split; lia).
  assert (SZ : sized n) by (split; assumption).
  assert (HPm : forall out oo v, (oo + t_B c <= length out)%nat -> T_perm cf (k_key n) (k_tweak n) out oo (counter_words 64 v) = Ok (splice out oo (t_block c (k_key n) (k_tweak n) v))).
  { intros out0 oo0 v HL. unfold T_perm. destruct (T_permok _ _ HM (k_key n) (k_tweak n) v C3 C5) as (ws & -> & EB). cbn [bind]. rewrite <- EB. apply wr_ok. rewrite (block_facts n SZ). exact HL. }
  rewrite (T_par_ok (t_B c) _ B_pos (block_facts n SZ) _ HPm p ord inp io out oo len (k_pos n) F) by auto.
  cbn [bind]. eexists. split; [reflexivity|].
  red. cbn [o_ctr o_key o_tweak o_count o_auth o_enc o_init o_mtag o_mac o_custom k_pos k_key k_tweak k_total k_enc k_tag k_mac tmoved]. repeat (split; [auto; fail|]). exact C11.
Qed.
(** Counter += Length; Finalize *)
Lemma fin_ok o n A m out len : tabs o n -> k_mac n = Some (A, m) ->
  exists o', T_Finalize cf (T_add o len) out = Ok (o', out, None) /\
    let M := m ++ le_bytes 8 (ttotal n len) ++ t_name c in
    o_mtag o' = kmac_out rate A M tag /\ length (kmac_out rate A M tag) = tag /\
    tabs o' (TConn (k_enc n) (k_key n) (k_tweak n) (k_pos n) (Some (kmac_after rate A M tag, [])) (ttotal n len) (kmac_out rate A M tag)).
Proof.
  intros CA EM. destruct tnum as (R1 & R2 & R3 & R4 & R5 & R6). set (n1 := TConn (k_enc n) (k_key n) (k_tweak n) (k_pos n) (k_mac n) (ttotal n len) (k_tag n)).
  pose proof CA as (C1 & C2 & C3 & C4 & C5 & C6 & C7 & C8 & C9 & C10 & C11). rewrite EM in C11. destruct C11 as (CT & CL & k0 & x & CK & KA & CX & LX).
  unfold T_Finalize. cbn [T_add o_key o_ctr o_tweak o_custom o_mkey o_mtag o_count o_auth o_enc o_init o_mac]. rewrite C6, CX. change (u64 (k_total n + Z.of_nat len)) with (ttotal n len).
  assert (LB : length (le_bytes 8 (ttotal n len)) = 8%nat) by apply length_le_bytes. destruct (T_nm _ _ HM) as (N1 & N2 & N3).
  rewrite wr_ok by (rewrite LB, app_length; lia). cbn [bind]. cbv zeta.
  assert (SP : splice (x ++ t_name c) 0 (le_bytes 8 (ttotal n len)) = le_bytes 8 (ttotal n len) ++ t_name c).
  { unfold splice. rewrite firstn_O, LB. cbn [app Nat.add]. f_equal. rewrite skipn_app, LX. rewrite skipn_all2 by lia. reflexivity. }
  rewrite SP. set (cu := le_bytes 8 (ttotal n len) ++ t_name c) in *. set (oo1 := TObj _ _ _ _ _ _ _ _ _ _ _).
  assert (CA1 : tabs oo1 n1).
  { red. unfold n1, oo1. cbn [o_ctr o_key o_tweak o_count o_auth o_enc o_init o_mtag o_mac o_custom k_pos k_key k_tweak k_total k_enc k_tag k_mac]. repeat (split; [auto; fail|]). rewrite EM.
    split; [exact CT|]. split; [exact CL|]. exists k0, (le_bytes 8 (ttotal n len)). auto. }
  assert (Bcu : bytes cu) by (apply Forall_app; split; [apply bytes_le_bytes|exact N1]).
  destruct (mac_ok oo1 n1 A m out cu 0 (length cu) CA1 EM Bcu ltac:(lia)) as (o2 & -> & CA2). cbn [tthen].
  rewrite slice_full in CA2 by reflexivity. clear C1 C2 C4 C6 C7 C8 C9 C10. destruct CA2 as (C1 & C2 & _ & C4 & _ & C6 & C7 & C8 & C9 & C10 & C11). rewrite withm_mac in C11. destruct C11 as (_ & CL2 & k & x2 & CK2 & KA2 & CX2 & LX2).
  rewrite CK2, (T_mrate _ _ HM), (T_mmac _ _ HM), C10. unfold cu in *. set (M := m ++ le_bytes 8 (ttotal n len) ++ t_name c) in *. cbn [withm k_tag n1] in CL2 |- *.
  destruct (kabs_fin rate mk R1 R2 ltac:(lia) k A M (k_tag n) 0 KA2 ltac:(lia) ltac:(lia) ltac:(red; lia)) as (k' & EF & KA' & LF). rewrite Nat.sub_0_r, CL2 in *. rewrite EF.
  rewrite splice_all by lia. eexists. split; [reflexivity|]. cbn [o_mtag]. split; [reflexivity|]. split; [exact LF|].
  red. cbn [o_ctr o_key o_tweak o_count o_auth o_enc o_init o_mtag o_mac o_custom k_pos k_key k_tweak k_total k_enc k_tag k_mac withm n1] in *. repeat (split; [auto; fail|]). exists k', x2. auto.
Qed.
Lemma crypt_withm n A m x : tcrypt c (withm n A m) x = tcrypt c n x. Proof. reflexivity. Qed.
Lemma tag_len n A m ct o : tabs o (ttagged c n A m ct) -> length (ttag_of c n A m ct) = tag.
Proof. intros (C1 & C2 & C3 & C4 & C5 & C6 & C7 & C8 & C9 & C10 & C11). apply C11. Qed.

Lemma Transform_plain o n inp io out oo len ord : tabs o n -> k_mac n = None -> proc_pre inp io out oo len ord ->
  exists o', T_Transform cf p ord o (Some inp) io out oo len = Ok (o', splice out oo (tcrypt c n (slice inp io len)), None) /\ tabs o' (tmoved c n len).
Proof.
  intros CA EM PP. destruct (proc_ok o n inp io out oo len ord CA PP) as (o' & E & CA'). exists o'. split; [|exact CA']. unfold T_Transform.
  destruct CA as (C1 & C2 & C3 & C4 & C5 & C6 & C7 & C8 & C9 & C10 & C11). rewrite EM in C11. destruct C11 as [C11 _]. rewrite C7, C11. destruct (o_enc o); exact E.
Qed.
Lemma Transform_seal o n A m inp io out oo len ord : tabs o n -> k_mac n = Some (A, m) -> k_enc n = true -> bytes inp -> bytes out -> proc_pre inp io out oo len ord -> (oo + len + tag <= length out)%nat ->
  exists o', let ct := tcrypt c n (slice inp io len) in T_Transform cf p ord o (Some inp) io out oo len = Ok (o', splice out oo (ct ++ ttag_of c n A m ct), None) /\
    tabs o' (tmoved c (ttagged c n A m ct) len) /\ length (ct ++ ttag_of c n A m ct) = (len + tag)%nat.
Proof.
  intros CA EM EE Bi Bo PP HT. pose proof CA as (C1 & C2 & C3 & C4 & C5 & C6 & C7 & C8 & C9 & C10 & C11). rewrite EM in C11. destruct C11 as (CT & CL & k & x & CK & KA & CX & LX). destruct tnum as (R1 & R2 & R3 & R4 & R5 & R6).
  unfold T_Transform. rewrite C8, EE, C7, CT, CK, (T_mmac _ _ HM). pose proof PP as (P1 & P2 & P3 & P4 & _). unfold short in P3, P4.
  replace (Z.of_nat (length out) <? u64 (Z.of_nat len + Z.of_nat oo + Z.of_nat mk)) with false by (symmetry; apply Z.ltb_ge; unfold u64; rewrite Z.mod_small; lia).
  destruct (nonce_ok o n A m out CA EM) as (o1 & -> & CA1). cbn [tthen]. set (nn := concat (map (le_bytes 8) (counter_words 64 (k_pos n)))) in *.
  destruct (proc_ok o1 _ inp io out oo len ord CA1 PP) as (o2 & -> & CA2). cbn [tthen]. rewrite crypt_withm. set (data := slice inp io len) in *. assert (LD : length data = len) by (apply length_slice; lia).
  assert (LC : length (tcrypt c n data) = len) by (rewrite crypt_length by (split; assumption); exact LD). set (ct := tcrypt c n data) in *.
  assert (Bct : bytes ct) by (apply crypt_bytes; [split; assumption|now apply bytes_slice]).
  assert (Bo2 : bytes (splice out oo ct)) by (apply bytes_splice; auto).
  assert (Lo2 : length (splice out oo ct) = length out) by (apply length_splice; lia).
  assert (EM2 : k_mac (tmoved c (withm n A (m ++ nn)) len) = Some (A, m ++ nn)) by reflexivity.
  destruct (mac_ok o2 _ A (m ++ nn) (splice out oo ct) (splice out oo ct) oo len CA2 EM2 Bo2 ltac:(lia)) as (o3 & -> & CA3). cbn [tthen].
  assert (SS : slice (splice out oo ct) oo len = ct) by (replace len with (length ct) by exact LC; apply slice_splice_same; lia). rewrite SS in CA3.
  destruct (fin_ok o3 _ A ((m ++ nn) ++ ct) (splice out oo ct) len CA3 (withm_mac _ _ _)) as (o4 & -> & F). cbn [tthen]. cbv zeta in F. destruct F as (F1 & F2 & F3).
  cbn [withm tmoved k_enc k_tweak k_key k_pos k_total k_tag ttotal] in F1, F2, F3. change (ttotal (withm (tmoved c (withm n A (m ++ nn)) len) A ((m ++ nn) ++ ct)) len) with (ttotal n len) in *.
  assert (TE : kmac_out rate A (((m ++ nn) ++ ct) ++ le_bytes 8 (ttotal n len) ++ t_name c) tag = ttag_of c n A m ct) by (unfold ttag_of, tcovered; rewrite LC; fold nn; rewrite <- !app_assoc; reflexivity).
  assert (AE : kmac_after rate A (((m ++ nn) ++ ct) ++ le_bytes 8 (ttotal n len) ++ t_name c) tag = tmac_after c n A m ct) by (unfold tmac_after, tcovered; rewrite LC; fold nn; rewrite <- !app_assoc; reflexivity).
  rewrite TE, AE in *. rewrite F1, F2. rewrite wcopy_ok by lia. cbn [bind]. rewrite slice_full by exact F2. exists o4. cbv zeta. split; [|split].
  - do 3 f_equal. replace (oo + len)%nat with (oo + length ct)%nat by lia. apply splice_splice_next. rewrite F2. lia.
  - unfold tmoved, ttagged. cbn [k_enc k_tweak k_key k_pos k_mac k_total k_tag]. rewrite LC. exact F3.
  - rewrite app_length. lia.
Qed.
Lemma Transform_open o n A m inp io out oo len ord : tabs o n -> k_mac n = Some (A, m) -> k_enc n = false -> bytes inp -> bytes out -> proc_pre inp io out oo len ord -> (io + len + tag <= length inp)%nat ->
  let data := slice inp io len in exists o',
    (slice inp (io + len) tag = ttag_of c n A m data /\ T_Transform cf p ord o (Some inp) io out oo len = Ok (o', splice out oo (tcrypt c n data), None) /\ tabs o' (tmoved c (ttagged c n A m data) len)) \/
    (slice inp (io + len) tag <> ttag_of c n A m data /\ T_Transform cf p ord o (Some inp) io out oo len = Ok (o', out, Some AuthenticationFailure) /\ tabs o' (ttagged c n A m data)).
Proof.
  intros CA EM EE Bi Bo PP HT data. pose proof CA as (C1 & C2 & C3 & C4 & C5 & C6 & C7 & C8 & C9 & C10 & C11). rewrite EM in C11. destruct C11 as (CT & CL & k & x & CK & KA & CX & LX). destruct tnum as (R1 & R2 & R3 & R4 & R5 & R6).
  unfold T_Transform. rewrite C8, EE, C7, CT. cbn [src].
  destruct (nonce_ok o n A m out CA EM) as (o1 & -> & CA1). cbn [tthen]. set (nn := concat (map (le_bytes 8) (counter_words 64 (k_pos n)))) in *.
  destruct (mac_ok o1 _ A (m ++ nn) out inp io len CA1 (withm_mac _ _ _) Bi ltac:(lia)) as (o2 & -> & CA2). cbn [tthen]. fold data in CA2. assert (LD : length data = len) by (apply length_slice; lia).
  destruct (fin_ok o2 _ A ((m ++ nn) ++ data) out len CA2 (withm_mac _ _ _)) as (o3 & -> & F). cbn [tthen]. cbv zeta in F. destruct F as (F1 & F2 & F3).
  cbn [withm k_enc k_tweak k_key k_pos k_total k_tag] in F3. change (ttotal (withm (withm n A (m ++ nn)) A ((m ++ nn) ++ data)) len) with (ttotal n len) in *.
  assert (TE : kmac_out rate A (((m ++ nn) ++ data) ++ le_bytes 8 (ttotal n len) ++ t_name c) tag = ttag_of c n A m data) by (unfold ttag_of, tcovered; rewrite LD; fold nn; rewrite <- !app_assoc; reflexivity).
  assert (AE : kmac_after rate A (((m ++ nn) ++ data) ++ le_bytes 8 (ttotal n len) ++ t_name c) tag = tmac_after c n A m data) by (unfold tmac_after, tcovered; rewrite LD; fold nn; rewrite <- !app_assoc; reflexivity).
  rewrite TE, AE in *. assert (CA3 : tabs o3 (ttagged c n A m data)) by (unfold ttagged; rewrite LD; exact F3). clear F3. rewrite F1, F2.
  assert (Bt : bytes (ttag_of c n A m data)) by (unfold ttag_of; apply kmac_out_bytes).
  destruct (Compare_correct inp (io + len) (ttag_of c n A m data) 0 tag ltac:(lia) ltac:(lia) Bi Bt) as (b & -> & HC). cbn [bind]. rewrite (slice_full _ _ F2) in HC. destruct b.
  - destruct (proc_ok o3 _ inp io out oo len ord CA3 PP) as (o4 & E4 & CA4). exists o4. left. split; [now apply HC|]. split; [|exact CA4]. exact E4.
  - exists o3. right. split; [intros Q; apply HC in Q; discriminate|]. split; [reflexivity|exact CA3].
Qed.
Lemma Aad_ok o n A m inp off len : tabs o n -> k_mac n = Some (A, m) -> bytes inp -> (off + len <= length inp)%nat -> (len =? 0)%nat = false ->
  exists o', T_SetAssociatedData cf o inp off len = Ok (o', [], None) /\ tabs o' (taad n A m (slice inp off len)).
Proof.
  intros CA EM Bi HL HZ. pose proof CA as (C1 & C2 & C3 & C4 & C5 & C6 & C7 & C8 & C9 & C10 & C11). rewrite EM in C11. destruct C11 as (CT & _).
  unfold T_SetAssociatedData. rewrite C9, C7, CT, HZ. cbn [negb].
  destruct (mac_ok o n A m [] inp off len CA EM Bi HL) as (o1 & -> & CA1). cbn [tthen]. unfold taad. rewrite length_slice by lia.
  destruct (mac_ok o1 _ A _ [] (le_bytes 4 (u32 (Z.of_nat len))) 0 4 CA1 (withm_mac _ _ _) (bytes_le_bytes _ _) ltac:(rewrite length_le_bytes; lia)) as (o2 & -> & CA2).
  exists o2. split; [reflexivity|]. rewrite slice_full in CA2 by apply length_le_bytes. rewrite <- app_assoc in CA2. exact CA2.
Qed.

(** the direction after a call *)
Definition turned (e : bool) (x : xcall) : bool := match x with XInit e' key iv info => if taccepted c key iv info then e' else e | _ => e end.
Lemma tstep_ok o n x cs : tabs o n -> tcall_ok c p auth (k_enc n) x ->
  exists o' n' r, tstep cf p o x = Ok (o', r) /\ tabs o' n' /\ k_enc n' = turned (k_enc n) x /\ (forall rs, texpected c auth n' cs rs -> texpected c auth n (x :: cs) (r :: rs)).
Proof.
  intros CA Hx. unfold turned.
  assert (STEP : forall o' n' r, tstep cf p o x = Ok (o', r) -> tabs o' n' -> k_enc n' = (match x with XInit e key iv info => if taccepted c key iv info then e else k_enc n | _ => k_enc n end) ->
    (forall rs, texpected c auth n' cs rs -> texpected c auth n (x :: cs) (r :: rs)) ->
    exists o' n' r, tstep cf p o x = Ok (o', r) /\ tabs o' n' /\ k_enc n' = (match x with XInit e key iv info => if taccepted c key iv info then e else k_enc n | _ => k_enc n end) /\ (forall rs, texpected c auth n' cs rs -> texpected c auth n (x :: cs) (r :: rs))) by eauto 10.
  destruct x as [enc key iv info|inp off len|inp io out oo len ord|].
  - destruct Hx as (Bk & Bv & Bf & BI). destruct (taccepted c key iv info) eqn:AC.
    + destruct (tInit_ok o enc key iv info ltac:(right; exists n; auto) Bk Bv Bf AC) as (o' & E & CA'). eapply (STEP o' _ XDone); [cbn [tstep]; rewrite E; reflexivity|exact CA'|reflexivity|].
      intros rs H. cbn [texpected]. unfold taccepted in AC. apply andb_true_iff in AC. destruct AC as [AC A3]. apply andb_true_iff in AC. destruct AC as [A1 A2]. rewrite A1, A2, A3. cbn [negb]. split; [reflexivity|exact H].
    + assert (E : exists e, tstep cf p o (XInit enc key iv info) = Ok (o, XFail e []) /\ forall rs, texpected c auth n cs rs -> texpected c auth n (XInit enc key iv info :: cs) (XFail e [] :: rs)).
      { cbn [tstep texpected]. unfold T_Initialize. rewrite (T_mB _ _ HM), (T_strict _ _ HM). unfold taccepted in AC.
        destruct (length key =? t_B c)%nat; [|exists InvalidKey; split; [reflexivity|intros rs H; split; [reflexivity|exact H]]]. cbn [guard bind negb andb] in *.
        destruct (length iv =? 16)%nat; [|exists InvalidNonce; split; [reflexivity|intros rs H; split; [reflexivity|exact H]]]. cbn [guard bind negb andb] in *.
        rewrite AC. cbn [negb].
        replace ((0 <? length info)%nat && (if t_exact c then negb (length info =? 16)%nat else (16 <? length info)%nat)) with true.
        - cbn [negb guard bind]. exists InvalidInfo. split; [reflexivity|intros rs H; split; [reflexivity|exact H]].
        - apply orb_false_iff in AC. destruct AC as [I1 I2]. apply Nat.eqb_neq in I1. rewrite I2. apply Nat.eqb_neq in I2. symmetry. apply andb_true_iff. split; [apply Nat.ltb_lt; lia|].
          destruct (t_exact c); [reflexivity|]. apply Nat.ltb_lt. destruct BI as [BI|[BI|BI]]; [discriminate BI|lia|lia]. }
      destruct E as (e & E1 & E2). apply (STEP o n (XFail e [])); [exact E1|exact CA|reflexivity|exact E2].
  - destruct Hx as (Bi & HL). destruct (k_mac n) as [(A & m)|] eqn:EM.
    + destruct (len =? 0)%nat eqn:HZ.
      * apply (STEP o n (XFail InvalidSize [])); [|exact CA|reflexivity|].
        -- pose proof CA as (C1 & C2 & C3 & C4 & C5 & C6 & C7 & C8 & C9 & C10 & C11). rewrite EM in C11. destruct C11 as (CT & _). cbn [tstep]. unfold T_SetAssociatedData. rewrite C9, C7, CT, HZ. reflexivity.
        -- intros rs H. cbn [texpected]. rewrite EM, HZ. split; [reflexivity|exact H].
      * destruct (Aad_ok o n A m inp off len CA EM Bi HL HZ) as (o' & E & CA'). eapply (STEP o' _ XDone); [cbn [tstep]; rewrite E; reflexivity|exact CA'|reflexivity|].
        intros rs H. cbn [texpected]. rewrite EM, HZ. split; [reflexivity|exact H].
    + apply (STEP o n (XFail IllegalOperation [])); [|exact CA|reflexivity|].
      * pose proof CA as (C1 & C2 & C3 & C4 & C5 & C6 & C7 & C8 & C9 & C10 & C11). rewrite EM in C11. destruct C11 as (CT & _). cbn [tstep]. unfold T_SetAssociatedData. rewrite C9, C7, CT. reflexivity.
      * intros rs H. cbn [texpected]. rewrite EM. split; [reflexivity|exact H].
  - destruct Hx as (Bi & Bo & HI & HO & S1 & S2 & PO & PC & PT). assert (PP : proc_pre inp io out oo len ord) by (red; split; [lia|]; split; [exact HO|]; split; [exact S1|]; split; [exact S2|]; split; [exact PO|exact PC]).
    pose proof CA as (C1 & C2 & C3 & C4 & C5 & C6 & C7 & C8 & C9 & C10 & C11).
    assert (LD : length (slice inp io len) = len) by (apply length_slice; lia).
    assert (LC : length (tcrypt c n (slice inp io len)) = len) by (rewrite crypt_length by (split; assumption); exact LD).
    destruct (k_mac n) as [(A & m)|] eqn:EM.
    + destruct C11 as (CT & CL & k & x & CK & KA & CX & LX). destruct tnum as (R1 & R2 & R3 & R4 & R5 & R6). destruct (k_enc n) eqn:EE.
      * destruct (Nat.ltb_spec (length out) (oo + len + mk)) as [LT|GE].
        -- apply (STEP o n (XFail InvalidSize out)); [|exact CA|exact EE|].
           ++ cbn [tstep]. unfold T_Transform. rewrite C8, C7, CT, CK, (T_mmac _ _ HM). unfold short in S1, S2.
              replace (Z.of_nat (length out) <? u64 (Z.of_nat len + Z.of_nat oo + Z.of_nat mk)) with true by (symmetry; apply Z.ltb_lt; unfold u64; rewrite Z.mod_small; lia). reflexivity.
           ++ intros rs H. cbn [texpected]. rewrite EM, EE. replace (length out <? oo + len + mk)%nat with true by (symmetry; apply Nat.ltb_lt; lia). split; [reflexivity|exact H].
        -- assert (GT : (oo + len + tag <= length out)%nat) by (rewrite CT in PT; destruct (PT eq_refl); lia).
           destruct (Transform_seal o n A m inp io out oo len ord CA EM EE Bi Bo PP GT) as (o' & E & CA' & LL). cbv zeta in *.
           eapply (STEP o' _ (XOut (splice out oo (tcrypt c n (slice inp io len) ++ ttag_of c n A m (tcrypt c n (slice inp io len)))))); [cbn [tstep]; rewrite E; reflexivity|exact CA'|exact EE|].
           intros rs H. cbn [texpected]. rewrite EM, EE. replace (length out <? oo + len + mk)%nat with false by (symmetry; apply Nat.ltb_ge; lia). split; [|exact H].
           eexists. split; [reflexivity|]. apply splice_written. rewrite LL. lia.
      * rewrite CT in HI. cbn [andb negb] in HI. destruct (Transform_open o n A m inp io out oo len ord CA EM EE Bi Bo PP HI) as (o' & [(TQ & E & CA')|(TQ & E & CA')]).
        -- eapply (STEP o' _ (XOut (splice out oo (tcrypt c n (slice inp io len))))); [cbn [tstep]; rewrite E; reflexivity|exact CA'|exact EE|].
           intros rs H. cbn [texpected]. rewrite EM, EE. left. split; [exact TQ|]. split; [|exact H]. eexists. split; [reflexivity|]. apply splice_written. lia.
        -- eapply (STEP o' _ (XFail AuthenticationFailure out)); [cbn [tstep]; rewrite E; reflexivity|exact CA'|exact EE|].
           intros rs H. cbn [texpected]. rewrite EM, EE. right. split; [exact TQ|]. split; [reflexivity|exact H].
    + destruct (Transform_plain o n inp io out oo len ord CA EM PP) as (o' & E & CA').
      eapply (STEP o' _ (XOut (splice out oo (tcrypt c n (slice inp io len))))); [cbn [tstep]; rewrite E; reflexivity|exact CA'|reflexivity|].
      intros rs H. cbn [texpected]. rewrite EM. split; [|exact H]. eexists. split; [reflexivity|]. apply splice_written. lia.
  - apply (STEP o n (XOut (k_tag n))); [|exact CA|reflexivity|].
    + cbn [tstep]. unfold T_Tag. replace (o_mtag o) with (k_tag n) by (symmetry; apply CA). reflexivity.
    + intros rs H. cbn [texpected]. split; [reflexivity|exact H].
Qed.
Lemma thistory_ok cs : forall o n, tabs o n -> tcalls_ok c p auth (k_enc n) cs -> exists rs, thistory cf p o cs = Ok rs /\ texpected c auth n cs rs.
Proof.
  induction cs as [|x cs IH]; intros o n CA HC; [exists []; split; [reflexivity|exact I]|]. cbn [tcalls_ok] in HC. destruct HC as [Hx HC]. cbn [thistory].
  destruct (tstep_ok o n x cs CA Hx) as (o' & n' & r & E & CA' & EE & H). rewrite E. cbn [bind fst snd]. unfold turned in EE. rewrite <- EE in HC. destruct (IH o' n' CA' HC) as (rs & -> & H4). cbn [bind]. exists (r :: rs). split; [reflexivity|]. now apply H.
Qed.
End obj.
