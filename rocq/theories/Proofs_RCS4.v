(** Conversations over RCS and RWS objects. *)
From Coq Require Import Permutation.
From Verif Require Import BaseLemmas Spec_Common Proofs_Common Proofs_GCM Spec_Keccak Proofs_Keccak Proofs_Sponge Proofs_SHA3 Proofs_XOF Proofs_KMAC Proofs_KMAC2 Session_KMAC
  Spec_ChaCha Proofs_ChaCha2 Model_ChaCha Spec_Stream Model_CSX Session_CSX Proofs_CSX2 Spec_AES Proofs_AES Spec_RCS Model_RCS Session_RCS Proofs_RCS3.
From Verif Require Proofs_CSX3.
Open Scope Z_scope.

Lemma written_zeros k out d : length d = k -> written (zeros k) out 0 d -> out = d.
Proof. exact (Proofs_CSX3.written_zeros k out d). Qed.
Lemma outs_app a b : outs (a ++ b) = outs a ++ outs b.
Proof. unfold outs. apply flat_map_app. Qed.
Lemma slice_full' (l : list Z) n : length l = n -> slice l 0 n = l.
Proof. intros <-. now apply slice_all. Qed.
Section talk.
Context (fam : rfam) (w : wide) (nb : nat) (auth : bool) (k : nat).
Hypothesis HM : wmatch fam w nb.
Hypothesis HI : In k (w_sizes w).
Local Notation tag := (w_tag w k).
Definition T : nat := if auth then w_tag w k else 0%nat.
Definition turn (e : bool) (n : line) : line := Line e (y_size n) (y_keys n) (y_custom n) (y_rest n) (y_pos n) (y_mac n) (y_total n) (y_tag n).
(** facts about a line that calls keep *)
Definition lkeep (n : line) : Prop := y_size n = k /\ bytes (y_rest n) /\ forall v, st nb (pad_block w n v).
Definition nok (n : line) : Prop := lkeep n /\ match y_mac n with None => auth = false | Some (A, m) => auth = true /\ st_ok A /\ bytes m end.
Definition heard1 (n : line) (a : list Z) : line := match y_mac n with Some (A, m) => yaad n A m a | None => n end.
Definition heard (n : line) (l : letter) : line := fold_left heard1 (l_aad l) n.
Definition packet (n : line) (m : list Z) : list Z :=
  match y_mac n with Some (A, x) => ycrypt w n m ++ ytag_of w n A x (ycrypt w n m) | None => ycrypt w n m end.
Definition sent1 (n : line) (m : list Z) : line :=
  match y_mac n with Some (A, x) => ymoved w (ytagged w n A x (ycrypt w n m)) (length m) | None => ymoved w n (length m) end.
Fixpoint packets (n : line) (ls : list letter) : list (list Z) :=
  match ls with [] => [] | l :: t => packet (heard n l) (l_msg l) :: packets (sent1 (heard n l) (l_msg l)) t end.
Fixpoint sent (n : line) (ls : list letter) : line :=
  match ls with [] => n | l :: t => sent (sent1 (heard n l) (l_msg l)) t end.
Definition lok (l : letter) : Prop := bytes (l_msg l) /\ Forall bytes (l_aad l) /\ (auth = false -> l_aad l = []) /\ Forall (fun a => a <> []) (l_aad l).

Lemma kcrypt_length n m : lkeep n -> length (ycrypt w n m) = length m.
Proof.
  intros (_ & _ & K). pose proof (V_nb _ _ _ HM). unfold ycrypt. rewrite (V_Bw _ _ _ HM). apply (crypt_len (4 * nb) (pad_block w n)); [lia|]. intros v. apply (K v).
Qed.
Lemma kcrypt_bytes n m : lkeep n -> bytes m -> bytes (ycrypt w n m).
Proof.
  intros (_ & _ & K) Bm. pose proof (V_nb _ _ _ HM). unfold ycrypt, stream_crypt. apply Proofs_CSX2.bytes_xorl; [exact Bm|]. rewrite (V_Bw _ _ _ HM). apply keystream_bytes; [lia| |]; intros v; apply (K v).
Qed.
Lemma kmac_facts A m n : st_ok A -> bytes m -> 8 * Z.of_nat n < 2 ^ 64 -> length (kmac_out (w_rate w k) A m n) = n /\ st_ok (kmac_after (w_rate w k) A m n).
Proof.
  intros HA Hm Hn. destruct (ynum _ _ _ HM _ HI) as (R1 & R2 & R3 & R4 & R5). pose proof (kmac_last_ok (w_rate w k) (w_tag w k) R1 R2 ltac:(lia) A m n HA Hm Hn) as L. split.
  - change (length (stream 24 (w_rate w k) (kmac_last (w_rate w k) A m n) n) = n). apply stream_len; [lia|exact L].
  - unfold kmac_after. now apply iter_ok.
Qed.
Lemma tag_facts n A m ct : lkeep n -> st_ok A -> bytes m -> bytes ct -> length (ytag_of w n A m ct) = tag /\ st_ok (ymac_after w n A m ct).
Proof.
  intros (E & HR & _) HA Hm Hc. destruct (ynum _ _ _ HM _ HI) as (R1 & R2 & R3 & R4 & R5). unfold ytag_of, ymac_after. rewrite E. apply kmac_facts; [exact HA| |lia]. apply Forall_app. split; [exact Hm|].
  unfold ycovered, nonce_at. apply Forall_app. split; [apply Forall_app; split; [apply bytes_le_bytes|exact HR]|]. apply Forall_app. split; [exact Hc|apply bytes_le_bytes].
Qed.
Lemma heard1_ok n a : nok n -> bytes a -> nok (heard1 n a).
Proof.
  intros [H1 H2] Ba. unfold heard1. destruct (y_mac n) as [(A & m)|] eqn:E; red; [|rewrite E; auto]. cbn [yaad y_size y_keys y_rest y_mac]. destruct H2 as (H2 & H3 & H4). repeat (split; [assumption|]).
  apply Forall_app. split; [exact H4|]. apply Forall_app. split; [exact Ba|]. apply bytes_le_bytes.
Qed.
Lemma heard_ok n l : nok n -> Forall bytes (l_aad l) -> nok (heard n l).
Proof. unfold heard. revert n. induction (l_aad l) as [|a t IH]; intros n H F; [exact H|]. inversion F; subst. cbn [fold_left]. apply IH; [|assumption]. now apply heard1_ok. Qed.
Lemma heard_turn e n l : heard (turn e n) l = turn e (heard n l).
Proof.
  unfold heard. revert n. induction (l_aad l) as [|a t IH]; intros n; [reflexivity|]. cbn [fold_left]. rewrite <- IH. f_equal.
  unfold heard1. cbn [turn y_mac]. destruct (y_mac n) as [(A & m)|]; reflexivity.
Qed.
Lemma sent1_ok n m : nok n -> bytes m -> nok (sent1 n m).
Proof.
  intros [H1 H2] Bm. unfold sent1. destruct (y_mac n) as [(A & x)|] eqn:E; red; cbn [ymoved ytagged y_size y_keys y_rest y_mac]; [|rewrite E; auto]. destruct H2 as (H2 & H3 & H4). repeat (split; [assumption|]).
  split; [|constructor]. apply tag_facts; auto. now apply kcrypt_bytes.
Qed.
Lemma heard_enc n l : y_enc (heard n l) = y_enc n.
Proof. unfold heard. revert n. induction (l_aad l) as [|a t IH]; intros n; [reflexivity|]. cbn [fold_left]. rewrite IH. unfold heard1. destruct (y_mac n) as [(A & m)|]; reflexivity. Qed.
Lemma sent1_enc n m : y_enc (sent1 n m) = y_enc n.
Proof. unfold sent1. destruct (y_mac n) as [(A & m')|]; reflexivity. Qed.

Lemma aads_run l : lok l -> forall n cs rs, nok n -> yexpected w auth n (aad_calls l ++ cs) rs ->
  exists ra rb, rs = ra ++ rb /\ outs ra = [] /\ yexpected w auth (heard n l) cs rb.
Proof.
  intros (_ & L0 & L1 & L2). unfold aad_calls, heard. induction (l_aad l) as [|a t IH]; intros n cs rs N H; [exists [], rs; auto|]. cbn [map app] in H. destruct rs as [|r rs]; [contradiction|]. cbn [yexpected] in H.
  pose proof N as [N1 N2]. destruct (y_mac n) as [(A & m)|] eqn:E; [|now specialize (L1 N2)].
  assert (Z0 : (length a =? 0)%nat = false) by (inversion L2; subst; destruct a; [congruence|reflexivity]).
  rewrite Z0 in H. destruct H as [-> H]. unfold slice in H. cbn [skipn] in H. rewrite firstn_all in H.
  assert (EQ : heard1 n a = yaad n A m a) by (unfold heard1; rewrite E; reflexivity). cbn [fold_left]. inversion L0; subst. destruct N2 as [N2 _].
  assert (N' : nok (heard1 n a)) by now apply heard1_ok. rewrite EQ in *.
  destruct (IH ltac:(assumption) ltac:(intros Q; congruence) ltac:(now inversion L2) _ cs rs N' H) as (ra & rb & -> & O & H'). exists (XDone :: ra), rb. auto.
Qed.
Lemma packet_len n m : nok n -> bytes m -> length (packet n m) = (length m + T)%nat.
Proof.
  intros [N1 N2] Bm. unfold packet, T. destruct (y_mac n) as [(A & x)|].
  - destruct N2 as (-> & N3 & N4). rewrite app_length, kcrypt_length by exact N1. f_equal. apply tag_facts; auto. now apply kcrypt_bytes.
  - rewrite N2, kcrypt_length by exact N1. lia.
Qed.
Lemma seal_run ls : Forall lok ls -> forall n cs rs, nok n -> y_enc n = true -> yexpected w auth n (seal_calls T ls ++ cs) rs ->
  exists ra rb, rs = ra ++ rb /\ outs ra = packets n ls /\ nok (sent n ls) /\ y_enc (sent n ls) = true /\ yexpected w auth (sent n ls) cs rb.
Proof.
  intros HL. induction HL as [|l ls Hl HL IH]; intros n cs rs N E H; [exists [], rs; auto|].
  unfold seal_calls in H. cbn [flat_map] in H. rewrite <- !app_assoc in H. destruct (aads_run l Hl n _ rs N H) as (ra & rb & -> & O & H1). pose proof Hl as (Bm & Ba & _).
  pose proof (heard_ok n l N Ba) as N1. assert (E1 : y_enc (heard n l) = true) by now rewrite heard_enc. set (n1 := heard n l) in *. set (m := l_msg l) in *.
  cbn [app] in H1. destruct rb as [|r rb]; [contradiction|]. cbn [yexpected] in H1. assert (SM : slice m 0 (length m) = m) by (now apply slice_full'). rewrite SM in H1.
  pose proof (packet_len n1 m N1 Bm) as PL. pose proof (sent1_ok n1 m N1 Bm) as N2. assert (E2 : y_enc (sent1 n1 m) = true) by now rewrite sent1_enc.
  assert (X : r = XOut (packet n1 m) /\ yexpected w auth (sent1 n1 m) (seal_calls T ls ++ cs) rb).
  { unfold packet, sent1 in *. destruct (y_mac n1) as [(A & x)|] eqn:EM.
    - rewrite E1 in H1. rewrite length_zeros in H1. destruct N1 as [(EK & _) N1]. rewrite EM in N1. destruct N1 as (EA & _). cbv zeta in H1. rewrite EK in H1. unfold T in *. rewrite EA in *.
      replace (length m + tag <? 0 + length m + tag)%nat with false in H1 by (symmetry; apply Nat.ltb_ge; lia). destruct H1 as [(out' & -> & W) H1]. split; [|exact H1]. f_equal. apply (written_zeros (length m + tag)); auto.
    - destruct H1 as [(out' & -> & W) H1]. split; [|exact H1]. f_equal. apply (written_zeros (length m + T)); auto. }
  destruct X as [-> X]. destruct (IH _ cs rb N2 E2 X) as (rc & rd & -> & O2 & N3 & E3 & H3). exists (ra ++ XOut (packet n1 m) :: rc), rd. rewrite <- app_assoc. cbn [app]. split; [reflexivity|].
  rewrite outs_app, O. cbn [app packets sent]. change (outs (XOut (packet n1 m) :: rc)) with (packet n1 m :: outs rc). rewrite O2. fold n1 m. auto.
Qed.
Lemma turn_ok e n : nok n -> nok (turn e n). Proof. exact (fun H => H). Qed.
Lemma crypt_back n m : nok n -> ycrypt w n (ycrypt w n m) = m.
Proof. intros [(_ & _ & H) _]. pose proof (V_nb _ _ _ HM). unfold ycrypt. rewrite (V_Bw _ _ _ HM). apply (crypt_twice (4 * nb)); [lia|]. intros v. apply (H v). Qed.
Lemma open_run ls : Forall lok ls -> forall n cs rs, nok n -> yexpected w auth (turn false n) (open_calls T ls (packets n ls) ++ cs) rs ->
  exists ra rb, rs = ra ++ rb /\ outs ra = map l_msg ls /\ nok (sent n ls) /\ yexpected w auth (turn false (sent n ls)) cs rb.
Proof.
  intros HL. induction HL as [|l ls Hl HL IH]; intros n cs rs N H; [exists [], rs; auto|].
  cbn [packets] in H. unfold open_calls in H. cbn [combine flat_map fst snd] in H. rewrite <- !app_assoc in H. destruct (aads_run l Hl _ _ rs (turn_ok false n N) H) as (ra & rb & -> & O & H1). pose proof Hl as (Bm & Ba & _).
  rewrite heard_turn in H1. pose proof (heard_ok n l N Ba) as N1. set (n1 := heard n l) in *. set (m := l_msg l) in *.
  pose proof (packet_len n1 m N1 Bm) as PL. pose proof (sent1_ok n1 m N1 Bm) as N2.
  cbn [app] in H1. destruct rb as [|r rb]; [contradiction|]. cbn [yexpected turn y_mac y_enc] in H1. rewrite PL in H1. replace (length m + T - T)%nat with (length m) in H1 by lia. cbn [Nat.add] in H1.
  assert (LC : length (ycrypt w n1 m) = length m) by (apply kcrypt_length; apply N1).
  change (ycrypt w (Line false (y_size n1) (y_keys n1) (y_custom n1) (y_rest n1) (y_pos n1) (y_mac n1) (y_total n1) (y_tag n1))) with (ycrypt w n1) in H1.
  assert (X : r = XOut m /\ yexpected w auth (turn false (sent1 n1 m)) (open_calls T ls (packets (sent1 n1 m) ls) ++ cs) rb).
  { destruct (y_mac n1) as [(A & x)|] eqn:EM.
    - assert (EP : packet n1 m = ycrypt w n1 m ++ ytag_of w n1 A x (ycrypt w n1 m)) by (unfold packet; rewrite EM; reflexivity).
      assert (ES : sent1 n1 m = ymoved w (ytagged w n1 A x (ycrypt w n1 m)) (length m)) by (unfold sent1; rewrite EM; reflexivity).
      pose proof N1 as [(EK & EK2) Q]. rewrite EM in Q. destruct Q as (EA & Q1 & Q2). change (y_size (turn false n1)) with (y_size n1) in H1. rewrite EK in H1.
      assert (LT : length (ytag_of w n1 A x (ycrypt w n1 m)) = tag) by (apply tag_facts; [apply N1|exact Q1|exact Q2|]; apply kcrypt_bytes; [apply N1|exact Bm]).
      assert (S1 : slice (packet n1 m) 0 (length m) = ycrypt w n1 m) by (rewrite EP; unfold slice; cbn [skipn]; rewrite firstn_app, LC, Nat.sub_diag, firstn_O, app_nil_r; apply firstn_all2; lia).
      assert (S2 : slice (packet n1 m) (length m) tag = ytag_of w n1 A x (ycrypt w n1 m)).
      { rewrite EP. unfold slice. rewrite skipn_app, LC, Nat.sub_diag. rewrite skipn_all2 by lia. cbn [app skipn]. apply firstn_all2. lia. }
      rewrite S1, S2 in H1. rewrite ES.
      change (ytag_of w (Line false (y_size n1) (y_keys n1) (y_custom n1) (y_rest n1) (y_pos n1) (Some (A, x)) (y_total n1) (y_tag n1))) with (ytag_of w n1) in H1.
      destruct H1 as [(_ & (out' & -> & W) & H1)|(F & _)]; [|now elim F].
      match type of W with written ?o ?p ?a ?d => change (written o p a (ycrypt w n1 (ycrypt w n1 m))) in W end. rewrite (crypt_back n1 m N1) in W. split; [|try rewrite ES in H1; exact H1]. f_equal. apply (written_zeros (length m)); auto.
    - assert (EP : packet n1 m = ycrypt w n1 m) by (unfold packet; rewrite EM; reflexivity).
      assert (ES : sent1 n1 m = ymoved w n1 (length m)) by (unfold sent1; rewrite EM; reflexivity).
      rewrite EP, ES in *. rewrite slice_full' in H1 by exact LC. destruct H1 as [(out' & -> & W) H1].
      match type of W with written ?o ?p ?a ?d => change (written o p a (ycrypt w n1 (ycrypt w n1 m))) in W end. rewrite (crypt_back n1 m N1) in W. split; [f_equal; apply (written_zeros (length m)); auto|].
      exact H1. }
  destruct X as [-> X]. destruct (IH _ cs rb N2 X) as (rc & rd & -> & O2 & N3 & H3). exists (ra ++ XOut m :: rc), rd. rewrite <- app_assoc. cbn [app]. split; [reflexivity|].
  rewrite outs_app, O. cbn [app map sent]. change (outs (XOut m :: rc)) with (m :: outs rc). rewrite O2. fold n1 m. auto.
Qed.
End talk.
