(** Conversations over the TSX objects. *)
From Coq Require Import Permutation.
From Verif Require Import BaseLemmas Spec_Common Proofs_Common Proofs_GCM Spec_Keccak Proofs_Keccak Proofs_Sponge Proofs_SHA3 Proofs_XOF Proofs_KMAC Proofs_KMAC2 Session_KMAC
  Spec_ChaCha Proofs_ChaCha2 Model_ChaCha Spec_Stream Model_CSX Session_CSX Proofs_CSX Proofs_CSX2 Proofs_CSX3 Spec_TSX Model_TSX Session_TSX Proofs_TSX Proofs_TSX2.
Open Scope Z_scope.

Section talk.
Context (cf : tconf) (c : tcipher) (auth : bool).
Hypothesis HM : tmatches cf c.
Local Notation tag := (t_tag c).
Definition T : nat := if auth then tag else 0%nat.
Definition turn (e : bool) (n : tconn) : tconn := TConn e (k_key n) (k_tweak n) (k_pos n) (k_mac n) (k_total n) (k_tag n).
Definition nok (n : tconn) : Prop := sized c n /\ match k_mac n with None => auth = false | Some (A, m) => auth = true /\ st_ok A /\ bytes m end.
(** one piece of associated data *)
Definition heard1 (n : tconn) (a : list Z) : tconn := match k_mac n with Some (A, m) => taad n A m a | None => n end.
Definition heard (n : tconn) (l : letter) : tconn := fold_left heard1 (l_aad l) n.
Definition packet (n : tconn) (m : list Z) : list Z :=
  match k_mac n with Some (A, x) => tcrypt c n m ++ ttag_of c n A x (tcrypt c n m) | None => tcrypt c n m end.
Definition sent1 (n : tconn) (m : list Z) : tconn :=
  match k_mac n with Some (A, x) => tmoved c (ttagged c n A x (tcrypt c n m)) (length m) | None => tmoved c n (length m) end.
Fixpoint packets (n : tconn) (ls : list letter) : list (list Z) :=
  match ls with [] => [] | l :: t => packet (heard n l) (l_msg l) :: packets (sent1 (heard n l) (l_msg l)) t end.
Fixpoint sent (n : tconn) (ls : list letter) : tconn :=
  match ls with [] => n | l :: t => sent (sent1 (heard n l) (l_msg l)) t end.
Definition lok (l : letter) : Prop := bytes (l_msg l) /\ Forall bytes (l_aad l) /\ (auth = false -> l_aad l = []) /\ Forall (fun a => a <> []) (l_aad l).

Lemma kmac_facts A m n : st_ok A -> bytes m -> 8 * Z.of_nat n < 2 ^ 64 -> length (kmac_out (t_rate c) A m n) = n /\ st_ok (kmac_after (t_rate c) A m n).
Proof.
  intros HA Hm Hn. destruct (T_num _ _ HM) as (R1 & R2 & R3 & R4 & R5 & R6). pose proof (kmac_last_ok (t_rate c) (t_mac c) R1 R2 ltac:(lia) A m n HA Hm Hn) as L. split.
  - change (length (stream 24 (t_rate c) (kmac_last (t_rate c) A m n) n) = n). apply stream_len; [lia|exact L].
  - unfold kmac_after. now apply iter_ok.
Qed.
Lemma covered_bytes v ct t : bytes ct -> bytes (tcovered c v ct t).
Proof. intros H. unfold tcovered. apply Forall_app. split; [apply concat_le_bytes|]. apply Forall_app. split; [exact H|]. apply Forall_app. split; [apply bytes_le_bytes|apply (T_nm _ _ HM)]. Qed.
Lemma tag_facts n A m ct : st_ok A -> bytes m -> bytes ct -> length (ttag_of c n A m ct) = tag /\ st_ok (tmac_after c n A m ct).
Proof.
  intros HA Hm Hc. destruct (T_num _ _ HM) as (R1 & R2 & R3 & R4 & R5 & R6). unfold ttag_of, tmac_after. apply kmac_facts; [exact HA| |lia]. apply Forall_app. split; [exact Hm|now apply covered_bytes].
Qed.
Lemma heard1_ok n a : nok n -> bytes a -> nok (heard1 n a).
Proof.
  intros [H1 H2] Ba. unfold heard1. destruct (k_mac n) as [(A & m)|] eqn:E; red; [|rewrite E; auto]. cbn [taad k_key k_tweak k_mac]. destruct H2 as (H2 & H3 & H4). repeat (split; [assumption|]).
  apply Forall_app. split; [exact H4|]. apply Forall_app. split; [exact Ba|]. apply bytes_le_bytes.
Qed.
Lemma heard_ok n l : nok n -> Forall bytes (l_aad l) -> nok (heard n l).
Proof. unfold heard. revert n. induction (l_aad l) as [|a t IH]; intros n H F; [exact H|]. inversion F; subst. cbn [fold_left]. apply IH; [|assumption]. now apply heard1_ok. Qed.
Lemma heard_turn e n l : heard (turn e n) l = turn e (heard n l).
Proof.
  unfold heard. revert n. induction (l_aad l) as [|a t IH]; intros n; [reflexivity|]. cbn [fold_left]. rewrite <- IH. f_equal.
  unfold heard1. cbn [turn k_mac]. destruct (k_mac n) as [(A & m)|]; reflexivity.
Qed.
Lemma sent1_ok n m : nok n -> bytes m -> nok (sent1 n m).
Proof.
  intros [H1 H2] Bm. unfold sent1. destruct (k_mac n) as [(A & x)|] eqn:E; red; cbn [tmoved ttagged k_mac]; [|rewrite E; auto]. destruct H2 as (H2 & H3 & H4). repeat (split; [assumption|]).
  split; [|constructor]. apply tag_facts; auto. now apply (crypt_bytes cf c HM).
Qed.
Lemma heard_enc n l : k_enc (heard n l) = k_enc n.
Proof. unfold heard. revert n. induction (l_aad l) as [|a t IH]; intros n; [reflexivity|]. cbn [fold_left]. rewrite IH. unfold heard1. destruct (k_mac n) as [(A & m)|]; reflexivity. Qed.
Lemma sent1_enc n m : k_enc (sent1 n m) = k_enc n.
Proof. unfold sent1. destruct (k_mac n) as [(A & m')|]; reflexivity. Qed.

Lemma aads_run l : lok l -> forall n cs rs, nok n -> texpected c auth n (aad_calls l ++ cs) rs ->
  exists ra rb, rs = ra ++ rb /\ outs ra = [] /\ texpected c auth (heard n l) cs rb.
Proof.
  intros (_ & L0 & L1 & L2). unfold aad_calls, heard. induction (l_aad l) as [|a t IH]; intros n cs rs N H; [exists [], rs; auto|]. cbn [map app] in H. destruct rs as [|r rs]; [contradiction|]. cbn [texpected] in H.
  pose proof N as [N1 N2]. destruct (k_mac n) as [(A & m)|] eqn:E; [|now specialize (L1 N2)].
  assert (Z0 : (length a =? 0)%nat = false).
  { inversion L2; subst. destruct a; [congruence|reflexivity]. }
  rewrite Z0 in H. destruct H as [-> H]. unfold slice in H. cbn [skipn] in H. rewrite firstn_all in H.
  assert (EQ : heard1 n a = taad n A m a) by (unfold heard1; rewrite E; reflexivity). cbn [fold_left]. inversion L0; subst. destruct N2 as [N2 _].
  assert (N' : nok (heard1 n a)) by now apply heard1_ok. rewrite EQ in *.
  destruct (IH ltac:(assumption) ltac:(intros Q; congruence) ltac:(now inversion L2) _ cs rs N' H) as (ra & rb & -> & O & H'). exists (XDone :: ra), rb. auto.
Qed.
Lemma outs_app a b : outs (a ++ b) = outs a ++ outs b.
Proof. unfold outs. apply flat_map_app. Qed.
Lemma packet_len n m : nok n -> bytes m -> length (packet n m) = (length m + T)%nat.
Proof.
  intros [N1 N2] Bm. unfold packet, T. destruct (k_mac n) as [(A & x)|].
  - destruct N2 as (-> & N3 & N4). rewrite app_length, (crypt_length cf c HM) by exact N1. f_equal. apply tag_facts; auto. now apply (crypt_bytes cf c HM).
  - rewrite N2, (crypt_length cf c HM) by exact N1. lia.
Qed.
Lemma seal_run ls : Forall lok ls -> forall n cs rs, nok n -> k_enc n = true -> texpected c auth n (seal_calls T ls ++ cs) rs ->
  exists ra rb, rs = ra ++ rb /\ outs ra = packets n ls /\ nok (sent n ls) /\ k_enc (sent n ls) = true /\ texpected c auth (sent n ls) cs rb.
Proof.
  intros HL. induction HL as [|l ls Hl HL IH]; intros n cs rs N E H; [exists [], rs; auto|].
  unfold seal_calls in H. cbn [flat_map] in H. rewrite <- !app_assoc in H. destruct (aads_run l Hl n _ rs N H) as (ra & rb & -> & O & H1). pose proof Hl as (Bm & Ba & _).
  pose proof (heard_ok n l N Ba) as N1. assert (E1 : k_enc (heard n l) = true) by now rewrite heard_enc. set (n1 := heard n l) in *. set (m := l_msg l) in *.
  cbn [app] in H1. destruct rb as [|r rb]; [contradiction|]. cbn [texpected] in H1. assert (SM : slice m 0 (length m) = m) by (now apply slice_full). rewrite SM in H1.
  pose proof (packet_len n1 m N1 Bm) as PL. pose proof (sent1_ok n1 m N1 Bm) as N2. assert (E2 : k_enc (sent1 n1 m) = true) by now rewrite sent1_enc.
  assert (X : r = XOut (packet n1 m) /\ texpected c auth (sent1 n1 m) (seal_calls T ls ++ cs) rb).
  { unfold packet, sent1 in *. destruct (k_mac n1) as [(A & x)|] eqn:EM.
    - rewrite E1 in H1. rewrite length_zeros in H1. destruct N1 as [_ N1]. rewrite EM in N1. destruct N1 as (EA & _). unfold T in *. rewrite EA in *.
      replace (length m + tag <? 0 + length m + t_mac c)%nat with false in H1 by (symmetry; apply Nat.ltb_ge; destruct (T_num _ _ HM) as (R1 & R2 & R3 & R4 & R5 & R6); lia). destruct H1 as [(out' & -> & W) H1]. split; [|exact H1]. f_equal. apply (written_zeros (length m + tag)); auto.
    - destruct H1 as [(out' & -> & W) H1]. split; [|exact H1]. f_equal. apply (written_zeros (length m + T)); auto. }
  destruct X as [-> X]. destruct (IH _ cs rb N2 E2 X) as (rc & rd & -> & O2 & N3 & E3 & H3). exists (ra ++ XOut (packet n1 m) :: rc), rd. rewrite <- app_assoc. cbn [app]. split; [reflexivity|].
  rewrite outs_app, O. cbn [app packets sent]. change (outs (XOut (packet n1 m) :: rc)) with (packet n1 m :: outs rc). rewrite O2. fold n1 m. auto.
Qed.
Lemma turn_ok e n : nok n -> nok (turn e n). Proof. exact (fun H => H). Qed.
Lemma crypt_twice' n m : nok n -> tcrypt c n (tcrypt c n m) = m.
Proof. intros [H _]. unfold tcrypt. apply (crypt_twice (t_B c) _ (B_pos cf c HM) (block_facts cf c HM n H)). Qed.
Lemma open_run ls : Forall lok ls -> forall n cs rs, nok n -> texpected c auth (turn false n) (open_calls T ls (packets n ls) ++ cs) rs ->
  exists ra rb, rs = ra ++ rb /\ outs ra = map l_msg ls /\ nok (sent n ls) /\ texpected c auth (turn false (sent n ls)) cs rb.
Proof.
  intros HL. induction HL as [|l ls Hl HL IH]; intros n cs rs N H; [exists [], rs; auto|].
  cbn [packets] in H. unfold open_calls in H. cbn [combine flat_map fst snd] in H. rewrite <- !app_assoc in H. destruct (aads_run l Hl _ _ rs (turn_ok false n N) H) as (ra & rb & -> & O & H1). pose proof Hl as (Bm & Ba & _).
  rewrite heard_turn in H1. pose proof (heard_ok n l N Ba) as N1. set (n1 := heard n l) in *. set (m := l_msg l) in *.
  pose proof (packet_len n1 m N1 Bm) as PL. pose proof (sent1_ok n1 m N1 Bm) as N2.
  cbn [app] in H1. destruct rb as [|r rb]; [contradiction|]. cbn [texpected turn k_mac k_enc] in H1. rewrite PL in H1. replace (length m + T - T)%nat with (length m) in H1 by lia. cbn [Nat.add] in H1.
  assert (LC : length (tcrypt c n1 m) = length m) by (apply (crypt_length cf c HM); apply N1).
  change (tcrypt c (TConn false (k_key n1) (k_tweak n1) (k_pos n1) (k_mac n1) (k_total n1) (k_tag n1))) with (tcrypt c n1) in H1.
  assert (X : r = XOut m /\ texpected c auth (turn false (sent1 n1 m)) (open_calls T ls (packets (sent1 n1 m) ls) ++ cs) rb).
  { destruct (k_mac n1) as [(A & x)|] eqn:EM.
    - assert (EP : packet n1 m = tcrypt c n1 m ++ ttag_of c n1 A x (tcrypt c n1 m)) by (unfold packet; rewrite EM; reflexivity).
      assert (ES : sent1 n1 m = tmoved c (ttagged c n1 A x (tcrypt c n1 m)) (length m)) by (unfold sent1; rewrite EM; reflexivity).
      pose proof N1 as [_ Q]. rewrite EM in Q. destruct Q as (EA & Q1 & Q2).
      assert (LT : length (ttag_of c n1 A x (tcrypt c n1 m)) = tag) by (apply tag_facts; auto; apply (crypt_bytes cf c HM); [apply N1|exact Bm]).
      assert (S1 : slice (packet n1 m) 0 (length m) = tcrypt c n1 m) by (rewrite EP; unfold slice; cbn [skipn]; rewrite firstn_app, LC, Nat.sub_diag, firstn_O, app_nil_r; apply firstn_all2; lia).
      assert (S2 : slice (packet n1 m) (length m) tag = ttag_of c n1 A x (tcrypt c n1 m)).
      { rewrite EP. unfold slice. rewrite skipn_app, LC, Nat.sub_diag. rewrite skipn_all2 by lia. cbn [app skipn]. apply firstn_all2. lia. }
      rewrite S1, S2 in H1. rewrite ES.
      change (ttag_of c (TConn false (k_key n1) (k_tweak n1) (k_pos n1) (Some (A, x)) (k_total n1) (k_tag n1))) with (ttag_of c n1) in H1.
      destruct H1 as [(_ & (out' & -> & W) & H1)|(F & _)]; [|now elim F].
      match type of W with written ?o ?p ?a ?d => change (written o p a (tcrypt c n1 (tcrypt c n1 m))) in W end. rewrite (crypt_twice' n1 m N1) in W. split; [|try rewrite ES in H1; exact H1]. f_equal. apply (written_zeros (length m)); auto.
    - assert (EP : packet n1 m = tcrypt c n1 m) by (unfold packet; rewrite EM; reflexivity).
      assert (ES : sent1 n1 m = tmoved c n1 (length m)) by (unfold sent1; rewrite EM; reflexivity).
      rewrite EP, ES in *. rewrite slice_full in H1 by exact LC. destruct H1 as [(out' & -> & W) H1].
      match type of W with written ?o ?p ?a ?d => change (written o p a (tcrypt c n1 (tcrypt c n1 m))) in W end. rewrite (crypt_twice' n1 m N1) in W. split; [f_equal; apply (written_zeros (length m)); auto|].
      exact H1. }
  destruct X as [-> X]. destruct (IH _ cs rb N2 X) as (rc & rd & -> & O2 & N3 & H3). exists (ra ++ XOut m :: rc), rd. rewrite <- app_assoc. cbn [app]. split; [reflexivity|].
  rewrite outs_app, O. cbn [app map sent]. change (outs (XOut m :: rc)) with (m :: outs rc). rewrite O2. fold n1 m. auto.
Qed.
End talk.
