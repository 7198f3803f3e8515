(** The SCBKDF object. *)
From Verif Require Import BaseLemmas Spec_Common Proofs_Common Spec_Feed Spec_Keccak Spec_CSG Spec_SCBKDF Model_IntegerTools Model_Modes Model_Absorb Model_Keccak Model_SCBKDF Proofs_Windows Proofs_Absorb Proofs_SHA2obj
  Proofs_Keccak Proofs_Sponge Proofs_SHA3 Proofs_XOF Session_Digest Session_KMAC Proofs_KMAC Proofs_KMAC2 Proofs_SHAKE Proofs_CSG Session_SCBKDF.
Open Scope Z_scope.

Section obj.
Context (rate : nat).
Hypothesis Hr : (11 <= rate <= 198)%nat.
Let f := keccak 24.
Lemma Hr' : (0 < rate <= 199)%nat.
Proof. lia. Qed.
Lemma Absorb_load inp dom st : st_ok st -> bytes inp -> is_byte dom ->
  Absorb 24 inp 0 (length inp) rate dom st = Ok (load rate st dom inp) /\ absorbed 24 rate st dom inp (load rate st dom inp).
Proof.
  intros Hs Hi Hdom. unfold Absorb. replace (0 <? rate)%nat with true by (symmetry; apply Nat.ltb_lt; lia). cbn [safe bind].
  destruct (eager_blocks_ok rate rate (absorb_step (Permute 24) rate) (absorb_block (keccak 24) rate) st_ok) with (inp := inp) (fuel := length inp) (s := st) (io := 0%nat) (len := length inp)
    as (bs & rl & E & J & Bb & R1 & R2 & D); auto; try lia.
  { intros s b o H1 H2 H3. apply step_ok; auto; try lia. intros. apply perm_ok; auto using r24. }
  rewrite E. cbn [bind]. rewrite wcopy_ok by (rewrite ?length_zeros; lia). cbn [bind].
  set (d := slice inp (0 + (length inp - rl)) rl) in *. assert (Ld : length d = rl) by (unfold d; rewrite length_slice; lia).
  assert (Bd : bytes d) by (unfold d; now apply bytes_slice).
  assert (Lb : length (splice (zeros 200) 0 d) = 200%nat) by (rewrite length_splice; rewrite length_zeros; lia).
  rewrite put_ok by lia. cbn [bind]. rewrite <- Ld.
  destruct (msg_last rate dom d (splice (zeros 200) 0 d)) as (msg & E1 & E2 & E3 & E4); [lia| | |].
  - now rewrite slice_splice_same by (rewrite length_zeros; lia).
  - intros i Hi'. rewrite nth_splice by (rewrite length_zeros; lia). cbn [Nat.add Nat.leb andb Nat.sub]. replace (i <? length d)%nat with false by (symmetry; apply Nat.ltb_ge; lia).
    apply nth_repeat.
  - rewrite E1. cbn [bind]. rewrite slice_all in D by lia.
    assert (Bm : bytes msg) by (apply E4; [apply bytes_splice; [apply bytes_zeros|exact Bd]|exact Hdom]).
    destruct (absorb_last 24 rate dom st bs d msg ltac:(lia) Hs Hdom Bb Bd ltac:(lia) Bm E2 ltac:(lia)) as (st' & F1 & F2).
    assert (EL : st' = load rate st dom inp).
    { rewrite D. rewrite (load_ok rate Hr') by (auto; lia). rewrite FastAbsorb_ok in F1; [|apply fold_g_ok; auto; lia|auto|lia|lia]. injection F1 as <-. rewrite E2. unfold block_state. rewrite last_block_len by lia. reflexivity. }
    rewrite F1, <- D in *. rewrite <- EL. auto.
Qed.
Definition good (p : list Z * list Z) : Prop := st_ok (fst p) /\ bytes (snd p).
Lemma state_bytes st n : st_ok st -> bytes (firstn n (lane_bytes st)).
Proof. intros _. apply bytes_firstn. apply Forall_concat. apply Forall_map. apply Forall_forall. intros x _. apply bytes_le_bytes. Qed.
Lemma unit_good g p : good p -> good (scb_unit rate g p).
Proof.
  intros [H1 H2]. unfold scb_unit, good. cbn [fst snd]. destruct (Absorb_load (snd p) 36 (fst p) H1 H2 ltac:(red; lia)) as [_ [H3 _]]. split; [exact H3|].
  destruct g; [|exact H2]. apply Forall_app. split; [exact H2|]. now apply state_bytes.
Qed.
Lemma work_good g k p : good p -> good (scb_work rate g k p).
Proof. intros H. induction k as [|k IH]; [exact H|]. exact (unit_good g _ IH). Qed.
Lemma round_ok mem i p : good p -> SCB_round rate mem i p = Ok (scb_unit rate (grows mem) p).
Proof.
  destruct p as [st cache]. intros [H1 H2]. cbn [fst snd] in *. unfold SCB_round, scb_unit, grows. cbn [fst snd].
  destruct (Absorb_load cache 36 st H1 H2 ltac:(red; lia)) as [-> [H3 _]]. cbn [bind]. destruct (25 <? (mem * 1000000) mod 2 ^ 64); [|reflexivity].
  rewrite wcopy_state; [|exact H3|lia|rewrite app_length, length_zeros; lia]. cbn [bind]. do 2 f_equal.
  pose proof (firstn_bytes_len _ rate H3 ltac:(lia)) as LF. unfold splice. rewrite firstn_app, Nat.sub_diag, firstn_O, app_nil_r, firstn_all. f_equal. rewrite skipn_all2 by (rewrite app_length, length_zeros; lia). now rewrite app_nil_r.
Qed.
Lemma rounds_good mem k p : good p -> for_up 0 k (SCB_round rate mem) p = Ok (scb_work rate (grows mem) k p).
Proof.
  intros H. destruct (for_up_inv (fun i q => q = scb_work rate (grows mem) i p) (SCB_round rate mem) 0 k p eq_refl) as (q & -> & ->); [|reflexivity].
  intros j s _ ->. exists (scb_work rate (grows mem) (S j) p). split; [|reflexivity]. rewrite round_ok by now apply work_good. reflexivity.
Qed.
Definition brel (o : scb) (cpu : nat) (mem : Z) (a : option (list Z * list Z)) : Prop :=
  sb_cpu o = cpu /\ sb_mem o = mem /\
  match a with None => o = SCB_new cpu mem | Some p => sb_ready o = true /\ (sb_state o, sb_cache o) = p /\ good p end.
Lemma Init_ok' o cpu mem a key iv info : brel o cpu mem a -> bcall_ok rate (BInit key iv info) -> (16 <= length key)%nat ->
  exists o', SCB_Initialize rate o key iv info = Ok o' /\ brel o' cpu mem (Some (scb_start rate key iv info)).
Proof.
  intros (HC & HM & HA) (Bk & Bv & Bi & Sv & Si & HF) LK. unfold SCB_Initialize. replace (length key <? 16)%nat with false by (symmetry; apply Nat.ltb_ge; lia). cbn [negb guard bind].
  assert (E : (if sb_ready o then SCB_Reset o else o) = SCB_new cpu mem) by (destruct a as [p|]; [destruct HA as (-> & _); unfold SCB_Reset, SCB_new; now rewrite HC, HM|subst o; reflexivity]).
  rewrite E. unfold SCB_new. cbn [sb_state sb_cache sb_cpu sb_mem]. change (zeros 25) with zero_state. cbn [app].
  set (A0 := if (length iv + length info =? 0)%nat then zero_state else absorb f rate zero_state (bytepad (encode_string info ++ encode_string iv) rate)).
  assert (EC : (if negb (length iv =? 0)%nat || negb (length info =? 0)%nat then Customize 24 iv info rate zero_state else Ok zero_state) = Ok A0 /\ st_ok A0).
  { unfold A0. destruct (Nat.eqb_spec (length iv + length info) 0) as [Q|Q].
    - replace (negb (length iv =? 0)%nat || negb (length info =? 0)%nat) with false by (destruct (Nat.eqb_spec (length iv) 0), (Nat.eqb_spec (length info) 0); cbn; lia || reflexivity). auto using zero_state_ok.
    - replace (negb (length iv =? 0)%nat || negb (length info =? 0)%nat) with true by (destruct (Nat.eqb_spec (length iv) 0), (Nat.eqb_spec (length info) 0); cbn; lia || reflexivity).
      exact (Customize_ok 24 iv info rate zero_state r24 ltac:(lia) zero_state_ok Bv Bi Sv Si HF). }
  destruct EC as [-> S0]. cbn [bind]. destruct (Absorb_load key 36 A0 S0 Bk ltac:(red; lia)) as [-> [S1 E1]]. cbn [bind].
  rewrite perm_ok by auto using r24. fold f in E1. fold f. pose proof (keccak_ok 24 _ S1) as S2. fold f in S2. rewrite E1 in *.
  rewrite wcopy_state; [|exact S2|lia|rewrite firstn_length, length_zeros; lia]. cbn [bind]. eexists. split; [reflexivity|]. split; [reflexivity|]. split; [reflexivity|]. cbn [sb_ready sb_state sb_cache].
  split; [reflexivity|]. unfold scb_start. fold f. fold A0. split.
  - f_equal. apply splice_all. rewrite firstn_bytes_len by (auto; lia). rewrite firstn_length, length_zeros. lia.
  - split; [exact S2|]. cbn [snd]. now apply state_bytes.
Qed.
Lemma Gen_ok' o cpu mem p out oo n : brel o cpu mem (Some p) -> (oo + n <= length out)%nat ->
  exists o', SCB_Generate rate o out oo n = Ok (o', splice out oo (scb_output rate (grows mem) cpu p n)) /\ brel o' cpu mem (Some (scb_after rate (grows mem) cpu p n)).
Proof.
  intros (HC & HM & HR & HE & HG) HL. unfold SCB_Generate. rewrite HR. cbn [guard bind].
  replace ((oo <=? length out)%nat && (length out - oo <? n)%nat) with false by (symmetry; apply andb_false_iff; right; apply Nat.ltb_ge; lia). cbn [negb guard bind].
  unfold SCB_Extract. rewrite HE, HC, HM, rounds_good by exact HG. cbn [bind]. unfold scb_output, scb_after. pose proof (work_good (grows mem) cpu p HG) as [W1 W2].
  set (q := scb_work rate (grows mem) cpu p) in *. destruct q as [st cache]. cbn [fst snd] in *.
  assert (Hq : (n / rate * rate <= n < n / rate * rate + rate)%nat) by (pose proof (Nat.div_mod n rate); pose proof (Nat.mod_upper_bound n rate); nia).
  assert (Hm : (n mod rate = n - n / rate * rate)%nat) by (pose proof (Nat.div_mod n rate); nia).
  assert (E : (if (rate <=? n)%nat then r <- Squeeze 24 st out oo (n / rate) rate ;; Ok (fst r, snd r, (oo + n / rate * rate)%nat, (n - n / rate * rate)%nat) else Ok (st, out, oo, n))
    = Ok (Nat.iter (n / rate) (keccak 24) st, splice out oo (squeeze (keccak 24) rate (n / rate) (keccak 24 st)), (oo + n / rate * rate)%nat, (n - n / rate * rate)%nat)).
  { destruct (Nat.leb_spec rate n).
    - rewrite Squeeze_ok by (auto using r24; lia). reflexivity.
    - rewrite Nat.div_small by lia. cbn [Nat.iter nat_rect squeeze Nat.mul]. rewrite splice_nil, Nat.add_0_r, Nat.sub_0_r. reflexivity. }
  rewrite E. cbn [bind]. change (outputs rate st n) with (stream 24 rate st n). rewrite <- two_part by (auto using r24; lia).
  assert (EP : blocks_for rate n = if (n mod rate =? 0)%nat then (n / rate)%nat else S (n / rate)).
  { rewrite <- perms_eq by lia. unfold blocks_for, perms. f_equal. lia. }
  rewrite EP, Hm. pose proof (iter_ok 24 (n / rate) _ W1) as HI.
  destruct (Nat.eqb_spec (n - n / rate * rate) 0) as [Z0|Z0].
  - rewrite Z0, firstn_O, splice_nil. eexists. split; [reflexivity|]. split; [reflexivity|]. split; [reflexivity|]. cbn [sb_ready sb_state sb_cache]. split; [exact HR|]. split; [reflexivity|]. split; [exact HI|exact W2].
  - rewrite perm_ok by auto using r24.
    rewrite wcopy_state; [|now apply keccak_ok|lia|rewrite length_splice by (rewrite squeeze_len by (try lia; now apply keccak_ok); lia); lia].
    cbn [bind]. eexists. split; [reflexivity|]. split; [reflexivity|]. split; [reflexivity|]. cbn [sb_ready sb_state sb_cache]. split; [exact HR|]. split; [reflexivity|]. split; [exact (keccak_ok 24 _ HI)|exact W2].
Qed.
Lemma out_len g cpu p n : good p -> length (scb_output rate g cpu p n) = n.
Proof. intros H. unfold scb_output. change (outputs rate (fst (scb_work rate g cpu p)) n) with (stream 24 rate (fst (scb_work rate g cpu p)) n). apply stream_len; [lia|]. apply work_good. exact H. Qed.
Lemma bhistory_ok cs : forall o cpu mem a, brel o cpu mem a -> Forall (bcall_ok rate) cs -> exists o' rs, bhistory rate o cs = Ok (o', rs) /\ bexpected rate cpu mem a cs rs.
Proof.
  induction cs as [|c cs IH]; intros o cpu mem a HA HC; [exists o, []; split; [reflexivity|exact Logic.I]|]. inversion HC as [|? ? Hc HC']; subst. cbn [bhistory].
  assert (STEP : forall o' cpu' mem' a' r, bstep rate o c = Ok (o', r) -> brel o' cpu' mem' a' -> (forall rs, bexpected rate cpu' mem' a' cs rs -> bexpected rate cpu mem a (c :: cs) (r :: rs)) ->
    exists o' rs, (r <- bstep rate o c ;; rs <- bhistory rate (fst r) cs ;; Ok (fst rs, snd r :: snd rs)) = Ok (o', rs) /\ bexpected rate cpu mem a (c :: cs) rs).
  { intros o' cpu' mem' a' r E1 E2 E3. rewrite E1. cbn [bind fst snd]. destruct (IH o' cpu' mem' a' E2 HC') as (o2 & rs & -> & E4). cbn [bind fst snd]. exists o2, (r :: rs). split; [reflexivity|]. now apply E3. }
  destruct c as [key iv info|out oo n|cpu' mem'|].
  - destruct (Nat.ltb_spec (length key) 16) as [L|L].
    + apply (STEP o cpu mem a (Failed InvalidKey)); [|exact HA|].
      * cbn [bstep]. unfold SCB_Initialize. replace (length key <? 16)%nat with true by (symmetry; apply Nat.ltb_lt; lia). reflexivity.
      * intros rs H. cbn [bexpected]. replace (length key <? 16)%nat with true by (symmetry; apply Nat.ltb_lt; lia). auto.
    + destruct (Init_ok' o cpu mem a key iv info HA Hc L) as (o' & E & K). apply (STEP o' cpu mem (Some (scb_start rate key iv info)) Done); [cbn [bstep]; now rewrite E|exact K|].
      intros rs H. cbn [bexpected]. replace (length key <? 16)%nat with false by (symmetry; apply Nat.ltb_ge; lia). auto.
  - cbn [bcall_ok] in Hc. destruct a as [p|].
    + destruct (Nat.ltb_spec (length out) (oo + n)) as [L|L].
      * apply (STEP o cpu mem (Some p) (Failed InvalidSize)); [|exact HA|].
        -- cbn [bstep]. unfold SCB_Generate. destruct HA as (_ & _ & -> & _). cbn [guard bind].
           replace ((oo <=? length out)%nat && (length out - oo <? n)%nat) with true by (symmetry; apply andb_true_iff; split; [apply Nat.leb_le; lia|apply Nat.ltb_lt; lia]). reflexivity.
        -- intros rs H. cbn [bexpected]. replace (length out <? oo + n)%nat with true by (symmetry; apply Nat.ltb_lt; lia). auto.
      * destruct (Gen_ok' o cpu mem p out oo n HA L) as (o' & E & K).
        apply (STEP o' cpu mem (Some (scb_after rate (grows mem) cpu p n)) (Wrote (splice out oo (scb_output rate (grows mem) cpu p n)))); [cbn [bstep]; now rewrite E|exact K|].
        intros rs H. cbn [bexpected]. replace (length out <? oo + n)%nat with false by (symmetry; apply Nat.ltb_ge; lia). split; [|exact H]. eexists. split; [reflexivity|].
        apply splice_written. rewrite out_len by apply HA. lia.
    + apply (STEP o cpu mem None (Failed NotInitialized)); [|exact HA|cbn [bexpected]; auto]. cbn [bstep]. unfold SCB_Generate. destruct HA as (_ & _ & ->). reflexivity.
  - apply (STEP (SCB_costs o cpu' mem') cpu' mem' a Done); [reflexivity| |cbn [bexpected]; auto]. destruct HA as (H1 & H2 & H3). split; [reflexivity|]. split; [reflexivity|]. destruct a as [p|]; [exact H3|]. subst o. reflexivity.
  - apply (STEP (SCB_Reset o) cpu mem None Done); [reflexivity| |cbn [bexpected]; auto]. destruct HA as (H1 & H2 & H3). unfold brel, SCB_Reset. cbn [sb_cpu sb_mem]. split; [exact H1|]. split; [exact H2|]. unfold SCB_new. now rewrite H1, H2.
Qed.
(** * the memory cost *)
Lemma work_len cpu p : good p -> length (snd (scb_work rate true cpu p)) = (length (snd p) + cpu * rate)%nat.
Proof.
  intros H. induction cpu as [|k IH]; [cbn [scb_work Nat.iter nat_rect Nat.mul]; lia|].
  pose proof (unit_good true _ (work_good true k p H)) as [S1 _]. change (scb_work rate true (S k) p) with (scb_unit rate true (scb_work rate true k p)). unfold scb_unit at 1. cbn [snd]. unfold scb_unit in S1. cbn [fst] in S1.
  rewrite app_length, IH, firstn_bytes_len by (auto; lia). lia.
Qed.
End obj.
Lemma scb_rate_range rate : In rate scb_rates -> (11 <= rate <= 198)%nat.
Proof. intros H. cbn [scb_rates In] in H. lia. Qed.
Lemma c75_every_history rate cpu mem cs : In rate scb_rates -> Forall (bcall_ok rate) cs ->
  exists o rs, bhistory rate (SCB_new cpu mem) cs = Ok (o, rs) /\ bexpected rate cpu mem None cs rs.
Proof. intros Hr HC. apply bhistory_ok; [now apply scb_rate_range|split; [reflexivity|split; reflexivity]|exact HC]. Qed.
Lemma c75_memory rate cpu mem key iv info n : In rate scb_rates -> bcall_ok rate (BInit key iv info) -> (16 <= length key)%nat -> 0 < mem < 2 ^ 44 ->
  exists o, bhistory rate (SCB_new cpu mem) [BInit key iv info; BGen (zeros n) 0 n] = Ok (o, [Done; Wrote (scb_output rate true cpu (scb_start rate key iv info) n)]) /\
    length (sb_cache o) = (rate * (cpu + 1))%nat.
Proof.
  intros Hr HC LK HM. pose proof (scb_rate_range rate Hr) as Hr'. cbn [bhistory bstep].
  destruct (Init_ok' rate Hr' (SCB_new cpu mem) cpu mem None key iv info (conj eq_refl (conj eq_refl eq_refl)) HC LK) as (o1 & -> & K1). cbn [bind fst snd].
  destruct (Gen_ok' rate Hr' o1 cpu mem _ (zeros n) 0 n K1 ltac:(rewrite length_zeros; lia)) as (o2 & -> & K2). cbn [caught bind fst snd].
  assert (EG : grows mem = true) by (unfold grows; rewrite Z.mod_small by lia; apply Z.ltb_lt; lia). rewrite EG in *.
  exists o2. split.
  - do 4 f_equal. f_equal. apply splice_all. rewrite (out_len rate Hr') by apply K1. now rewrite length_zeros.
  - destruct K1 as (_ & _ & _ & _ & G1). destruct K2 as (_ & _ & _ & E2 & _). unfold scb_after in E2. apply (f_equal snd) in E2. cbn [snd] in E2. rewrite E2, (work_len rate Hr') by exact G1.
    unfold scb_start. cbn [snd]. rewrite firstn_bytes_len; [lia| |lia]. exact (proj1 G1).
Qed.
