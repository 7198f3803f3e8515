(** The SHAKE object. *)
From Verif Require Import BaseLemmas Spec_Common Proofs_Common Spec_Feed Spec_Keccak Model_IntegerTools Model_Modes Model_Absorb Model_Keccak Model_SHAKE Proofs_Windows Proofs_Absorb Proofs_SHA2obj
  Proofs_Keccak Proofs_Sponge Proofs_SHA3 Proofs_XOF Session_Digest Session_KMAC Session_SHAKE Proofs_KMAC Proofs_KMAC2.
Open Scope Z_scope.

Lemma iter_add {A} (f : A -> A) a b x : Nat.iter a f (Nat.iter b f x) = Nat.iter (a + b) f x.
Proof. induction a as [|a IH]; [reflexivity|]. change (f (Nat.iter a f (Nat.iter b f x)) = f (Nat.iter (a + b) f x)). now rewrite IH. Qed.
Lemma stream_from R rate st k n : (0 < rate <= 200)%nat -> st_ok st -> stream R rate (Nat.iter k (keccak R) st) n = skipn (k * rate) (stream R rate st (k * rate + n)).
Proof.
  intros Hr Hs. unfold stream. rewrite <- iter_r. pose proof (keccak_ok R st Hs) as Hs'.
  replace ((k * rate + n) / rate + 1)%nat with (k + (n / rate + 1))%nat by (rewrite (Nat.add_comm (k * rate)), Nat.div_add by lia; generalize (n / rate)%nat; intros; lia).
  rewrite (squeeze_app (keccak R) rate k). rewrite firstn_app, squeeze_len by (auto; lia). rewrite (firstn_all2 (n := k * rate + n)) by (rewrite squeeze_len by (auto; lia); lia).
  replace (k * rate + n - k * rate)%nat with n by lia. rewrite skipn_app, squeeze_len by (auto; lia). rewrite skipn_all2 by (rewrite squeeze_len by (auto; lia); lia). rewrite Nat.sub_diag. reflexivity.
Qed.
Section obj.
Context (rate : nat).
Hypothesis Hr : (11 <= rate <= 200)%nat.
Definition sabs (o : shake_obj) (a : option (list Z * list Z * list Z * nat * nat)) : Prop :=
  match a with
  | None => o = SHAKE_new
  | Some (key, cust, info, k, p) => sk_init o = true /\ sk_counter o = p /\
    exists st, st_ok st /\ sk_state o = Nat.iter k (keccak 24) st /\ forall n, cshake 24 rate key n info cust = stream 24 rate st n
  end.
Lemma SHAKE_Init_ok o a key cust info : sabs o a -> scall_ok rate (SInit key cust info) -> (4 <= length key)%nat -> (length cust = 0 \/ 4 <= length cust)%nat ->
  exists o', SHAKE_Initialize rate o key cust info = Ok o' /\ sabs o' (Some (key, cust, info, 0%nat, 0%nat)).
Proof.
  intros HA (Bk & Bc & Bi & Sc & Si & Hf) LK LC. unfold SHAKE_Initialize.
  replace (length key <? 4)%nat with false by (symmetry; apply Nat.ltb_ge; lia). cbn [negb guard bind].
  replace (negb (length cust =? 0)%nat && (length cust <? 4)%nat) with false by (destruct (Nat.eqb_spec (length cust) 0), (Nat.ltb_spec (length cust) 4); cbn; lia || reflexivity). cbn [negb guard bind].
  assert (E : (if sk_init o then SHAKE_new else o) = SHAKE_new) by (destruct a as [((((? & ?) & ?) & ?) & ?)|]; [destruct HA as [-> _]; reflexivity|cbn [sabs] in HA; subst o; reflexivity]). rewrite E. unfold SHAKE_new. cbn [sk_state sk_counter sk_init]. change (zeros 25) with zero_state.
  destruct (negb (length cust =? 0)%nat || negb (length info =? 0)%nat) eqn:Q.
  - destruct (Customize_ok 24 cust info rate zero_state r24 ltac:(lia) zero_state_ok Bc Bi Sc Si Hf) as [-> S1]. cbn [bind sk_domain sk_state].
    destruct (Absorb_ok 24 key 0 (length key) rate 4 _ r24 ltac:(lia) S1 Bk ltac:(lia) ltac:(red; lia)) as (st' & -> & H1). cbn [bind]. rewrite slice_all in H1 by reflexivity.
    eexists. split; [reflexivity|]. split; [reflexivity|]. split; [reflexivity|]. exists st'. split; [apply H1|]. split; [reflexivity|]. intros n.
    unfold cshake. replace (length info + length cust =? 0)%nat with false by (destruct (Nat.eqb_spec (length cust) 0), (Nat.eqb_spec (length info) 0), (Nat.eqb_spec (length info + length cust) 0); cbn in Q; try discriminate; try reflexivity; lia).
    apply sponge_stream. apply absorbed_app; [lia|apply bytepad_bytes; [lia|apply Forall_app; split; now apply encode_string_bytes]|apply bytepad_aligned; lia|exact H1].
  - cbn [bind sk_domain sk_state].
    destruct (Absorb_ok 24 key 0 (length key) rate 31 _ r24 ltac:(lia) zero_state_ok Bk ltac:(lia) ltac:(red; lia)) as (st' & -> & H1). cbn [bind]. rewrite slice_all in H1 by reflexivity.
    eexists. split; [reflexivity|]. split; [reflexivity|]. split; [reflexivity|]. exists st'. split; [apply H1|]. split; [reflexivity|]. intros n.
    unfold cshake. replace (length info + length cust =? 0)%nat with true by (destruct (Nat.eqb_spec (length cust) 0), (Nat.eqb_spec (length info) 0), (Nat.eqb_spec (length info + length cust) 0); cbn in Q; try discriminate; try reflexivity; lia).
    unfold shake. now apply sponge_stream.
Qed.
Lemma SHAKE_Gen_ok o key cust info k p out oo n : sabs o (Some (key, cust, info, k, p)) -> (oo + n <= length out)%nat -> Z.of_nat (p + n / rate) <= 1024000 ->
  exists o', SHAKE_Generate rate o out oo n = Ok (o', splice out oo (skipn (k * rate) (cshake 24 rate key (k * rate + n) info cust))) /\
    length (skipn (k * rate) (cshake 24 rate key (k * rate + n) info cust)) = n /\
    sabs o' (Some (key, cust, info, (k + (n + rate - 1) / rate)%nat, (p + if (n mod rate =? 0)%nat then 0 else 1)%nat)).
Proof.
  intros (H1 & H2 & st & Hs & H3 & H4) HO HP. unfold SHAKE_Generate. rewrite H1. cbn [guard bind].
  replace ((oo <=? length out)%nat && (length out - oo <? n)%nat) with false by (symmetry; apply andb_false_iff; right; apply Nat.ltb_ge; lia). cbn [negb guard bind].
  rewrite H2. replace (Z.of_nat p + Z.of_nat n / Z.of_nat rate <=? 1024000) with true by (symmetry; apply Z.leb_le; rewrite Nat2Z.inj_add, Nat2Z.inj_div in HP; lia). cbn [guard bind].
  assert (Sk : st_ok (sk_state o)) by (rewrite H3; now apply iter_ok). rewrite SHAKE_Expand_ok by (auto; lia). rewrite H4.
  assert (ES : stream 24 rate (sk_state o) n = skipn (k * rate) (stream 24 rate st (k * rate + n))) by (rewrite H3; apply stream_from; [lia|exact Hs]). rewrite <- ES.
  eexists. split; [reflexivity|]. split; [apply stream_len; [lia|exact Sk]|]. split; [exact H1|]. cbn [sk_counter sk_state]. split; [now rewrite H2|].
  exists st. split; [exact Hs|]. split; [|exact H4]. rewrite H3. unfold perms. replace (n + (rate - 1))%nat with (n + rate - 1)%nat by lia. rewrite (Nat.add_comm k). exact (iter_add (keccak 24) _ k st).
Qed.
Lemma shistory_ok cs : forall o a, sabs o a -> Forall (scall_ok rate) cs -> exists rs, shistory rate o cs = Ok rs /\ sexpected rate a cs rs.
Proof.
  induction cs as [|c cs IH]; intros o a HA HC; [exists []; split; [reflexivity|exact I]|]. inversion HC as [|? ? Hc HC']; subst. cbn [shistory].
  assert (STEP : forall o' a' r, sstep rate o c = Ok (o', r) -> sabs o' a' -> (forall rs, sexpected rate a' cs rs -> sexpected rate a (c :: cs) (r :: rs)) ->
    exists rs, (r <- sstep rate o c ;; rs <- shistory rate (fst r) cs ;; Ok (snd r :: rs)) = Ok rs /\ sexpected rate a (c :: cs) rs).
  { intros o' a' r E H1 H2. rewrite E. cbn [bind fst snd]. destruct (IH o' a' H1 HC') as (rs & -> & H3). cbn [bind]. exists (r :: rs). split; [reflexivity|]. now apply H2. }
  destruct c as [key cust info|out oo n|].
  - destruct (Nat.ltb_spec (length key) 4) as [K|K].
    + apply (STEP o a (Failed InvalidKey)); [|exact HA|].
      * cbn [sstep]. unfold SHAKE_Initialize. replace (length key <? 4)%nat with true by (symmetry; now apply Nat.ltb_lt). reflexivity.
      * intros rs H. cbn [sexpected]. replace (length key <? 4)%nat with true by (symmetry; now apply Nat.ltb_lt). split; [reflexivity|exact H].
    + destruct ((0 <? length cust) && (length cust <? 4))%nat eqn:Q.
      * apply (STEP o a (Failed InvalidSalt)); [|exact HA|].
        -- cbn [sstep]. unfold SHAKE_Initialize. replace (length key <? 4)%nat with false by (symmetry; apply Nat.ltb_ge; lia). cbn [negb guard bind].
           replace (negb (length cust =? 0)%nat && (length cust <? 4)%nat) with true; [reflexivity|]. apply andb_prop in Q. destruct Q as [Q1 Q2]. rewrite Q2. apply Nat.ltb_lt in Q1. destruct (Nat.eqb_spec (length cust) 0); [lia|reflexivity].
        -- intros rs H. cbn [sexpected]. replace (length key <? 4)%nat with false by (symmetry; apply Nat.ltb_ge; lia). rewrite Q. split; [reflexivity|exact H].
      * assert (LC : (length cust = 0 \/ 4 <= length cust)%nat) by (destruct (Nat.ltb_spec 0 (length cust)), (Nat.ltb_spec (length cust) 4); cbn in Q; try discriminate; lia).
        destruct (SHAKE_Init_ok o a key cust info HA Hc K LC) as (o' & E & H1). apply (STEP o' (Some (key, cust, info, 0%nat, 0%nat)) Done); [|exact H1|].
        -- cbn [sstep]. rewrite E. reflexivity.
        -- intros rs H. cbn [sexpected]. replace (length key <? 4)%nat with false by (symmetry; apply Nat.ltb_ge; lia). rewrite Q. split; [reflexivity|exact H].
  - destruct a as [((((key & cust) & info) & k) & p)|].
    + cbn [scall_ok] in Hc. destruct (Nat.ltb_spec (length out) (oo + n)) as [T|T].
      * apply (STEP o (Some (key, cust, info, k, p)) (Failed InvalidSize)); [|exact HA|].
        -- cbn [sstep]. unfold SHAKE_Generate. destruct HA as (-> & _). cbn [guard bind]. replace ((oo <=? length out)%nat && (length out - oo <? n)%nat) with true by (symmetry; apply andb_true_intro; split; [apply Nat.leb_le; lia|apply Nat.ltb_lt; lia]). reflexivity.
        -- intros rs H. cbn [sexpected]. replace (length out <? oo + n)%nat with true by (symmetry; now apply Nat.ltb_lt). split; [reflexivity|exact H].
      * destruct (Z.ltb_spec 1024000 (Z.of_nat (p + n / rate))) as [L|L].
        -- apply (STEP o (Some (key, cust, info, k, p)) (Failed MaxExceeded)); [|exact HA|].
           ++ cbn [sstep]. unfold SHAKE_Generate. destruct HA as (-> & -> & _). cbn [guard bind]. replace ((oo <=? length out)%nat && (length out - oo <? n)%nat) with false by (symmetry; apply andb_false_iff; right; apply Nat.ltb_ge; lia). cbn [negb guard bind].
              replace (Z.of_nat p + Z.of_nat n / Z.of_nat rate <=? 1024000) with false by (symmetry; apply Z.leb_gt; rewrite Nat2Z.inj_add, Nat2Z.inj_div in L; lia). reflexivity.
           ++ intros rs H. cbn [sexpected]. replace (length out <? oo + n)%nat with false by (symmetry; apply Nat.ltb_ge; lia). replace (1024000 <? Z.of_nat (p + n / rate)) with true by (symmetry; now apply Z.ltb_lt). split; [reflexivity|exact H].
        -- destruct (SHAKE_Gen_ok o key cust info k p out oo n HA T L) as (o' & E & LO & H1).
           apply (STEP o' (Some (key, cust, info, (k + (n + rate - 1) / rate)%nat, (p + if (n mod rate =? 0)%nat then 0 else 1)%nat)) (Wrote (splice out oo (skipn (k * rate) (cshake 24 rate key (k * rate + n) info cust))))); [|exact H1|].
           ++ cbn [sstep]. rewrite E. reflexivity.
           ++ intros rs H. cbn [sexpected]. replace (length out <? oo + n)%nat with false by (symmetry; apply Nat.ltb_ge; lia). replace (1024000 <? Z.of_nat (p + n / rate)) with false by (symmetry; apply Z.ltb_ge; lia).
              split; [|exact H]. eexists. split; [reflexivity|]. apply splice_written. rewrite LO. lia.
    + cbn [sabs] in HA. apply (STEP o None (Failed NotInitialized)); [rewrite HA; reflexivity|exact HA|]. intros rs H. split; [reflexivity|exact H].
  - apply (STEP SHAKE_new None Done); [reflexivity|reflexivity|]. intros rs H. split; [reflexivity|exact H].
Qed.
(** prefixes *)
Lemma cshake_prefix key cust info n1 n2 : bytes key -> bytes cust -> bytes info -> short cust -> short info -> (n1 <= n2)%nat -> cshake 24 rate key n1 info cust = firstn n1 (cshake 24 rate key n2 info cust).
Proof.
  intros Bk Bc Bi Sc Si Hn.
  assert (G : forall dom m, is_byte dom -> bytes m -> sponge (keccak 24) rate zero_state dom m n1 = firstn n1 (sponge (keccak 24) rate zero_state dom m n2)).
  { intros dom m Hd Bm. destruct (Absorb_ok 24 m 0 (length m) rate dom zero_state r24 ltac:(lia) zero_state_ok Bm ltac:(lia) Hd) as (st & _ & H). rewrite slice_all in H by reflexivity.
    rewrite !(sponge_stream _ _ _ _ _ _ _ H). destruct H as [Hs _]. unfold stream. rewrite firstn_firstn, Nat.min_l by lia.
    assert (LE : (n1 / rate <= n2 / rate)%nat) by (apply Nat.div_le_mono; lia). pose proof (keccak_ok 24 st Hs) as Hs'.
    replace (n2 / rate + 1)%nat with (n1 / rate + 1 + (n2 / rate - n1 / rate))%nat by lia. rewrite (squeeze_app (keccak 24) rate (n1 / rate + 1)), firstn_app.
    rewrite (squeeze_len 24 rate (n1 / rate + 1)) by (auto; lia). replace (n1 - (n1 / rate + 1) * rate)%nat with 0%nat; [now rewrite firstn_O, app_nil_r|].
    pose proof (Nat.div_mod n1 rate ltac:(lia)). pose proof (Nat.mod_upper_bound n1 rate ltac:(lia)). lia. }
  unfold cshake, shake. destruct (length info + length cust =? 0)%nat; apply G; auto; try (red; lia).
  apply Forall_app. split; [|exact Bk]. apply bytepad_bytes; [lia|]. apply Forall_app. split; now apply encode_string_bytes.
Qed.
End obj.
