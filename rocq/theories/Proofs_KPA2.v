(** The parallel MAC: Initialize, Update and Finalize against the abstract state. *)
From Verif Require Import BaseLemmas Spec_Common Spec_Feed Spec_Keccak Model_IntegerTools Proofs_IntegerTools Model_Modes Model_Absorb Model_Keccak Proofs_Windows Proofs_Absorb Proofs_SHA2obj
  Proofs_Keccak Proofs_Sponge Proofs_SHA3 Proofs_XOF Proofs_KMAC Spec_KPA Model_KPA Session_Digest Session_KPA Proofs_KPA.
Open Scope Z_scope.

Definition rate_ok (q : nat) : Prop := (q = 168 \/ q = 136 \/ q = 72)%nat.
Definition pabs (o : kpa) (a : option (nat * list (list Z) * list Z)) : Prop :=
  match a with
  | None => kp_init o = false /\ bytes (snd (fst (kp_st o))) /\ length (snd (fst (kp_st o))) = 1600%nat
  | Some (q, A, m) => kp_init o = true /\ kp_rate o = q /\ rate_ok q /\ leaves_ok A /\ ainv (q * 8) 1600 (kg q) (fun s => leaves_ok (fst s)) false (A, 0%nat) m (kp_st o)
  end.
Lemma rate_bounds q : rate_ok q -> (11 <= q <= 190 /\ 72 <= q <= 168)%nat. Proof. intros [-> | [-> | ->]]; lia. Qed.
Lemma key_rate_ok key : rate_ok (kpa_rate key).
Proof. unfold kpa_rate, rate_ok. destruct (length key =? 16)%nat; [auto|]. destruct (length key =? 32)%nat; auto. Qed.
Lemma pabs_buf o a : pabs o a -> bytes (snd (fst (kp_st o))) /\ length (snd (fst (kp_st o))) = 1600%nat.
Proof.
  destruct a as [((q & A) & m)|]; [|intros (_ & H); exact H]. intros (_ & _ & _ & _ & H). destruct (kp_st o) as ((s & buf) & pos). destruct H as (_ & B & L & _). cbn [fst snd]. auto.
Qed.
(** ** Initialize *)
Lemma xor_zeros t : forall k, length t = k -> xor_lanes t (zeros k) = t.
Proof. induction t as [|x t IH]; intros [|k] H; try discriminate; [reflexivity|]. unfold zeros, xor_lanes. cbn [repeat combine map fst snd]. rewrite Z.lxor_0_r. f_equal. apply (IH k). now injection H. Qed.
Lemma name_ok i : (i < 8)%nat -> (algb <- Be16ToBytes (Z.of_nat i + 1) [0x00; 0x00; 0x4B; 0x42; 0x41; 0xAD; 0x31; 0x32] 0 ;; BeBytesTo64 algb 0) = Ok (leaf_name i) /\ 0 <= leaf_name i < 2 ^ 64.
Proof. intros H. do 8 (destruct i as [|i]; [vm_compute; split; [reflexivity|split; [discriminate|reflexivity]]|]). lia. Qed.
Lemma leaf_ok tmps i : st_ok tmps -> (i < 8)%nat -> kpa_leaf tmps i = Ok (xor_lanes tmps (leaf_name i :: zeros 24)) /\ st_ok (xor_lanes tmps (leaf_name i :: zeros 24)).
Proof.
  intros [L F] Hi. destruct (name_ok i Hi) as [E R]. split.
  - unfold kpa_leaf. destruct (Be16ToBytes (Z.of_nat i + 1) [0x00; 0x00; 0x4B; 0x42; 0x41; 0xAD; 0x31; 0x32] 0) as [algb| |]; try discriminate E. cbn [bind] in *. rewrite E. cbn [bind].
    destruct tmps as [|x t]; [discriminate L|]. cbn [length] in L. rewrite (get_ok _ _ 0) by (cbn [length]; lia). cbn [bind nth]. rewrite put_ok by (cbn [length]; lia). cbn [upd]. f_equal.
    unfold xor_lanes. cbn [combine map fst snd]. f_equal. symmetry. apply (xor_zeros t 24). lia.
  - apply xor_lanes_ok; [split; assumption|]. split; [cbn [length]; rewrite length_zeros; reflexivity|]. constructor; [exact R|]. apply Forall_forall. intros z Hz. apply repeat_spec in Hz. subst. red. lia.
Qed.
Lemma st_zero : st_ok (zeros 25). Proof. exact zero_state_ok. Qed.
Lemma init_ok o a key salt : pabs o a -> bytes key -> bytes salt -> short key -> short salt -> (16 <= length key)%nat ->
  exists o', KPA_Initialize o key salt = Ok o' /\ pabs o' (Some (kpa_rate key, kpa_start key salt, [])).
Proof.
  intros HA Bk Bs Sk Ss LK. unfold KPA_Initialize, KPA_MIN_KEY. replace (length key <? 16)%nat with false by (symmetry; apply Nat.ltb_ge; lia). cbn [negb guard bind].
  set (o1 := if kp_init o then KPA_Reset o else o).
  assert (HB : bytes (snd (fst (kp_st o1))) /\ length (snd (fst (kp_st o1))) = 1600%nat).
  { pose proof (pabs_buf o a HA) as HB. unfold o1. destruct (kp_init o); [|exact HB]. unfold KPA_Reset. destruct (kp_st o) as (((lv & pr) & buf) & pos). cbn [kp_st fst snd] in *. split; [apply bytes_zeros|rewrite length_zeros; apply HB]. }
  destruct (kp_st o1) as (((lv & pr) & buf) & pos). cbn [fst snd] in HB. destruct HB as [Bb Lb]. clear o1. unfold KPA_128_KEY_SIZE, KPA_256_KEY_SIZE.
  change (if (length key =? 16)%nat then 168%nat else if (length key =? 32)%nat then 136%nat else 72%nat) with (kpa_rate key). pose proof (key_rate_ok key) as HQ. pose proof (rate_bounds _ HQ) as [HR HR']. set (q := kpa_rate key) in *.
  assert (Wk : strlen_ok key) by (unfold short in Sk; unfold strlen_ok; lia). assert (Ws : strlen_ok salt) by (unfold short in Ss; unfold strlen_ok; lia).
  set (Z1 := match salt with [] => [] | _ => bytepad (encode_string salt) q end).
  assert (BZ : bytes Z1) by (unfold Z1; destruct salt; [constructor|]; apply bytepad_bytes; [lia|now apply encode_string_bytes]).
  assert (MZ : (length Z1 mod q = 0)%nat) by (unfold Z1; destruct salt; [apply Nat.mod_0_l; lia|apply bytepad_aligned; lia]).
  assert (S1 : exists pad, (if (length salt =? 0)%nat then Ok (zeros 200, zeros 25) else kpa_stage q salt (zeros 200, zeros 25)) = Ok (pad, absorb (keccak 12) q zero_state Z1) /\ bytes pad /\ length pad = 200%nat /\ st_ok (absorb (keccak 12) q zero_state Z1)).
  { unfold Z1. destruct salt as [|x salt]; [exists (zeros 200); split; [reflexivity|split; [apply bytes_zeros|split; [apply length_zeros|exact st_zero]]]|]. cbn [length Nat.eqb].
    apply (stage_ok q HR (x :: salt) (zeros 200) (zeros 25)); auto using bytes_zeros, length_zeros, st_zero. }
  destruct S1 as (pad & -> & B1 & L1 & H1). cbn [bind]. replace (length key =? 0)%nat with false by (symmetry; apply Nat.eqb_neq; lia).
  rewrite wr_ok by (rewrite length_zeros; lia). cbn [bind].
  destruct (stage_ok q HR key (splice pad 0 (zeros q)) (absorb (keccak 12) q zero_state Z1)) as (pad' & -> & B2 & L2 & H2); auto.
  { apply bytes_splice; [exact B1|apply bytes_zeros]. } { rewrite length_splice; rewrite ?length_zeros; lia. }
  cbn [bind]. rewrite <- absorb_app in * by (auto; lia).
  assert (EK : absorb (keccak 12) q zero_state (Z1 ++ bytepad (encode_string key) q) = kpa_keyed key salt) by reflexivity. rewrite EK in *. set (T := kpa_keyed key salt) in *.
  rewrite (each_ok _ (fun i => xor_lanes T (leaf_name i :: zeros 24))) by (intros i Hi; apply in_seq in Hi; apply leaf_ok; [exact H2|unfold KPA_PARALLELISM in Hi; lia]). cbn [bind].
  eexists. split; [reflexivity|].
  assert (ES : KpaPermutex8 (map (fun i => xor_lanes T (leaf_name i :: zeros 24)) (seq 0 KPA_PARALLELISM)) = kpa_start key salt).
  { unfold KpaPermutex8, kpa_start. rewrite map_map. apply map_ext_in. intros i Hi. apply in_seq in Hi. unfold KPA_PARALLELISM in Hi. apply perm_ok; [apply r12|]. apply leaf_ok; [exact H2|lia]. }
  rewrite ES.
  assert (HS : leaves_ok (kpa_start key salt)).
  { split; [unfold kpa_start; rewrite map_length, seq_length; reflexivity|]. apply Forall_forall. intros x Hx. apply in_map_iff in Hx. destruct Hx as (i & <- & Hi). apply in_seq in Hi. apply keccak_ok. apply leaf_ok; [exact H2|lia]. }
  cbn [pabs kp_init kp_rate kp_st]. split; [reflexivity|]. split; [reflexivity|]. split; [exact HQ|]. split; [exact HS|].
  apply ainv_start; auto. lia.
Qed.
(** ** Update *)
Lemma upd_ok o q A m inp io len : pabs o (Some (q, A, m)) -> bytes inp -> (io + len <= length inp)%nat ->
  exists o', KPA_Update o inp io len = Ok o' /\ pabs o' (Some (q, A, m ++ slice inp io len)).
Proof.
  intros (H1 & H2 & H3 & H4 & H5) B L. pose proof (rate_bounds q H3) as [HR HR']. unfold KPA_Update. rewrite H1. cbn [guard bind].
  replace (length inp - io <? len)%nat with false by (symmetry; apply Nat.ltb_ge; lia). rewrite Bool.andb_false_r. cbn [negb guard bind]. rewrite H2. unfold KPA_PARALLELISM.
  destruct (eager_ok (q * 8) 1600 (kpa_block q) (kg q) (fun s => leaves_ok (fst s))) with (s0 := (A, 0%nat)) (d := m) (st := kp_st o) (inp := inp) (io := io) (len := len) as (st' & E & HI); auto; [lia| |].
  { intros s b o0 K1 K2 K3. now apply kpa_block_ok. }
  rewrite E. cbn [bind]. eexists. split; [reflexivity|]. cbn [pabs kp_init kp_rate kp_st]. auto.
Qed.
(** ** Finalize *)
Lemma enc8 v : v < 2 ^ 56 -> (length (right_encode v) <= 8)%nat.
Proof. intros H. rewrite right_len. pose proof (byte_len_le v 7 ltac:(lia) H). lia. Qed.
Lemma hash_eq q : (if (q =? 168) then 64 else if (q =? 136) then 32 else 64)%nat = kpa_hash q.
Proof. unfold kpa_hash. destruct (Nat.eqb_spec q 168) as [->|]; reflexivity. Qed.
Lemma concat_hash h A : (h <= 64)%nat -> Forall st_ok A -> bytes (concat (map (fun st => firstn h (lane_bytes st)) A)) /\ length (concat (map (fun st => firstn h (lane_bytes st)) A)) = (length A * h)%nat.
Proof.
  intros Hh F. induction F as [|st A Hs F [IH1 IH2]]; [split; [constructor|reflexivity]|]. cbn [map concat]. split.
  - apply Forall_app. split; [apply bytes_firstn; exact (u64_bytes_bytes st)|exact IH1].
  - rewrite app_length, IH2, firstn_bytes_len by (auto; lia). cbn [length]. lia.
Qed.
Lemma final_ok md o q A m out oo : pabs o (Some (q, A, m)) -> (oo <= length out)%nat -> (kpa_tagsize md <= length out - oo)%nat -> short out -> 8 * Z.of_nat (length m) < 2 ^ 56 ->
  exists o', KPA_FinalizeS md o out oo = Ok (o', kpa_tag q A m (length out)) /\ pabs o' (Some (q, kpa_leaves q A m, [])) /\ length (kpa_tag q A m (length out)) = length out.
Proof.
  intros (H1 & H2 & H3 & H4 & H5) HO HT HS HM. pose proof (rate_bounds q H3) as [HR HR']. unfold short in HS. destruct o as [(((lv & pr) & buf) & pos) rt ini]. cbn [kp_st kp_init kp_rate] in *. subst ini rt.
  unfold KPA_FinalizeS. cbn [kp_st kp_init kp_rate guard bind]. replace (length out - oo <? kpa_tagsize md)%nat with false by (symmetry; apply Nat.ltb_ge; lia). rewrite Bool.andb_false_r. cbn [negb guard bind].
  destruct H5 as (Is & Bb & Lb & P & bs & Hbs & Hm & Hs). rewrite (fold_kg q HR) in Hs. injection Hs as Es Ep. cbn [fst] in Is.
  replace (pos =? length buf)%nat with false by (symmetry; apply Nat.eqb_neq; lia). rewrite clear_from_ok by lia. cbn [bind].
  set (d := slice buf 0 pos) in *. assert (Ld : length d = pos) by (unfold d; rewrite length_slice; lia). assert (Bd : bytes d) by (unfold d; now apply bytes_slice).
  set (buf1 := d ++ zeros (length buf - pos)) in *. assert (B1 : bytes buf1) by (apply Forall_app; split; [exact Bd|apply bytes_zeros]).
  assert (L1 : length buf1 = 1600%nat) by (unfold buf1; rewrite app_length, length_zeros; lia).
  rewrite hash_eq.
  destruct (kpa_leaves_blocks q HR A bs d H4 Hbs Bd ltac:(lia)) as [EL HL]. rewrite <- Hm in EL, HL. rewrite <- Es, Ld in EL.
  assert (E1 : (if (pos =? 0)%nat then Ok lv else buf0 <- clear_from buf1 pos ;; l <- FastAbsorbx8 q lv buf0 0 ;; Ok (KpaPermutex8 l)) = Ok (kpa_leaves q A m)).
  { rewrite EL. destruct (Nat.eqb_spec pos 0) as [Q|Q]; [reflexivity|]. rewrite clear_from_ok by lia. cbn [bind].
    assert (E2 : slice buf1 0 pos ++ zeros (length buf1 - pos) = buf1).
    { unfold buf1. rewrite L1 || idtac. unfold slice. cbn [skipn]. rewrite firstn_app, firstn_all2 by lia. rewrite Ld, Nat.sub_diag, firstn_O, app_nil_r. f_equal. f_equal. rewrite app_length, length_zeros. lia. }
    rewrite E2. destruct (absorb8_ok q HR lv buf1 0 Is B1 ltac:(lia)) as (l & -> & E3). cbn [bind]. rewrite E3. f_equal. f_equal.
    unfold buf1. apply (list_ext 0); [rewrite length_slice by (fold buf1; lia); rewrite app_length, length_zeros; lia|]. intros i Hi. rewrite length_slice in Hi by (fold buf1; lia). rewrite BaseLemmas.nth_slice by lia. cbn [Nat.add].
    destruct (Nat.lt_ge_cases i pos) as [W|W]; [rewrite !app_nth1 by lia; reflexivity|rewrite !app_nth2 by lia; unfold zeros; now rewrite !nth_repeat]. }
  rewrite E1. cbn [bind]. set (LV := kpa_leaves q A m) in *. destruct HL as [LL FL].
  assert (Hh : (kpa_hash q <= 64)%nat) by (unfold kpa_hash; destruct (q =? 136)%nat; lia).
  destruct (collect_ok q HR (kpa_hash q) LV Hh 0 (zeros (KPA_PARALLELISM * 64))) as (fb & -> & Bf & Lf & Ef); [apply bytes_zeros|exact FL|rewrite length_zeros, LL; unfold KPA_PARALLELISM; lia|]. cbn [bind].
  rewrite LL in Ef. rewrite length_zeros in Lf. cbn [Nat.mul Nat.add] in Ef. rewrite slice_n0 in Ef. cbn [app] in Ef.
  destruct (AbsorbLeaves_ok q HR fb (KPA_PARALLELISM * kpa_hash q) Bf ltac:(rewrite Lf; unfold KPA_PARALLELISM; lia)) as [EA HA]. change (zeros 25) with zero_state. rewrite EA. cbn [bind].
  replace (slice fb 0 (KPA_PARALLELISM * kpa_hash q)) with (concat (map (fun st => firstn (kpa_hash q) (lane_bytes st)) LV)) in * by (rewrite <- Ef; reflexivity). set (C := concat (map (fun st => firstn (kpa_hash q) (lane_bytes st)) LV)) in *.
  assert (BC : bytes C) by (apply concat_hash; assumption).
  replace (u64 (8 * Z.of_nat (length out))) with (8 * Z.of_nat (length out)) by (unfold u64; rewrite Z.mod_small; lia).
  assert (EP : (pr + pos)%nat = length m) by (rewrite Hm, app_length, (concat_len (q * 8)), Ld, Ep by assumption; lia). rewrite EP.
  replace (u64 (8 * Z.of_nat (length m))) with (8 * Z.of_nat (length m)) by (unfold u64; rewrite Z.mod_small; lia).
  set (e1 := right_encode (8 * Z.of_nat (length out))). set (e2 := right_encode (8 * Z.of_nat (length m))).
  pose proof (enc8 (8 * Z.of_nat (length out)) HS) as K1. pose proof (enc8 (8 * Z.of_nat (length m)) HM) as K2.
  assert (Be1 : bytes e1) by (apply right_bytes; lia). assert (Be2 : bytes e2) by (apply right_bytes; lia).
  rewrite RightEncode_ok by (rewrite ?length_zeros; lia). cbn [bind]. fold e1 in K1 |- *. fold e2 in K2.
  rewrite RightEncode_ok by (rewrite ?length_splice; rewrite ?length_zeros; fold e2; lia). cbn [bind]. fold e2.
  set (pb := splice (splice (zeros 16) 0 e1) (length e1) e2). assert (Lpb : length pb = 16%nat) by (unfold pb; rewrite !length_splice; rewrite ?length_splice; rewrite ?length_zeros; lia).
  rewrite wcopy_ok by (rewrite ?length_zeros; lia). cbn [bind].
  assert (EB : slice pb 0 (length e1 + length e2) = e1 ++ e2).
  { unfold pb. rewrite (slice_wcopy_front _ _ e2) by (rewrite ?length_splice; rewrite ?length_zeros; lia). f_equal. rewrite slice_splice_same by (rewrite length_zeros; lia). reflexivity. }
  rewrite EB, L1. set (dd := e1 ++ e2). assert (Ldd : length dd = (length e1 + length e2)%nat) by (unfold dd; rewrite app_length; reflexivity). rewrite <- Ldd.
  rewrite put_ok by (rewrite length_splice; rewrite length_zeros; lia). cbn [bind].
  destruct (msg_last q 0x41 dd (splice (zeros 1600) 0 dd)) as (msg & E4 & E5 & E6 & E7).
  - rewrite length_splice; rewrite length_zeros; lia.
  - rewrite slice_splice_same by (rewrite length_zeros; lia). reflexivity.
  - intros i Hi. rewrite nth_splice by (rewrite length_zeros; lia). destruct (Nat.ltb_spec i 0); [lia|]. destruct (Nat.ltb_spec i (0 + length dd)); [lia|]. unfold zeros. apply nth_repeat.
  - rewrite E4. cbn [bind]. assert (L6 : length msg = 1600%nat) by (rewrite E6, length_splice; rewrite length_zeros; lia).
    assert (Bdd : bytes dd) by (apply Forall_app; split; assumption).
    destruct (absorb_last 12 q 0x41 (absorb (keccak 12) q zero_state (zero_fill q C)) [] dd msg) as (st' & E8 & HAb); auto; try lia; try (red; lia).
    { apply E7; [apply bytes_splice; [apply bytes_zeros|exact Bdd]|red; lia]. }
    cbn [fold_left] in E8. rewrite E8. cbn [bind]. cbn [concat app] in HAb.
    apply absorbed_app in HAb; [|lia|apply Forall_app; split; [exact BC|apply bytes_zeros]|exact (fill_aligned q C ltac:(lia))].
    rewrite squeeze_loop_ok; try apply r12; try lia; [|apply HAb]. cbn [bind].
    assert (ET : kpa_tag q A m (length out) = stream 12 q st' (length out)).
    { unfold kpa_tag, kpa_root. fold LV. fold C. fold e1 e2. fold dd. apply (sponge_stream _ _ _ _ _ _ _ HAb). }
    assert (LT : length (kpa_tag q A m (length out)) = length out) by (rewrite ET; apply stream_len; [lia|apply HAb]).
    rewrite <- ET. eexists. split; [|split; [|exact LT]].
    + f_equal. f_equal. unfold splice. cbn [firstn app Nat.add]. rewrite LT, skipn_all, app_nil_r. reflexivity.
    + cbn [pabs kp_init kp_rate kp_st]. split; [reflexivity|]. split; [reflexivity|]. split; [exact H3|]. split; [split; assumption|]. rewrite L6.
      apply ainv_start; [lia|split; assumption|apply bytes_zeros|apply length_zeros].
Qed.
