(** CMAC refines SP 800-38B. *)
From Verif Require Import BaseLemmas Spec_Common Proofs_Common Spec_Feed Spec_MAC Model_IntegerTools Proofs_IntegerTools2 Model_Modes Proofs_Windows Proofs_Modes5
  Model_Absorb Proofs_Absorb Model_CMAC Session_Digest Session_Mac Session_MacObjs Proofs_Mac.
Open Scope Z_scope.

Definition b16 (b : list Z) : Prop := bytes b /\ length b = 16%nat.
Lemma b16_zeros : b16 (zeros 16). Proof. split; [apply bytes_zeros|apply length_zeros]. Qed.
Lemma b16_xorl a b : b16 a -> b16 b -> b16 (xorl a b).
Proof. intros (A & B) (C & D). split; [now apply bytes_xorl|]. rewrite length_xorl. lia. Qed.
Lemma b16_dbl b : b16 (dbl b). Proof. split; [apply bytes_be_bytes|apply length_be_bytes]. Qed.

Lemma upd_last_xor l x : b16 l -> is_byte x -> upd l 15 (Z.lxor (nth 15 l 0) x) = be_bytes 16 (Z.lxor (be_val l) x).
Proof.
  intros (Hb & Hl) Hx.
  assert (D : l = firstn 15 l ++ [nth 15 l 0]).
  { rewrite <- (firstn_skipn 15 l) at 1. f_equal. do 16 (destruct l as [|? l]; [discriminate|]). destruct l; [reflexivity|discriminate]. }
  pose proof (bytes_nth l 15 Hb) as Hz. set (z := nth 15 l 0) in *. set (p := firstn 15 l) in *.
  assert (Lp : length p = 15%nat) by (unfold p; rewrite firstn_length; lia).
  assert (Bp : bytes p) by now apply bytes_firstn. clearbody z p. subst l. clear Hb Hl.
  rewrite upd_split by (rewrite app_length, Lp; cbn; lia).
  rewrite firstn_app, skipn_app, Lp. rewrite firstn_all2 by lia. rewrite skipn_all2 by lia. cbn [Nat.sub firstn skipn app]. rewrite app_nil_r.
  assert (X : Z.lxor (be_val (p ++ [z])) x = be_val (p ++ [Z.lxor z x])).
  { rewrite !be_val_app. cbn [length]. change (256 ^ Z.of_nat 1) with (2 ^ 8). change (be_val [z]) with (z + 256 * 0). change (be_val [Z.lxor z x]) with (Z.lxor z x + 256 * 0).
    pose proof (lxor_byte z x Hz Hx) as Hzx. unfold is_byte in *. rewrite !Z.mul_0_r, !Z.add_0_r.
    pose proof (be_val_range p Bp) as HB. set (q := be_val p) in *. clearbody q.
    rewrite <- !lor_shiftl_add by (change (2^8) with 256; lia).
    apply Z.bits_inj'. intros i Hi. rewrite Z.lxor_spec, !Z.lor_spec, Z.lxor_spec.
    destruct (Z_lt_le_dec i 8).
    - rewrite Z.shiftl_spec_low by lia. now rewrite !orb_false_r.
    - rewrite (testbit_high 8 z), (testbit_high 8 x) by (change (2^8) with 256; lia). cbn [xorb orb]. now rewrite xorb_false_r. }
  rewrite X. replace 16%nat with (length (p ++ [Z.lxor z x])) by (rewrite app_length, Lp; reflexivity).
  rewrite be_bytes_be_val; [reflexivity|]. apply bytes_app. split; [exact Bp|]. constructor; [|constructor]. now apply lxor_byte.
Qed.
Lemma DoubleLu_ok b o : b16 b -> length o = 16%nat -> DoubleLu b o = Ok (dbl b).
Proof.
  intros (Hb & Hl) Ho. unfold DoubleLu.
  destruct (ShiftLeft_correct b o Hb) as (r & c & -> & Hc & Lr & Br & V); [intros ->; discriminate|lia|]. cbn [bind].
  rewrite Hl in *. cbn [Nat.sub]. rewrite (get_ok r 15 0) by lia. cbn [bind]. rewrite put_ok by lia. f_equal.
  assert (K : is_byte (u8 (wshr 0x87 (Z.shiftl (1 - c) 3))) /\ u8 (wshr 0x87 (Z.shiftl (1 - c) 3)) = if c =? 1 then 0x87 else 0).
  { assert (Hc' : c = 0 \/ c = 1) by lia. destruct Hc' as [-> | ->]; (split; [split; [vm_compute; discriminate|vm_compute; reflexivity]|reflexivity]). }
  destruct K as (K1 & K2). rewrite upd_last_xor by first [assumption | split; assumption]. rewrite K2. unfold dbl. f_equal.
  pose proof (be_val_range r Br) as HR. pose proof (be_val_range b Hb) as HB. rewrite Lr in HR. rewrite Hl in HB.
  change (256 ^ Z.of_nat 16) with (2 ^ 128) in *. set (vb := be_val b) in *. set (vr := be_val r) in *. clearbody vb vr.
  change (2 ^ 127) with 170141183460469231731687303715884105728. change (2 ^ 128) with 340282366920938463463374607431768211456 in *.
  destruct (Z.ltb_spec vb 170141183460469231731687303715884105728).
  - assert (c = 0) by lia. subst c. cbn [Z.eqb]. rewrite Z.lxor_0_r. lia.
  - assert (c = 1) by lia. subst c. change (1 =? 1) with true. cbn iota. f_equal. lia.
Qed.

Section cmac.
Context (E : list Z -> list Z -> list Z) (legal : nat -> bool).
Hypothesis HE : forall k b, b16 b -> b16 (E k b).

Definition cg (k : list Z) (s : list Z * list Z) (b : list Z) : list Z * list Z := let c := E k (xorl (fst s) b) in (c, c).
Definition cI (s : list Z * list Z) : Prop := b16 (fst s) /\ b16 (snd s).
Lemma block_step k s b o : cI s -> bytes b -> (o + 16 <= length b)%nat -> CMAC_block E k s b o = Ok (cg k s (slice b o 16)) /\ cI (cg k s (slice b o 16)).
Proof.
  intros ((B1 & L1) & (B2 & L2)) Hb Ho. unfold CMAC_block, CBC_Encrypt128, src.
  assert (S16 : b16 (slice b o 16)) by (split; [now apply bytes_slice|apply length_slice; lia]). destruct S16 as (S1 & S2).
  rewrite wxor_ok by lia. cbn [bind]. rewrite (slice_all (fst s)) by lia. rewrite splice_all by (rewrite length_xorl; lia).
  set (x := xorl (fst s) (slice b o 16)). assert (Hx : b16 x) by (apply b16_xorl; split; auto).
  destruct (HE k x Hx) as (E1 & E2). destruct Hx as (X1 & X2).
  rewrite blk_ok by (try rewrite slice_all; lia). cbn [bind]. rewrite (slice_all x) by lia. rewrite splice_all by lia.
  rewrite wcopy16 by lia. cbn [bind fst snd]. unfold cg. fold x. split; [reflexivity|]. split; split; auto.
Qed.
Lemma wxor16 a b : length a = 16%nat -> length b = 16%nat -> wxor a 0 b 0 16 = Ok (xorl b a).
Proof. intros. rewrite wxor_ok by lia. rewrite !slice_all by lia. rewrite splice_all by (rewrite length_xorl; lia). reflexivity. Qed.
Lemma pad_ok buf pos : b16 buf -> (pos <= 16)%nat ->
  exists r, CMAC_Pad buf pos (length buf) = Ok r /\ b16 r /\ r = if (pos =? 16)%nat then slice buf 0 pos else slice buf 0 pos ++ 128 :: zeros (15 - pos).
Proof.
  intros (Hb & Hl) Hp. unfold CMAC_Pad. rewrite Hl. destruct (Nat.eqb_spec pos 16) as [->|N].
  - exists buf. rewrite slice_all by lia. repeat split; auto.
  - rewrite put_ok by lia. cbn [bind]. rewrite wr_ok by (rewrite length_upd, length_zeros; lia). eexists. split; [reflexivity|].
    assert (Eq : splice (upd buf pos 128) (pos + 1) (zeros (16 - (pos + 1))) = slice buf 0 pos ++ 128 :: zeros (15 - pos)).
    { unfold splice. rewrite length_zeros. rewrite (skipn_all2 (n := _)) by (rewrite length_upd; lia). rewrite app_nil_r.
      rewrite upd_split by lia. replace (firstn pos buf ++ 128 :: skipn (S pos) buf) with ((firstn pos buf ++ [128]) ++ skipn (S pos) buf) by (rewrite <- app_assoc; reflexivity).
      rewrite firstn_app, app_length, firstn_length. cbn [length]. rewrite firstn_all2 by (rewrite app_length, firstn_length; cbn [length]; lia).
      replace (pos + 1 - (Nat.min pos (length buf) + 1))%nat with 0%nat by lia. cbn [firstn]. rewrite app_nil_r, <- app_assoc. cbn [app]. unfold slice. cbn [skipn]. do 3 f_equal. lia. }
    rewrite Eq. split; [|reflexivity]. split.
    + apply bytes_app. split; [now apply bytes_slice|]. constructor; [unfold is_byte; lia|apply bytes_zeros].
    + rewrite app_length, length_slice by lia. cbn [length]. rewrite length_zeros. lia.
Qed.

(** the whole chain *)
Lemma chain_ok k bs : Forall (blk 16) bs -> forall c st t, (length t <= 16)%nat -> (bs <> [] -> t <> []) ->
  cmac_chain (E k) c (chunks 16 (concat bs ++ t)) = E k (xorl (fst (fold_left (cg k) bs (c, st))) (last_block (E k) t)).
Proof.
  induction bs as [|b bs IH]; intros HF c st t Ht Hn.
  - cbn [concat app fold_left fst]. destruct t as [|x t]; [reflexivity|]. rewrite chunks_cons by (try discriminate; lia).
    rewrite firstn_all2, skipn_all2 by lia. rewrite chunks_nil. reflexivity.
  - inversion HF as [|? ? (B1 & B2) HF']; subst. cbn [concat fold_left]. rewrite <- app_assoc, chunks_app by lia.
    assert (N : concat bs ++ t <> []) by (intros Q; apply app_eq_nil in Q; destruct Q as (_ & Q); now apply Hn in Q).
    destruct (chunks 16 (concat bs ++ t)) as [|d ds] eqn:D; [rewrite chunks_cons in D by (auto; lia); discriminate|].
    change (cmac_chain (E k) c (b :: d :: ds)) with (cmac_chain (E k) (E k (xorl c b)) (d :: ds)). rewrite <- D.
    rewrite (IH HF' _ (E k (xorl c b)) t Ht); [reflexivity|]. intros _. apply Hn. discriminate.
Qed.

(** ** the abstraction relation *)
Definition k1 k := dbl (E k (zeros 16)).
Definition cst (o : cmac_obj) := ((c_iv o, c_state o), c_buf o, c_pos o).
Definition core (o : cmac_obj) (s0 : list Z * list Z) (d : list Z) : Prop :=
  c_init o = true /\ b16 (c_k1 o) /\ b16 (c_k2 o) /\ ainv 16 16 (cg (c_key o)) cI true s0 d (cst o).
Definition CR (st : mstate) (o : cmac_obj) : Prop :=
  match st with
  | MNone => c_init o = false /\ b16 (c_state o) /\ c_buf o = zeros 16 /\ c_pos o = 0%nat
  | MOn k m => exists s, b16 s /\ core o (zeros 16, s) m /\ c_key o = k /\ c_k1 o = k1 k /\ c_k2 o = dbl (k1 k)
  | MSpent => exists s0 d, core o s0 d
  end.
Lemma reset_CR o : exists o', CMAC_Reset o = Ok o' /\ CR MNone o'.
Proof. eexists. split; [reflexivity|]. repeat split; auto using b16_zeros; cbn [c_state]; try apply bytes_zeros. Qed.
Lemma init_fresh o key : CR MNone o -> (16 <= length key)%nat -> legal (length key) = true ->
  exists o', CMAC_Initialize E legal o key = Ok (o', None) /\ CR (MOn key []) o'.
Proof.
  intros (I1 & I2 & I3 & I4) L G. unfold CMAC_Initialize. replace (length key <? 16)%nat with false by (symmetry; apply Nat.ltb_ge; lia).
  rewrite I1. cbn [bind]. rewrite G. cbn [negb].
  destruct (block_step key (zeros 16, zeros 16) (zeros 16) 0) as (Q & _); [split; apply b16_zeros|apply bytes_zeros|rewrite length_zeros; lia|].
  unfold CMAC_block in Q. cbn [fst snd] in Q. destruct (CBC_Encrypt128 _ _ _ _ _ _) as [(lu & iv)| |]; try discriminate. cbn [bind fst snd] in *.
  unfold cg in Q. cbn [fst] in Q. rewrite slice_all in Q by reflexivity. injection Q as -> ->. change (xorl (zeros 16) (zeros 16)) with (zeros 16).
  pose proof (HE key (zeros 16) b16_zeros) as H0.
  rewrite DoubleLu_ok by (auto; apply length_zeros). cbn [bind]. rewrite DoubleLu_ok by (auto using b16_dbl; apply length_zeros). cbn [bind].
  eexists. split; [reflexivity|]. exists (c_state o). split; [exact I2|]. unfold core, cst. cbn [c_init c_k1 c_k2 c_key c_iv c_state c_buf c_pos]. rewrite I3, I4.
  split; [|repeat split; reflexivity]. split; [reflexivity|]. split; [apply b16_dbl|]. split; [apply b16_dbl|].
  apply ainv_start; [lia|split; [apply b16_zeros|exact I2]|apply bytes_zeros|apply length_zeros].
Qed.
Lemma core_weak o s0 d : core o s0 d -> cI (c_iv o, c_state o) /\ b16 (c_buf o) /\ (c_pos o <= 16)%nat.
Proof. intros (_ & _ & _ & (Is & Bb & Lb & (P & _) & _)). repeat split; auto; apply Is. Qed.
(** the tag a Finalize call writes *)
Definition tag_of (o : cmac_obj) : list Z :=
  let t := slice (c_buf o) 0 (c_pos o) in
  E (c_key o) (xorl (c_iv o) (if (c_pos o =? 16)%nat then xorl t (c_k1 o) else xorl (t ++ 128 :: zeros (15 - c_pos o)) (c_k2 o))).
Lemma final_core o s0 d out oo : core o s0 d -> (oo + 16 <= length out)%nat ->
  exists o', CMAC_Finalize E o out oo = Ok (o', splice out oo (tag_of o)) /\ (exists s1 d1, core o' s1 d1) /\ b16 (tag_of o).
Proof.
  intros C Ho. destruct (core_weak o s0 d C) as (Is & (Bb & Lb) & P). destruct C as (C1 & (C2 & C2') & (C3 & C3') & _).
  unfold CMAC_Finalize. rewrite C1. cbn [guard bind]. rewrite window_ok by lia. replace (oo + 16 <=? length out)%nat with true by (symmetry; apply Nat.leb_le; lia). cbn [guard bind].
  destruct (pad_ok (c_buf o) (c_pos o)) as (r & -> & (R1 & R2) & Er); [split; auto|auto|]. cbn [bind].
  set (buf := if (c_pos o =? 16)%nat then xorl (slice (c_buf o) 0 (c_pos o)) (c_k1 o) else xorl (slice (c_buf o) 0 (c_pos o) ++ 128 :: zeros (15 - c_pos o)) (c_k2 o)).
  assert (HB : (if negb (c_pos o =? 16)%nat then wxor (c_k2 o) 0 r 0 16 else wxor (c_k1 o) 0 r 0 16) = Ok buf /\ b16 buf).
  { unfold buf. destruct (c_pos o =? 16)%nat eqn:Ep; cbn [negb]; rewrite wxor16 by auto; rewrite <- Er; split; auto; apply b16_xorl; split; auto. }
  destruct HB as (-> & (B1 & B2)). cbn [bind]. destruct (block_step (c_key o) (c_iv o, c_state o) buf 0 Is B1 ltac:(lia)) as (-> & I2).
  cbn [bind]. rewrite (slice_all buf) in * by lia. unfold cg in *. cbn [fst] in *. fold (tag_of o) in *.
  assert (TE : E (c_key o) (xorl (c_iv o) buf) = tag_of o) by reflexivity. rewrite TE in *.
  destruct I2 as ((T1 & T2) & _). cbn [fst] in *. rewrite wcopy_ok by lia. cbn [bind]. rewrite (slice_all (tag_of o)) by lia.
  eexists. split; [reflexivity|]. split; [|split; auto].
  exists (tag_of o, tag_of o), (slice buf 0 (c_pos o)). unfold core, cst. cbn [c_init c_k1 c_k2 c_key c_iv c_state c_buf c_pos].
  split; [reflexivity|]. split; [split; auto|]. split; [split; auto|].
  split; [split; split; auto|]. split; [exact B1|]. split; [exact B2|]. split.
  - split; [exact P|]. intros N. destruct (c_pos o); [now rewrite slice_n0 in N|lia].
  - exists []. split; [constructor|]. split; reflexivity.
Qed.
Lemma tag_cmac k m o : CR (MOn k m) o -> tag_of o = cmac (E k) m.
Proof.
  intros (s & Bs & (_ & _ & _ & A) & K & K1 & K2). unfold cst in A. cbn [ainv] in A. destruct A as (Is & Bb & Lb & (P & P') & bs & Hbs & Hd & Hs).
  unfold cmac. rewrite Hd. rewrite (chain_ok k bs Hbs (zeros 16) s).
  - unfold tag_of. rewrite K in *. rewrite <- Hs. cbn [fst]. do 2 f_equal. unfold last_block. rewrite length_slice by lia. fold (k1 k). rewrite K1, K2. reflexivity.
  - rewrite length_slice; lia.
  - intros N Q. apply N. destruct bs as [|b bs]; [reflexivity|exfalso]. assert (Hm : m <> []).
    { rewrite Hd. inversion Hbs as [|? ? (_ & Lb0) _]; subst. destruct b; [discriminate|]. discriminate. }
    specialize (P' Hm). assert (length (slice (c_buf o) 0 (c_pos o)) = 0%nat) by now rewrite Q. rewrite length_slice in H by lia. lia.
Qed.
Lemma upd_core o s0 d p : core o s0 d -> (p_off p + p_len p <= length (p_in p))%nat -> bytes (p_in p) ->
  exists o', CMAC_Update E o (p_in p) (p_off p) (p_len p) = Ok o' /\ core o' s0 (d ++ p_data p) /\ c_key o' = c_key o /\ c_k1 o' = c_k1 o /\ c_k2 o' = c_k2 o.
Proof.
  intros (C1 & C2 & C3 & C4) L B. unfold CMAC_Update. rewrite C1. cbn [guard bind]. rewrite window_ok by lia. rewrite (proj2 (Nat.leb_le _ _) L). cbn [guard bind].
  destruct (lazy_ok 16 16 (CMAC_block E (c_key o)) (cg (c_key o)) cI ltac:(lia) (block_step (c_key o)) s0 d (cst o) (p_in p) (p_off p) (p_len p) C4 B L) as (st' & E' & A').
  unfold cst in E'. rewrite E'. cbn [bind]. destruct st' as (((iv & s) & buf) & pos). eexists. split; [reflexivity|].
  unfold core, cst. cbn [c_init c_k1 c_k2 c_key c_iv c_state c_buf c_pos]. repeat (split; auto).
Qed.
Lemma due_on k m o : CR (MOn k m) o -> b16 (tag_of o) -> due (cmac_mac_spec E legal) (MOn k m) (tag_of o).
Proof. intros H (_ & L). split; [exact L|]. now apply tag_cmac. Qed.

Lemma core_of st o : CR st o -> st <> MNone -> exists s0 d, core o s0 d.
Proof. intros H N. destruct st as [|k m|]; [congruence| |exact H]. destruct H as (s & _ & C & _). eauto. Qed.
Lemma due_of st o : CR st o -> st <> MNone -> b16 (tag_of o) -> due (cmac_mac_spec E legal) st (tag_of o).
Proof. intros H N B. destruct st as [|k m|]; [congruence|now apply due_on|split; [apply B|exact I]]. Qed.
Lemma upd_CR st o p : CR st o -> st <> MNone -> (p_off p + p_len p <= length (p_in p))%nat -> bytes (p_in p) ->
  exists o', CMAC_Update E o (p_in p) (p_off p) (p_len p) = Ok o' /\ CR (add st (p_data p)) o'.
Proof.
  intros H N L B. destruct st as [|k m|]; [congruence| |]; cbn [add].
  - destruct H as (s & Bs & C & K & K1 & K2). destruct (upd_core o _ _ p C L B) as (o' & -> & C' & Q1 & Q2 & Q3). exists o'. split; [reflexivity|].
    exists s. rewrite Q1, Q2, Q3. auto.
  - destruct H as (s0 & d & C). destruct (upd_core o _ _ p C L B) as (o' & -> & C' & _). exists o'. split; [reflexivity|]. red. eauto.
Qed.
Lemma init_of st o : CR st o -> st <> MNone -> c_init o = true.
Proof. intros H N. destruct (core_of st o H N) as (s0 & d & C). apply C. Qed.

Ltac mfin := cbn [bind fst snd caught guard negb after_final after_secure compute_shrinks cmac_mac_spec]; auto.
Lemma cmac_step st o c : CR st o -> mcall_ok 16 c ->
  exists o' r, mstep (cmac_ops E legal) o c = Ok (o', r) /\ snd (mspec (cmac_mac_spec E legal) st c) r /\ CR (fst (mspec (cmac_mac_spec E legal) st c)) o'.
Proof.
  intros H HC. destruct c as [key|p|out oo|out oo|inp out|]; cbn [mcall_ok] in HC.
  - cbn [mstep cmac_ops m_init mspec cmac_mac_spec minkey legal_key].
    destruct (Nat.ltb_spec (length key) 16) as [L|L].
    { exists o, (Failed InvalidKey). unfold CMAC_Initialize. rewrite (proj2 (Nat.ltb_lt _ _) L). mfin. }
    assert (exists o1, CR MNone o1 /\ (if c_init o then CMAC_Reset o else Ok o) = Ok o1 /\ CMAC_Initialize E legal o key = CMAC_Initialize E legal o1 key) as (o1 & R1 & E1 & E2).
    { destruct st as [|k m|].
      - exists o. split; [exact H|]. destruct H as (-> & _). auto.
      - destruct (reset_CR o) as (o1 & Er & R1). exists o1. split; [exact R1|]. rewrite (init_of _ _ H) by discriminate. split; [exact Er|].
        unfold CMAC_Initialize. rewrite (init_of _ _ H), Er by discriminate. destruct R1 as (-> & _). rewrite (proj2 (Nat.ltb_ge _ _) L). reflexivity.
      - destruct (reset_CR o) as (o1 & Er & R1). exists o1. split; [exact R1|]. rewrite (init_of _ _ H) by discriminate. split; [exact Er|].
        unfold CMAC_Initialize. rewrite (init_of _ _ H), Er by discriminate. destruct R1 as (-> & _). rewrite (proj2 (Nat.ltb_ge _ _) L). reflexivity. }
    rewrite E2. destruct (legal (length key)) eqn:G.
    + destruct (init_fresh o1 key R1 L G) as (o' & -> & R'). exists o', Done. mfin.
    + exists o1, (Failed InvalidKey). unfold CMAC_Initialize. rewrite (proj2 (Nat.ltb_ge _ _) L). rewrite (proj1 R1 : c_init o1 = false). cbn [bind]. rewrite G. mfin.
  - destruct HC as (HO & HB). cbn [mstep cmac_ops m_upd mspec]. destruct (match st with MNone => true | _ => false end) eqn:Est.
    + destruct st; try discriminate. exists o, (Failed NotInitialized). unfold CMAC_Update. rewrite (proj1 H : c_init o = false). mfin.
    + assert (N : st <> MNone) by (intros ->; discriminate). destruct (Nat.leb_spec (p_off p + p_len p) (length (p_in p))) as [L|L].
      * destruct (upd_CR st o p H N L HB) as (o' & -> & C'). exists o', Done. destruct st; [congruence| |]; mfin.
      * exists o, (Failed InvalidSize). unfold CMAC_Update. rewrite (init_of st o H N). cbn [guard bind]. rewrite window_ok by lia. rewrite (proj2 (Nat.leb_gt _ _) L). cbn [guard bind].
        destruct st; [congruence| |]; mfin.
  - cbn [mstep cmac_ops m_fin mspec]. destruct (match st with MNone => true | _ => false end) eqn:Est.
    + destruct st; try discriminate. exists o, (Failed NotInitialized). unfold CMAC_Finalize. rewrite (proj1 H : c_init o = false). mfin.
    + assert (N : st <> MNone) by (intros ->; discriminate). cbn [tagsize cmac_mac_spec]. destruct (Nat.leb_spec (oo + 16) (length out)) as [L|L].
      * destruct (core_of st o H N) as (s0 & d & C). destruct (final_core o s0 d out oo C L) as (o' & -> & C' & T). exists o', (Wrote (splice out oo (tag_of o))). cbn [caught].
        split; [reflexivity|]. assert (Q : exists out' t, Wrote (splice out oo (tag_of o)) = Wrote out' /\ due (cmac_mac_spec E legal) st t /\ written out out' oo t).
        { eexists; exists (tag_of o). split; [reflexivity|]. split; [now apply due_of|]. apply splice_written. destruct T as (_ & ->). lia. }
        destruct st; [congruence| |]; cbn [fst snd after_final cmac_mac_spec]; auto.
      * exists o, (Failed InvalidSize). unfold CMAC_Finalize. rewrite (init_of st o H N). cbn [guard bind]. rewrite window_ok by lia. rewrite (proj2 (Nat.leb_gt _ _) L). cbn [guard bind].
        destruct st; [congruence| |]; mfin.
  - cbn [mstep cmac_ops m_sec mspec]. destruct (match st with MNone => true | _ => false end) eqn:Est.
    + destruct st; try discriminate. exists o, (Failed NotInitialized). unfold CMAC_FinalizeS, CMAC_Finalize. rewrite (proj1 H : c_init o = false). mfin.
    + assert (N : st <> MNone) by (intros ->; discriminate). destruct (core_of st o H N) as (s0 & d & C).
      destruct (final_core o s0 d (zeros 16) 0 C) as (o' & E' & C' & T); [rewrite length_zeros; lia|]. unfold CMAC_FinalizeS. rewrite E'. cbn [bind].
      assert (LT : length (tag_of o) = 16%nat) by apply T. rewrite splice_all by (rewrite length_zeros; lia). rewrite wcopy_ok by lia. cbn [bind]. rewrite slice_all by lia.
      destruct (reset_CR o') as (o2 & -> & R2). cbn [bind caught]. exists o2, (Wrote (splice out oo (tag_of o))). split; [reflexivity|].
      assert (Q : exists out' t, Wrote (splice out oo (tag_of o)) = Wrote out' /\ due (cmac_mac_spec E legal) st t /\ written out out' oo t).
      { eexists; exists (tag_of o). split; [reflexivity|]. split; [now apply due_of|]. apply splice_written. lia. }
      destruct st; [congruence| |]; cbn [fst snd after_secure cmac_mac_spec]; auto.
  - cbn [mstep cmac_ops m_comp mspec]. destruct (match st with MNone => true | _ => false end) eqn:Est.
    + destruct st; try discriminate. exists o, (Failed NotInitialized). unfold CMAC_Compute. rewrite (proj1 H : c_init o = false). mfin.
    + assert (N : st <> MNone) by (intros ->; discriminate). cbn [tagsize cmac_mac_spec]. unfold CMAC_Compute. rewrite (init_of st o H N). cbn [guard bind].
      destruct (Nat.leb_spec 16 (length out)) as [L|L].
      * rewrite (proj2 (Nat.ltb_ge _ _) L). cbn [negb guard bind].
        destruct (upd_CR st o (Piece inp 0 (length inp)) H N) as (o1 & E1 & C1); [cbn; lia|exact HC|]. cbn [p_in p_off p_len] in E1. rewrite E1. cbn [bind].
        unfold p_data in C1. cbn [p_in p_off p_len] in C1. rewrite slice_all in C1 by reflexivity.
        assert (N1 : add st inp <> MNone) by (destruct st; cbn; congruence).
        destruct (core_of _ o1 C1 N1) as (s0 & d & C). assert (L16 : length (firstn 16 out) = 16%nat) by (rewrite firstn_length; lia).
        destruct (final_core o1 s0 d (firstn 16 out) 0 C ltac:(lia)) as (o' & -> & C' & T). assert (LT : length (tag_of o1) = 16%nat) by apply T.
        rewrite splice_all by lia. cbn [caught]. exists o', (Wrote (tag_of o1)). split; [reflexivity|].
        assert (Q : exists out' t, Wrote (tag_of o1) = Wrote out' /\ due (cmac_mac_spec E legal) (add st inp) t /\ out' = t).
        { eexists; exists (tag_of o1). split; [reflexivity|]. split; [now apply due_of|reflexivity]. }
        destruct st; [congruence| |]; cbn [fst snd after_final compute_shrinks cmac_mac_spec]; auto.
      * rewrite (proj2 (Nat.ltb_lt _ _) L). cbn [negb guard bind caught]. exists o, (Failed InvalidSize). destruct st; [congruence| |]; mfin.
  - cbn [mstep cmac_ops m_reset mspec]. destruct (reset_CR o) as (o' & -> & R'). exists o', Done. mfin.
Qed.
Lemma cmac_new_CR : CR MNone CMAC_new.
Proof. repeat split; auto. apply bytes_zeros. Qed.
Lemma c26_hist cs : Forall (mcall_ok 16) cs -> exists rs, mhistory (cmac_ops E legal) CMAC_new cs = Ok rs /\ mexpected (cmac_mac_spec E legal) MNone cs rs.
Proof. intros H. exact (mhistory_ok (cmac_ops E legal) (cmac_mac_spec E legal) 16 CR cmac_step cs MNone CMAC_new cmac_new_CR H). Qed.
End cmac.
