(** KDF2 and PBKDF2. *)
From Verif Require Import BaseLemmas Spec_Common Proofs_Common Spec_Feed Spec_MAC Spec_KDF Model_IntegerTools Proofs_IntegerTools Model_Modes Proofs_Windows Model_HMAC Model_KDF Session_Digest Session_Mac Session_MacObjs Session_Kdf Proofs_Mac Proofs_HMAC Proofs_KDF.
Open Scope Z_scope.

Lemma request_ok {O P} (S : kdf_spec P) (R : kstate P -> O -> Prop) st o out oo len (r : res (O * list Z)) n : (0 < n)%nat ->
  R st o ->
  (forall p i, length (ks_block S p i) = n) -> (blocks_for n len <= ks_count S len)%nat ->
  (forall l, st = KIdle l -> r = Throw NotInitialized) ->
  (forall p k, st = KOn p k -> match ks_refuse S p k len (oo + len <=? length out)%nat with
     | Some e => r = Throw e
     | None => (oo + len <= length out)%nat /\ exists o', r = Ok (o', splice out oo (firstn len (blocks_from (ks_block S p) k (ks_count S len)))) /\ R (KOn p (k + ks_count S len)) o' end) ->
  exists o' r', caught o r = Ok (o', r') /\ snd (request S st out oo len) r' /\ R (fst (request S st out oo len)) o'.
Proof.
  intros Hn HO HB HC F1 F2. destruct st as [l|p k]; cbn [request].
  - rewrite (F1 l eq_refl). cbn [caught fst snd]. eexists _, _. split; [reflexivity|]. auto.
  - specialize (F2 p k eq_refl). destruct (ks_refuse S p k len _) as [e|].
    + rewrite F2. cbn [caught fst snd]. eexists _, _. split; [reflexivity|]. auto.
    + destruct F2 as (L & o' & -> & R'). cbn [caught fst snd]. eexists _, _. split; [reflexivity|]. split; [|exact R']. eexists. split; [reflexivity|]. apply splice_written.
      rewrite (request_len (ks_block S p) n); auto.
Qed.
(** a do/while request: at least one block *)
Lemma do_step (B : nat -> list Z) n k rem : (0 < n)%nat -> (forall i, length (B i) = n) ->
  firstn rem (blocks_from B k (Nat.max 1 (blocks_for n rem))) =
    firstn (Nat.min n rem) (B k) ++ (if (rem - Nat.min n rem =? 0)%nat then [] else firstn (rem - Nat.min n rem) (blocks_from B (S k) (Nat.max 1 (blocks_for n (rem - Nat.min n rem))))).
Proof.
  intros Hn HB. destruct (Nat.eq_dec rem 0) as [->|NZ].
  - rewrite Nat.min_0_r, Nat.sub_diag, !firstn_O. reflexivity.
  - rewrite Nat.max_r by (rewrite (blocks_for_S n rem) by lia; lia). rewrite (blocks_step B n k rem) by (auto; lia). f_equal. destruct (Nat.eqb_spec (rem - Nat.min n rem) 0) as [E|E]; [now rewrite E, firstn_O|].
    rewrite Nat.max_r; [reflexivity|]. rewrite (blocks_for_S n (rem - Nat.min n rem)) by lia. lia.
Qed.
Lemma do_count n rem : (0 < n)%nat -> Nat.max 1 (blocks_for n rem) = S (if (rem - Nat.min n rem =? 0)%nat then 0 else Nat.max 1 (blocks_for n (rem - Nat.min n rem)))%nat.
Proof.
  intros Hn. destruct (Nat.eq_dec rem 0) as [->|NZ]; [rewrite blocks_for_0 by lia; reflexivity|]. rewrite (blocks_for_S n rem) by lia. destruct (Nat.eqb_spec (rem - Nat.min n rem) 0) as [E|E].
  - rewrite E, blocks_for_0 by lia. reflexivity.
  - rewrite (blocks_for_S n (rem - Nat.min n rem)) by lia. lia.
Qed.
Lemma max_limit n len : (0 < n)%nat -> (Nat.max 1 (blocks_for n len) <= len / n + 1)%nat.
Proof.
  intros Hn. unfold blocks_for. assert (Q : ((len + n - 1) / n <= len / n + 1)%nat); [|revert Q; generalize ((len + n - 1) / n)%nat (len / n)%nat; intros; lia]. replace (len / n + 1)%nat with ((len + 1 * n) / n)%nat by (rewrite Nat.div_add by lia; lia). apply Nat.div_le_mono; lia.
Qed.
Lemma resized_zeros j k : resized (zeros j) k = zeros k.
Proof.
  unfold resized. rewrite length_zeros. unfold zeros. assert (E : firstn k (repeat 0 j) = repeat 0 (Nat.min k j)).
  { revert j. induction k as [|k IH]; intros [|j]; try reflexivity. cbn [repeat firstn Nat.min]. f_equal. apply IH. }
  rewrite E, <- repeat_app. f_equal. lia.
Qed.
Lemma splice_zeros_tail key k : (length key <= k)%nat -> splice (zeros k) 0 key = key ++ zeros (k - length key).
Proof. intros L. unfold splice. cbn [firstn app Nat.add]. f_equal. unfold zeros. replace k with (length key + (k - length key))%nat at 1 by lia. rewrite repeat_app, skipn_app, repeat_length, Nat.sub_diag. rewrite (skipn_all2 (repeat 0 (length key))) by (rewrite repeat_length; lia). reflexivity. Qed.
Lemma resized_splice l d : splice (resized l (length l + length d)) (length l) d = l ++ d.
Proof.
  unfold resized, splice. rewrite (firstn_all2 (n := (length l + length d)%nat)) by lia. rewrite firstn_app, Nat.sub_diag, firstn_O, app_nil_r, firstn_all. f_equal.
  rewrite skipn_all2 by (rewrite app_length, length_zeros; lia). apply app_nil_r.
Qed.
Lemma firstn_xorl a b k : firstn k (xorl a b) = xorl (firstn k a) (firstn k b).
Proof. revert b k. induction a as [|x a IH]; intros [|y b] [|k]; try reflexivity; cbn [firstn xorl]. f_equal. apply IH. Qed.
Lemma ctr_next (k : nat) : Z.of_nat k < 2 ^ 32 - 2 -> BeIncrement8_range (be_bytes 4 (Z.of_nat (S k))) 0 4 = Ok (be_bytes 4 (Z.of_nat (S (S k)))).
Proof.
  intros HK. rewrite BeIncrement8_range_correct by (rewrite ?length_be_bytes; try lia; apply bytes_be_bytes). rewrite slice_all by (now rewrite length_be_bytes). rewrite splice_all by (now rewrite !length_be_bytes). f_equal. f_equal.
  rewrite be_val_be_bytes. rewrite Z.mod_small by (change (256 ^ Z.of_nat 4) with (2 ^ 32); lia). lia.
Qed.
Lemma ctr_val (k : nat) : Z.of_nat k < 2 ^ 32 - 2 -> BeBytesTo32 (be_bytes 4 (Z.of_nat (S k))) 0 = Ok (Z.of_nat (S k)).
Proof.
  intros HK. rewrite BeBytesTo32_correct by (rewrite ?length_be_bytes; try lia; apply bytes_be_bytes). rewrite slice_all by (now rewrite length_be_bytes). f_equal. rewrite be_val_be_bytes. apply Z.mod_small. change (256 ^ Z.of_nat 4) with (2 ^ 32). lia.
Qed.

Section kdf.
Context {D : Type} (rate n : nat) (dupd : D -> list Z -> nat -> nat -> res D) (dfin : D -> list Z -> nat -> res (D * list Z)) (dnew : D).
Context (A : D -> list Z -> Prop) (H : list Z -> list Z).
Hypothesis Hn : (n <= rate)%nat.
Hypothesis Hn8 : (8 <= n)%nat.
Hypothesis Anew : A dnew [].
Hypothesis Aupd : forall o m p, A o m -> p_ok p -> exists o', dupd o (p_in p) (p_off p) (p_len p) = Ok o' /\ A o' (m ++ p_data p).
Hypothesis Afin : forall o m out oo, A o m -> (oo + n <= length out)%nat -> dfin o out oo = Ok (dnew, splice out oo (H m)).
Hypothesis Hlen : forall m, length (H m) = n.
Hypothesis Hbytes : forall m, bytes (H m).

(** ** KDF2 *)
Lemma upd_d o m d : A o m -> bytes d -> exists o', dupd o d 0 (length d) = Ok o' /\ A o' (m ++ d).
Proof.
  intros HA B. destruct (Aupd o m (Piece d 0 (length d)) HA) as (o' & E & A'); [split; [cbn; lia|exact B]|]. exists o'. split; [exact E|].
  unfold p_data in A'. cbn [p_in p_off p_len] in A'. now rewrite slice_all in A' by reflexivity.
Qed.
Definition k2B (p : list Z * list Z) (i : nat) : list Z := kdf2_block H (fst p) (snd p) (S i).
Lemma k2B_len p i : length (k2B p i) = n. Proof. apply Hlen. Qed.
Lemma kdf2_loop_ok z salt : bytes z -> bytes salt -> forall fuel g k out oo rem, A g [] -> (rem < fuel)%nat -> (oo + rem <= length out)%nat -> Z.of_nat (k + Nat.max 1 (blocks_for n rem)) < 2 ^ 32 - 2 ->
  kdf2_loop n dupd dfin fuel g (be_bytes 4 (Z.of_nat (S k))) salt z out oo rem =
    Ok (dnew, be_bytes 4 (Z.of_nat (S (k + Nat.max 1 (blocks_for n rem)))), splice out oo (firstn rem (blocks_from (k2B (z, salt)) k (Nat.max 1 (blocks_for n rem))))).
Proof.
  intros Bz Bs. induction fuel as [|fuel IH]; intros g k out oo rem HG HF HO HK; [lia|]. cbn [kdf2_loop].
  destruct (upd_d g [] z HG Bz) as (g1 & -> & G1). cbn [bind app] in *.
  destruct (upd_d g1 z (be_bytes 4 (Z.of_nat (S k))) G1 (bytes_be_bytes _ _)) as (g2 & E2 & G2). rewrite length_be_bytes in E2. rewrite E2. cbn [bind].
  assert (E3 : exists g3, (if negb (length salt =? 0)%nat then dupd g2 salt 0 (length salt) else Ok g2) = Ok g3 /\ A g3 ((z ++ be_bytes 4 (Z.of_nat (S k))) ++ salt)).
  { destruct (Nat.eqb_spec (length salt) 0) as [Z0|Z0]; cbn [negb]; [|exact (upd_d g2 _ salt G2 Bs)]. exists g2. split; [reflexivity|]. destruct salt; [|cbn in Z0; lia]. now rewrite app_nil_r. }
  destruct E3 as (g3 & -> & G3). cbn [bind]. rewrite (Afin g3 _ (zeros n) 0 G3) by (rewrite length_zeros; lia). cbn [bind]. rewrite <- app_assoc. fold (kdf2_block H z salt (S k)). change (kdf2_block H z salt (S k)) with (k2B (z, salt) k).
  assert (LB : length (k2B (z, salt) k) = n) by apply k2B_len. rewrite splice_all by (rewrite length_zeros; lia). rewrite ctr_next by lia. cbn [bind]. cbv zeta.
  rewrite wcopy_ok by lia. cbn [bind]. replace (slice (k2B (z, salt) k) 0 (Nat.min n rem)) with (firstn (Nat.min n rem) (k2B (z, salt) k)) by (unfold slice; now rewrite skipn_O).
  assert (LF : length (firstn (Nat.min n rem) (k2B (z, salt) k)) = Nat.min n rem) by (rewrite firstn_length; lia).
  rewrite (do_step (k2B (z, salt)) n k rem) by (try lia; intros; apply k2B_len). rewrite (do_count n rem) in HK |- * by lia.
  destruct (Nat.eqb_spec (rem - Nat.min n rem) 0) as [E|E].
  - rewrite app_nil_r, Nat.add_1_r. reflexivity.
  - rewrite (IH dnew (S k)); [|exact Anew|lia|rewrite length_splice by lia; lia|lia]. f_equal. f_equal; [f_equal; f_equal; f_equal; lia|]. rewrite <- LF at 2. rewrite splice_splice_next; [reflexivity|].
    rewrite LF, (request_len _ n) by (try lia; intros; apply k2B_len). lia.
Qed.
Definition k2R (st : kstate (list Z * list Z)) (o : kdf2_obj D) : Prop :=
  match st with
  | KIdle l => k2_init o = false /\ A (k2_gen o) [] /\ k2_ctr o = [0; 0; 0; 1] /\ k2_salt o = l /\ bytes l /\ exists j, k2_state o = zeros j
  | KOn p k => k2_init o = true /\ A (k2_gen o) [] /\ k2_ctr o = be_bytes 4 (Z.of_nat (S k)) /\ k2_salt o = snd p /\ bytes (snd p) /\ k2_state o = fst p /\ bytes (fst p) /\ (k <= 255)%nat
  end.
Notation K2 := (kdf2_kdf_spec H rate n).
Lemma k2_reset st o : k2R st o -> exists o', KDF2_Reset dnew o = Ok o' /\ k2R (KIdle (zeros (length (left_of K2 st)))) o'.
Proof.
  intros HO. unfold KDF2_Reset. assert (L : length (k2_ctr o) = 4%nat) by (destruct st; [destruct HO as (_ & _ & -> & _); reflexivity|destruct HO as (_ & _ & -> & _); apply length_be_bytes]).
  rewrite L. rewrite wr_ok by (rewrite length_zeros; lia). cbn [bind]. rewrite length_splice by (rewrite length_zeros; lia). rewrite L. rewrite put_ok by (rewrite length_splice by (rewrite length_zeros; lia); lia). cbn [bind].
  eexists. split; [reflexivity|]. cbn [k2R k2_init k2_gen k2_ctr k2_salt k2_state]. split; [reflexivity|]. split; [exact Anew|]. split.
  - destruct (k2_ctr o) as [|a [|b [|c [|d [|? ?]]]]]; try discriminate L. reflexivity.
  - split; [|split; [apply bytes_zeros|eexists; reflexivity]]. destruct st as [l|p k]; cbn [left_of]; [destruct HO as (_ & _ & _ & -> & _); reflexivity|destruct HO as (_ & _ & _ & -> & _); cbn [kdf2_kdf_spec ks_left]; now rewrite length_zeros].
Qed.
Lemma k2_init_ok st o key iv info : k2R st o -> bytes key -> bytes iv -> bytes info -> (iv = [] \/ info = []) ->
  exists o' r, kstep (kdf2_ops rate n dupd dfin dnew) o (KInit key iv info) = Ok (o', r) /\ snd (kspec K2 st (KInit key iv info)) r /\ k2R (fst (kspec K2 st (KInit key iv info))) o'.
Proof.
  intros HO Bk Bv Bi EX. cbn [kstep kdf2_ops k_initialize kspec]. cbn [kdf2_kdf_spec ks_minkey]. unfold KDF2_Initialize. destruct (Nat.ltb_spec (length key) 16) as [L|L].
  { cbn [bind fst snd]. eexists _, _. split; [reflexivity|]. auto. }
  set (l := left_of _ st).
  assert (E0 : exists o1, (if k2_init o then KDF2_Reset dnew o else Ok o) = Ok o1 /\ k2R (KIdle l) o1).
  { destruct st as [l0|p k]; [exists o; rewrite (proj1 HO); auto|]. rewrite (proj1 HO). destruct (k2_reset _ o HO) as (o1 & E1 & R1). exists o1. split; [exact E1|]. cbn [left_of] in R1. rewrite length_zeros in R1. exact R1. }
  destruct E0 as (o1 & -> & (I1 & I2 & I3 & I4 & Bl & j & I5)). cbn [bind]. unfold ks_init, kdf2_kdf_spec. rewrite I3, I4, I5.
  assert (ON : forall z s, bytes z -> bytes s -> k2R (KOn (z, s) 0) (KDF2o (k2_gen o1) [0; 0; 0; 1] s z true)).
  { intros z s Bz Bs. cbn [k2R k2_init k2_gen k2_ctr k2_salt k2_state fst snd]. split; [reflexivity|]. split; [exact I2|]. split; [reflexivity|]. split; [reflexivity|]. split; [exact Bs|]. split; [reflexivity|]. split; [exact Bz|lia]. }
  destruct (Nat.eqb_spec (length iv) 0) as [Z0|Z0]; cbn [negb].
  - destruct (Nat.leb_spec (length key) rate) as [LR|LR].
    + rewrite resized_zeros. rewrite wcopy_ok by (rewrite ?length_zeros; lia). cbn [bind]. rewrite slice_all by reflexivity. rewrite splice_zeros_tail by lia. cbn [fst snd]. eexists _, _. split; [reflexivity|]. split; [reflexivity|].
      apply ON; [apply bytes_app; split; [exact Bk|apply bytes_zeros]|exact Bl].
    + rewrite resized_zeros. rewrite wcopy_ok by (rewrite ?length_zeros; lia). cbn [bind]. rewrite splice_all by (rewrite length_slice, length_zeros by lia; reflexivity). cbv zeta. rewrite resized_len.
      rewrite wcopy_ok by (rewrite ?resized_len; lia). cbn [bind]. rewrite splice_all by (rewrite length_slice, resized_len by lia; reflexivity).
      assert (SK : slice key rate (length key - rate) = skipn rate key) by (unfold slice; apply firstn_all2; rewrite skipn_length; lia). rewrite SK.
      assert (EI : (if (0 <? length info)%nat then wcopy info 0 (resized (skipn rate key) (length (skipn rate key) + length info)) (length (skipn rate key)) (length info) else Ok (skipn rate key)) = Ok (skipn rate key ++ info)).
      { destruct (Nat.ltb_spec 0 (length info)) as [LI|LI].
        - rewrite wcopy_ok by (rewrite ?resized_len; lia). f_equal. rewrite slice_all by reflexivity. apply resized_splice.
        - destruct info; [now rewrite app_nil_r|cbn in LI; lia]. }
      rewrite EI. cbn [bind fst snd]. eexists _, _. split; [reflexivity|]. split; [reflexivity|]. unfold slice. rewrite skipn_O. apply ON; [now apply bytes_firstn|apply bytes_app; split; [now apply bytes_skipn|exact Bi]].
  - destruct (Nat.ltb_spec (length iv + length info) 4) as [L4|L4].
    { cbn [bind fst snd]. eexists _, _. split; [reflexivity|]. split; [reflexivity|]. cbn [k2R]. split; [exact I1|]. split; [exact I2|]. split; [exact I3|]. split; [exact I4|]. split; [exact Bl|exists j; exact I5]. }
    destruct EX as [EX|EX]; rewrite EX in *; [cbn in Z0; lia|]. rewrite Nat.add_0_r. rewrite wcopy_ok by (rewrite ?resized_len; lia). cbn [bind]. cbv zeta. rewrite resized_len. rewrite wcopy_ok by (rewrite ?resized_len; lia). cbn [bind length Nat.ltb Nat.leb fst snd]. rewrite !slice_all by reflexivity. rewrite !splice_all by (rewrite resized_len; lia).
    eexists _, _. split; [reflexivity|]. split; [reflexivity|]. rewrite app_nil_r. apply ON; assumption.
Qed.
Lemma k2_over p o k len : k2R (KOn p k) o -> kdf2_over n o len = Ok (255 <? 1 + k + len / n)%nat.
Proof.
  intros (_ & _ & E & _ & _ & _ & _ & LK). unfold kdf2_over. rewrite E, ctr_val by lia. cbn [bind]. f_equal. generalize (len / n)%nat. intros a. destruct (Z.ltb_spec 255 (Z.of_nat (S k) + Z.of_nat a)), (Nat.ltb_spec 255 (1 + k + a)); auto; lia.
Qed.
Lemma k2_expand p k o out oo len : k2R (KOn p k) o -> (oo + len <= length out)%nat -> (1 + k + len / n <= 255)%nat ->
  exists o', KDF2_Expand n dupd dfin o out oo len = Ok (o', splice out oo (firstn len (blocks_from (k2B p) k (Nat.max 1 (blocks_for n len))))) /\ k2R (KOn p (k + Nat.max 1 (blocks_for n len))) o'.
Proof.
  intros (I1 & G & C & I2 & B1 & I3 & B2 & LK) L LM. unfold KDF2_Expand. rewrite C, I2, I3. destruct p as [z s]. cbn [fst snd] in *. pose proof (max_limit n len ltac:(lia)) as ML.
  rewrite (kdf2_loop_ok z s B2 B1 (S len) _ k out oo len G) by lia. cbn [bind]. eexists. split; [reflexivity|]. cbn [k2R k2_init k2_gen k2_ctr k2_salt k2_state fst snd].
  split; [exact I1|]. split; [exact Anew|]. split; [reflexivity|]. split; [reflexivity|]. split; [exact B1|]. split; [reflexivity|]. split; [exact B2|lia].
Qed.
Lemma k2_expandS p k o out len : k2R (KOn p k) o -> (len <= length out)%nat -> (1 + k + len / n <= 255)%nat ->
  exists o', KDF2_ExpandS n dupd dfin o out 0 len = Ok (o', splice out 0 (firstn len (blocks_from (k2B p) k (Nat.max 1 (blocks_for n len))))) /\ k2R (KOn p (k + Nat.max 1 (blocks_for n len))) o'.
Proof.
  intros HO L LM. unfold KDF2_ExpandS. destruct (k2_expand p k o (zeros len) 0 len HO ltac:(rewrite length_zeros; lia) LM) as (o' & -> & R). cbn [bind]. set (d := firstn len _).
  assert (LD : length d = len) by (apply (request_len _ n); [lia|intros; apply k2B_len|lia]). rewrite splice_all by (rewrite length_zeros; lia). rewrite wcopy_ok by lia. cbn [bind]. rewrite slice_all by lia. exists o'. auto.
Qed.
Ltac k2_req HO E := refine (request_ok K2 k2R _ _ _ _ _ _ n _ HO (fun p i => k2B_len p i) _ _ _); [lia|cbn [kdf2_kdf_spec ks_count]; lia|intros l ->; unfold E; rewrite (proj1 HO); reflexivity|
  intros p k ->; cbn [kdf2_kdf_spec ks_refuse ks_count ks_block]; unfold E; rewrite (proj1 HO); cbn [guard bind]; match goal with |- context [kdf2_over n ?o ?l] => rewrite (k2_over p o k l HO); cbn [bind]; destruct (Nat.ltb_spec 255 (1 + k + l / n)) as [LM|LM] end; cbn [negb guard bind]; [reflexivity|]].
Lemma k2_step st o c : k2R st o -> kcall_ok false c ->
  exists o' r, kstep (kdf2_ops rate n dupd dfin dnew) o c = Ok (o', r) /\ snd (kspec K2 st c) r /\ k2R (fst (kspec K2 st c)) o'.
Proof.
  intros HO HC. destruct c as [key iv info|out oo len|out oo len|out|out|]; cbn [kcall_ok] in HC.
  - destruct HC as (B1 & B2 & B3 & [?|?]); [discriminate|]. now apply k2_init_ok.
  - cbn [kstep kdf2_ops k_gen kspec]. k2_req HO @KDF2_Gen. rewrite out_short_ok by exact HC. destruct (Nat.leb_spec (oo + len) (length out)) as [L|L]; cbn [guard bind]; [|reflexivity]. split; [exact L|]. now apply k2_expand.
  - subst oo. cbn [kstep kdf2_ops k_gens kspec]. k2_req HO @KDF2_GenS. rewrite out_short_ok by lia. destruct (Nat.leb_spec (0 + len) (length out)) as [L|L]; cbn [guard bind]; [|reflexivity]. split; [exact L|]. now apply k2_expandS.
  - cbn [kstep kdf2_ops k_all kspec]. k2_req HO @KDF2_GenAll. replace (0 + length out <=? length out)%nat with true by (symmetry; apply Nat.leb_le; lia). split; [lia|]. apply k2_expand; auto.
  - cbn [kstep kdf2_ops k_alls kspec]. k2_req HO @KDF2_GenAllS. replace (0 + length out <=? length out)%nat with true by (symmetry; apply Nat.leb_le; lia). split; [lia|]. apply k2_expandS; auto.
  - cbn [kstep kdf2_ops k_reset kspec]. destruct (k2_reset st o HO) as (o' & -> & R). cbn [bind fst snd]. eexists _, _. split; [reflexivity|]. auto.
Qed.
Lemma kdf2_history cs : Forall (kcall_ok false) cs -> exists rs, khistory (kdf2_ops rate n dupd dfin dnew) (KDF2_new dnew) cs = Ok rs /\ kexpected K2 (KIdle []) cs rs.
Proof.
  intros HF. refine (khistory_ok _ _ false k2R k2_step cs (KIdle []) _ _ HF). cbn [k2R KDF2_new k2_init k2_gen k2_ctr k2_salt k2_state]. split; [reflexivity|]. split; [exact Anew|]. split; [reflexivity|]. split; [reflexivity|]. split; [constructor|exists 0%nat; reflexivity].
Qed.

(** ** PBKDF2 *)
Notation HM := (hmac H rate).
Notation HR := (HR rate A H).
Context (iter : Z).
Hypothesis Hiter : 0 <= iter < 2 ^ 32.
Notation cnt := (Z.to_nat ((iter - 1) mod 2 ^ 64)).
Notation F := (pbkdf2_F HM).
Notation U := (pbkdf2_U HM).
Lemma U_len p s i j : length (U p s i j) = n. Proof. destruct j; apply Hlen. Qed.
Lemma U_bytes p s i j : bytes (U p s i j). Proof. destruct j; apply Hbytes. Qed.
Lemma F_len p s c i : length (F p s c i) = n. Proof. induction c; cbn [pbkdf2_F]; [apply U_len|]. rewrite length_xorl, IHc, U_len. lia. Qed.
Definition pbB (p : list Z * list Z) (i : nat) : list Z := F (fst p) (snd p) cnt (S i).
Lemma pbB_len p i : length (pbB p i) = n. Proof. apply F_len. Qed.
Notation g_init := (gen_init rate n dupd dfin dnew A H Hn Anew Aupd Afin Hlen Hbytes).
Notation g_upd := (gen_upd rate n dupd dfin dnew A H Hn Hn8 Aupd Afin Hlen Hbytes).
Notation g_fin := (gen_fin rate n dupd dfin dnew A H Hn Anew Aupd Afin Hlen Hbytes).
Lemma inner_ok key s i : bytes key -> (8 <= length key)%nat -> forall c g j out oo len, HR (MOn key []) g -> (len <= n)%nat -> (oo + len <= length out)%nat ->
  exists g', pbkdf2_inner rate n dupd dfin dnew c g key (U key s i j) (splice out oo (firstn len (F key s j i))) oo len =
     Ok (g', U key s i (c + j), splice out oo (firstn len (F key s (c + j) i))) /\ HR (MOn key []) g'.
Proof.
  intros Bk Lk. induction c as [|c IH]; intros g j out oo len HG HL HO; [exists g; auto|]. cbn [pbkdf2_inner].
  destruct (g_init _ g key HG Bk Lk) as (g1 & -> & R1). cbn [bind]. destruct (g_upd key [] g1 (U key s i j) R1 (U_bytes _ _ _ _)) as (g2 & -> & R2). cbn [bind app] in *.
  destruct (g_fin key _ g2 (U key s i j) R2 ltac:(rewrite U_len; lia)) as (g3 & -> & R3). cbn [bind]. rewrite splice_all by (rewrite U_len; apply Hlen).
  change (HM key (U key s i j)) with (U key s i (S j)). assert (LF : length (firstn len (F key s j i)) = len) by (rewrite firstn_length, F_len; lia).
  rewrite wxor_ok by (rewrite ?U_len, ?length_splice; lia). cbn [bind]. rewrite slice_splice_here by lia.
  replace (slice (U key s i (S j)) 0 len) with (firstn len (U key s i (S j))) by (unfold slice; now rewrite skipn_O). rewrite <- firstn_xorl. change (xorl (F key s j i) (U key s i (S j))) with (F key s (S j) i).
  assert (LF2 : length (firstn len (F key s (S j) i)) = len) by (rewrite firstn_length, F_len; lia). rewrite splice_over by lia.
  rewrite Nat.add_succ_comm. apply IH; auto.
Qed.
Lemma pb_loop_ok key salt : bytes key -> (8 <= length key)%nat -> bytes salt -> forall fuel g ms k out oo rem, HR ms g -> (rem < fuel)%nat -> (oo + rem <= length out)%nat -> Z.of_nat (k + Nat.max 1 (blocks_for n rem)) < 2 ^ 32 - 2 ->
  exists g', pbkdf2_loop rate n dupd dfin dnew fuel iter g (be_bytes 4 (Z.of_nat (S k))) salt key out oo rem =
    Ok (g', be_bytes 4 (Z.of_nat (S (k + Nat.max 1 (blocks_for n rem)))), splice out oo (firstn rem (blocks_from (pbB (key, salt)) k (Nat.max 1 (blocks_for n rem))))) /\ exists ms', HR ms' g'.
Proof.
  intros Bk Lk Bs. induction fuel as [|fuel IH]; intros g ms k out oo rem HG HF HO HK; [lia|]. cbn [pbkdf2_loop]. cbv zeta.
  destruct (g_init _ g key HG Bk Lk) as (g1 & -> & R1). cbn [bind]. destruct (g_upd key [] g1 salt R1 Bs) as (g2 & -> & R2). cbn [bind app] in *.
  destruct (g_upd key salt g2 (be_bytes 4 (Z.of_nat (S k))) R2 (bytes_be_bytes _ _)) as (g3 & E3 & R3). rewrite length_be_bytes in E3. rewrite E3. cbn [bind].
  destruct (g_fin key _ g3 (zeros n) R3 ltac:(rewrite length_zeros; lia)) as (g4 & -> & R4). cbn [bind]. rewrite splice_all by (rewrite length_zeros; apply Hlen). fold (U key salt (S k) 0). change (HM key (salt ++ be_bytes 4 (Z.of_nat (S k)))) with (U key salt (S k) 0).
  rewrite wcopy_ok by (rewrite ?U_len; lia). cbn [bind]. replace (slice (U key salt (S k) 0) 0 (Nat.min n rem)) with (firstn (Nat.min n rem) (F key salt 0 (S k))) by (unfold slice; now rewrite skipn_O).
  destruct (inner_ok key salt (S k) Bk Lk (pbkdf2_count iter) g4 0 out oo (Nat.min n rem) R4 ltac:(lia) ltac:(lia)) as (g5 & -> & R5). cbn [bind]. rewrite Nat.add_0_r. unfold pbkdf2_count. change (F key salt cnt (S k)) with (pbB (key, salt) k).
  rewrite ctr_next by lia. cbn [bind]. assert (LB : length (pbB (key, salt) k) = n) by apply pbB_len.
  assert (LF : length (firstn (Nat.min n rem) (pbB (key, salt) k)) = Nat.min n rem) by (rewrite firstn_length; lia).
  rewrite (do_step (pbB (key, salt)) n k rem) by (try lia; intros; apply pbB_len). rewrite (do_count n rem) in HK |- * by lia.
  destruct (Nat.eqb_spec (rem - Nat.min n rem) 0) as [E|E].
  - rewrite app_nil_r, Nat.add_1_r. exists g5. split; [reflexivity|]. eexists; exact R5.
  - destruct (IH g5 _ (S k) (splice out oo (firstn (Nat.min n rem) (pbB (key, salt) k))) (oo + Nat.min n rem)%nat (rem - Nat.min n rem)%nat R5) as (g' & -> & R'); [lia|rewrite length_splice by lia; lia|lia|].
    exists g'. split; [|exact R']. f_equal. f_equal; [f_equal; f_equal; f_equal; f_equal; lia|]. rewrite <- LF at 2. rewrite splice_splice_next; [reflexivity|].
    rewrite LF, (request_len _ n) by (try lia; intros; apply pbB_len). lia.
Qed.
Definition pbR (st : kstate (list Z * list Z)) (o : pbkdf2_obj D) : Prop :=
  pb_iter o = iter /\ (exists ms, HR ms (pb_gen o)) /\
  match st with
  | KIdle l => pb_init o = false /\ pb_ctr o = [0; 0; 0; 1] /\ pb_salt o = l /\ bytes l
  | KOn p k => pb_init o = true /\ pb_ctr o = be_bytes 4 (Z.of_nat (S k)) /\ pb_salt o = snd p /\ bytes (snd p) /\ pb_state o = fst p /\ bytes (fst p) /\ (Z.of_nat k <= 1024000)
  end.
Notation PB := (pbkdf2_kdf_spec HM n iter).
Lemma pb_reset st o : pbR st o -> exists o', PBKDF2_Reset dnew o = Ok o' /\ pbR (KIdle (zeros (length (left_of PB st)))) o'.
Proof.
  intros (IT & (ms & G) & HO). unfold PBKDF2_Reset. destruct (hreset rate n dupd dfin dnew A H Hn Anew Aupd Afin Hlen Hbytes _ _ G) as (g & -> & R). cbn [bind].
  assert (L : length (pb_ctr o) = 4%nat) by (destruct st; [destruct HO as (_ & -> & _); reflexivity|destruct HO as (_ & -> & _); apply length_be_bytes]).
  rewrite L. rewrite wr_ok by (rewrite length_zeros; lia). cbn [bind]. rewrite length_splice by (rewrite length_zeros; lia). rewrite L. rewrite put_ok by (rewrite length_splice by (rewrite length_zeros; lia); lia). cbn [bind].
  eexists. split; [reflexivity|]. cbn [pbR pb_iter pb_init pb_gen pb_ctr pb_salt pb_state]. split; [exact IT|]. split; [eexists; exact R|]. split; [reflexivity|]. split.
  - destruct (pb_ctr o) as [|a [|b [|c [|d [|? ?]]]]]; try discriminate L. reflexivity.
  - split; [|apply bytes_zeros]. destruct st as [l|p k]; cbn [left_of]; [destruct HO as (_ & _ & -> & _); reflexivity|destruct HO as (_ & _ & -> & _); cbn [pbkdf2_kdf_spec ks_left]; now rewrite length_zeros].
Qed.
Lemma pb_init_ok st o key iv info : pbR st o -> bytes key -> bytes iv -> bytes info -> (iv = [] \/ info = []) ->
  exists o' r, kstep (pbkdf2_ops rate n dupd dfin dnew) o (KInit key iv info) = Ok (o', r) /\ snd (kspec PB st (KInit key iv info)) r /\ pbR (fst (kspec PB st (KInit key iv info))) o'.
Proof.
  intros HO Bk Bv Bi EX. cbn [kstep pbkdf2_ops k_initialize kspec]. cbn [pbkdf2_kdf_spec ks_minkey]. unfold PBKDF2_Initialize. destruct (Nat.ltb_spec (length key) 4) as [L|L].
  { cbn [bind fst snd]. eexists _, _. split; [reflexivity|]. auto. }
  set (l := left_of _ st).
  assert (E0 : exists o1, (if pb_init o then PBKDF2_Reset dnew o else Ok o) = Ok o1 /\ pbR (KIdle l) o1).
  { destruct st as [l0|p k]; [exists o; rewrite (proj1 (proj2 (proj2 HO))); auto|]. rewrite (proj1 (proj2 (proj2 HO))). destruct (pb_reset _ o HO) as (o1 & E1 & R1). exists o1. split; [exact E1|]. cbn [left_of] in R1. rewrite length_zeros in R1. exact R1. }
  destruct E0 as (o1 & -> & (IT & (ms & G) & I1 & I3 & I4 & Bl)). cbn [bind]. unfold ks_init, pbkdf2_kdf_spec. rewrite I3, I4, I1, IT.
  rewrite wcopy_ok by (rewrite ?resized_len; lia). cbn [bind]. rewrite slice_all by reflexivity. rewrite splice_all by (rewrite resized_len; lia).
  assert (ON : forall s, bytes s -> pbR (KOn (key, s) 0) (PBo (pb_gen o1) [0; 0; 0; 1] s key iter true)).
  { intros s Bs. cbn [pbR pb_iter pb_init pb_gen pb_ctr pb_salt pb_state fst snd]. split; [reflexivity|]. split; [eexists; exact G|]. split; [reflexivity|]. split; [reflexivity|]. split; [reflexivity|]. split; [exact Bs|]. split; [reflexivity|]. split; [exact Bk|lia]. }
  destruct (Nat.eqb_spec (length iv + length info) 0) as [Z0|Z0]; cbn [negb].
  { cbn [fst snd]. eexists _, _. split; [reflexivity|]. split; [reflexivity|]. now apply ON. }
  destruct (Nat.ltb_spec (length iv + length info) 4) as [L4|L4].
  { cbn [bind fst snd]. eexists _, _. split; [reflexivity|]. split; [reflexivity|]. cbn [pbR pb_iter pb_init pb_gen pb_ctr pb_salt pb_state]. split; [reflexivity|]. split; [eexists; exact G|]. split; [reflexivity|]. split; [reflexivity|]. split; [reflexivity|exact Bl]. }
  cbv zeta. destruct EX as [EX|EX]; rewrite EX in *; clear EX.
  - cbn [length Nat.add Nat.eqb negb bind app] in *. rewrite (proj2 (Nat.ltb_lt 0 (length info))) by lia. rewrite wcopy_ok by (rewrite ?resized_len; lia). cbn [bind fst snd]. rewrite slice_all by reflexivity. rewrite splice_all by (rewrite resized_len; lia).
    eexists _, _. split; [reflexivity|]. split; [reflexivity|]. now apply ON.
  - rewrite !Nat.add_0_r in *. rewrite (proj2 (Nat.eqb_neq (length iv) 0)) by lia. cbn [negb length]. rewrite resized_len. rewrite wcopy_ok by (rewrite ?resized_len; lia). cbn [bind Nat.ltb Nat.leb fst snd]. rewrite slice_all by reflexivity. rewrite splice_all by (rewrite resized_len; lia).
    eexists _, _. split; [reflexivity|]. split; [reflexivity|]. rewrite app_nil_r. now apply ON.
Qed.
Lemma pb_over p o k len : pbR (KOn p k) o -> pbkdf2_over n o len = Ok (1024000 <? 1 + Z.of_nat k + Z.of_nat (len / n)).
Proof. intros (_ & _ & _ & E & _ & _ & _ & _ & LK). unfold pbkdf2_over. rewrite E, ctr_val by lia. cbn [bind]. f_equal. f_equal. lia. Qed.
Lemma pb_expand p k o out oo len : pbR (KOn p k) o -> (oo + len <= length out)%nat -> 1 + Z.of_nat k + Z.of_nat (len / n) <= 1024000 -> (8 <= length (fst p))%nat ->
  exists o', PBKDF2_Expand rate n dupd dfin dnew o out oo len = Ok (o', splice out oo (firstn len (blocks_from (pbB p) k (Nat.max 1 (blocks_for n len))))) /\ pbR (KOn p (k + Nat.max 1 (blocks_for n len))) o'.
Proof.
  intros (IT & (ms & G) & I1 & C & I2 & B1 & I3 & B2 & LK) L LM L8. unfold PBKDF2_Expand. rewrite C, I2, I3, IT. destruct p as [z s]. cbn [fst snd] in *. pose proof (max_limit n len ltac:(lia)) as ML.
  destruct (pb_loop_ok z s B2 L8 B1 (S len) _ ms k out oo len G) as (g' & -> & R'); [lia|lia|lia|]. cbn [bind]. eexists. split; [reflexivity|]. cbn [pbR pb_iter pb_init pb_gen pb_ctr pb_salt pb_state fst snd].
  split; [reflexivity|]. split; [exact R'|]. split; [exact I1|]. split; [reflexivity|]. split; [reflexivity|]. split; [exact B1|]. split; [reflexivity|]. split; [exact B2|lia].
Qed.
Lemma pb_short p k o out oo len : pbR (KOn p k) o -> (length (fst p) < 8)%nat -> PBKDF2_Expand rate n dupd dfin dnew o out oo len = Throw InvalidKey.
Proof. intros (IT & G & I1 & C & I2 & B1 & I3 & B2 & LK) L. unfold PBKDF2_Expand. rewrite I3. cbn [pbkdf2_loop]. cbv zeta. unfold HMAC_Initialize. rewrite (proj2 (Nat.ltb_lt _ _) L). reflexivity. Qed.
Lemma pb_expandS p k o out len : pbR (KOn p k) o -> (len <= length out)%nat -> 1 + Z.of_nat k + Z.of_nat (len / n) <= 1024000 -> (8 <= length (fst p))%nat ->
  exists o', PBKDF2_ExpandS rate n dupd dfin dnew o out 0 len = Ok (o', splice out 0 (firstn len (blocks_from (pbB p) k (Nat.max 1 (blocks_for n len))))) /\ pbR (KOn p (k + Nat.max 1 (blocks_for n len))) o'.
Proof.
  intros HO L LM L8. unfold PBKDF2_ExpandS. destruct (pb_expand p k o (zeros len) 0 len HO ltac:(rewrite length_zeros; lia) LM L8) as (o' & -> & R). cbn [bind]. set (d := firstn len _).
  assert (LD : length d = len) by (apply (request_len _ n); [lia|intros; apply pbB_len|lia]). rewrite splice_all by (rewrite length_zeros; lia). rewrite wcopy_ok by lia. cbn [bind]. rewrite slice_all by lia. exists o'. auto.
Qed.
Lemma pb_init_of st o : pbR st o -> pb_init o = match st with KIdle _ => false | KOn _ _ => true end.
Proof. intros (_ & _ & HO). destruct st; exact (proj1 HO). Qed.
Ltac pb_req HO E := refine (request_ok PB pbR _ _ _ _ _ _ n _ HO (fun p i => pbB_len p i) _ _ _); [lia|cbn [pbkdf2_kdf_spec ks_count]; lia|intros l ->; unfold E; rewrite (pb_init_of _ _ HO); reflexivity|
  intros p k ->; cbn [pbkdf2_kdf_spec ks_refuse ks_count ks_block]; unfold E; rewrite (pb_init_of _ _ HO); cbn [guard bind]].
Ltac pb_tail HO X := match type of HO with pbR (KOn ?p ?k) _ => match goal with |- context [pbkdf2_over n ?o ?l] => rewrite (pb_over p o k l HO); cbn [bind]; destruct (Z.ltb_spec 1024000 (1 + Z.of_nat k + Z.of_nat (l / n))) as [LM|LM] end end; cbn [negb guard bind]; [reflexivity|];
  match goal with |- context [(length (fst ?p) <? 8)%nat] => destruct (Nat.ltb_spec (length (fst p)) 8) as [L8|L8] end; [X|split; [lia|]].
Lemma pb_step st o c : pbR st o -> kcall_ok false c ->
  exists o' r, kstep (pbkdf2_ops rate n dupd dfin dnew) o c = Ok (o', r) /\ snd (kspec PB st c) r /\ pbR (fst (kspec PB st c)) o'.
Proof.
  intros HO HC. destruct c as [key iv info|out oo len|out oo len|out|out|]; cbn [kcall_ok] in HC.
  - destruct HC as (B1 & B2 & B3 & [?|?]); [discriminate|]. now apply pb_init_ok.
  - cbn [kstep pbkdf2_ops k_gen kspec]. pb_req HO @PBKDF2_Gen. rewrite out_short_ok by exact HC. destruct (Nat.leb_spec (oo + len) (length out)) as [L|L]; cbn [negb guard bind]; [|reflexivity].
    pb_tail HO ltac:(now apply (pb_short p k)). now apply pb_expand.
  - subst oo. cbn [kstep pbkdf2_ops k_gens kspec]. pb_req HO @PBKDF2_GenS. rewrite out_short_ok by lia. destruct (Nat.leb_spec (0 + len) (length out)) as [L|L]; cbn [negb guard bind]; [|reflexivity].
    pb_tail HO ltac:(unfold PBKDF2_ExpandS; now rewrite (pb_short p k)). now apply pb_expandS.
  - cbn [kstep pbkdf2_ops k_all kspec]. pb_req HO @PBKDF2_GenAll. replace (0 + length out <=? length out)%nat with true by (symmetry; apply Nat.leb_le; lia). cbn [negb].
    pb_tail HO ltac:(now apply (pb_short p k)). now apply pb_expand.
  - cbn [kstep pbkdf2_ops k_alls kspec]. pb_req HO @PBKDF2_GenAllS. replace (0 + length out <=? length out)%nat with true by (symmetry; apply Nat.leb_le; lia). cbn [negb].
    pb_tail HO ltac:(unfold PBKDF2_ExpandS; now rewrite (pb_short p k)). now apply pb_expandS.
  - cbn [kstep pbkdf2_ops k_reset kspec]. destruct (pb_reset st o HO) as (o' & -> & R). cbn [bind fst snd]. eexists _, _. split; [reflexivity|]. auto.
Qed.
Lemma pbkdf2_history cs : Forall (kcall_ok false) cs -> exists rs, khistory (pbkdf2_ops rate n dupd dfin dnew) (PBKDF2_new rate dnew iter) cs = Ok rs /\ kexpected PB (KIdle []) cs rs.
Proof.
  intros HF. refine (khistory_ok _ _ false pbR pb_step cs (KIdle []) _ _ HF). cbn [pbR PBKDF2_new pb_iter pb_init pb_gen pb_ctr pb_salt pb_state]. split; [reflexivity|]. split; [exists MNone; exact (hmac_new_HR rate dnew A H Anew)|]. split; [reflexivity|]. split; [reflexivity|]. split; [reflexivity|constructor].
Qed.
End kdf.
