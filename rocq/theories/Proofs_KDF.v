(** The KDF objects refine the block sequences. *)
From Verif Require Import BaseLemmas Spec_Common Proofs_Common Spec_Feed Spec_MAC Spec_KDF Model_IntegerTools Proofs_IntegerTools Model_Modes Proofs_Windows Model_HMAC Model_KDF Session_Digest Session_Mac Session_MacObjs Session_Kdf Proofs_Mac Proofs_HMAC.
Open Scope Z_scope.

Lemma khistory_ok {O P} (X : kdf_ops O) (S : kdf_spec P) (both : bool) (R : kstate P -> O -> Prop)
  (step : forall st o c, R st o -> kcall_ok both c -> exists o' r, kstep X o c = Ok (o', r) /\ snd (kspec S st c) r /\ R (fst (kspec S st c)) o') cs :
  forall st o, R st o -> Forall (kcall_ok both) cs -> exists rs, khistory X o cs = Ok rs /\ kexpected S st cs rs.
Proof.
  induction cs as [|c cs IH]; intros st o Ho Hc; [exists []; split; [reflexivity|exact I]|].
  inversion Hc as [|? ? C1 C2]; subst. cbn [khistory]. destruct (step st o c Ho C1) as (o' & r & -> & Q & R'). cbn [bind fst snd].
  destruct (IH _ _ R' C2) as (rs & -> & F). cbn [bind]. eexists. split; [reflexivity|]. cbn [kexpected]. auto.
Qed.

Lemma out_short_ok out oo len : (oo <= length out)%nat -> negb (out_short out oo len) = (oo + len <=? length out)%nat.
Proof. exact (window_ok out oo len). Qed.
Lemma blocks_for_0 n : (0 < n)%nat -> blocks_for n 0 = 0%nat.
Proof. intros. unfold blocks_for. apply Nat.div_small. lia. Qed.
Lemma blocks_for_S n rem : (0 < n)%nat -> (0 < rem)%nat -> blocks_for n rem = S (blocks_for n (rem - Nat.min n rem)).
Proof.
  intros Hn Hr. unfold blocks_for. destruct (Nat.le_gt_cases rem n).
  - rewrite Nat.min_r by lia. rewrite Nat.sub_diag. rewrite (Nat.div_small (0 + n - 1) n) by lia. replace (rem + n - 1)%nat with ((rem - 1) + 1 * n)%nat by lia. rewrite Nat.div_add by lia. rewrite Nat.div_small by lia. reflexivity.
  - rewrite Nat.min_l by lia. replace (rem + n - 1)%nat with ((rem - n + n - 1) + 1 * n)%nat by lia. rewrite Nat.div_add by lia. lia.
Qed.
Lemma blocks_len (B : nat -> list Z) n : (forall i, length (B i) = n) -> forall c k, length (blocks_from B k c) = (c * n)%nat.
Proof. intros H. induction c as [|c IH]; intros k; [reflexivity|]. unfold blocks_from in *. cbn [seq map concat]. rewrite app_length, H, IH. lia. Qed.
Lemma blocks_for_ge n len : (0 < n)%nat -> (len <= blocks_for n len * n)%nat.
Proof. intros H. unfold blocks_for. pose proof (Nat.div_mod (len + n - 1) n ltac:(lia)). pose proof (Nat.mod_upper_bound (len + n - 1) n ltac:(lia)). nia. Qed.
Lemma blocks_step (B : nat -> list Z) n k rem : (0 < n)%nat -> (0 < rem)%nat -> (forall i, length (B i) = n) ->
  firstn rem (blocks_from B k (blocks_for n rem)) = firstn (Nat.min n rem) (B k) ++ firstn (rem - Nat.min n rem) (blocks_from B (S k) (blocks_for n (rem - Nat.min n rem))).
Proof.
  intros Hn Hr HB. rewrite (blocks_for_S n rem) by auto. unfold blocks_from. cbn [seq map concat]. rewrite firstn_app, HB. f_equal.
  - destruct (Nat.le_gt_cases rem n); [now rewrite Nat.min_r by lia|]. rewrite Nat.min_l by lia. rewrite !firstn_all2 by (rewrite HB; lia). reflexivity.
  - f_equal. lia.
Qed.
Lemma request_len (B : nat -> list Z) n k len c : (0 < n)%nat -> (forall i, length (B i) = n) -> (blocks_for n len <= c)%nat -> length (firstn len (blocks_from B k c)) = len.
Proof. intros Hn HB Hc. rewrite firstn_length_le; [reflexivity|]. rewrite (blocks_len B n HB). pose proof (blocks_for_ge n len Hn). nia. Qed.
Lemma resized_len l k : length (resized l k) = k.
Proof. unfold resized. rewrite app_length, length_zeros, firstn_length. lia. Qed.
Lemma written_all out d : length d = length out -> written out d 0 d.
Proof. intros H. rewrite <- (splice_all out d) at 1 by lia. apply splice_written. lia. Qed.

Section kdf.
Context {D : Type} (rate n : nat) (dupd : D -> list Z -> nat -> nat -> res D) (dfin : D -> list Z -> nat -> res (D * list Z)) (dnew : D).
Context (A : D -> list Z -> Prop) (H : list Z -> list Z).
Hypothesis Hn : (n <= rate)%nat.
Hypothesis Hn8 : (8 <= n)%nat.
Hypothesis Anew : A dnew [].
Hypothesis Aupd : forall o m p, A o m -> p_ok p -> exists o', dupd o (p_in p) (p_off p) (p_len p) = Ok o' /\ A o' (m ++ p_data p).
Hypothesis Afin : forall o m out oo, A o m -> (oo + n <= length out)%nat -> dfin o out oo = Ok (dnew, splice out oo (H m)).
Hypothesis Hlen : forall m, length (H m) = n.
Hypothesis Hbytes : forall m, bytes (H m).
Notation HM := (hmac H rate).
Notation HR := (HR rate A H).
Notation hinitf := (HMAC_Initialize rate n dupd dfin dnew).
Notation hupdf := (HMAC_Update dupd).
Notation hfinf := (HMAC_Finalize n dupd dfin).

(** the HMAC calls in the shape the KDFs use them *)
Lemma hm_len k m : length (HM k m) = n. Proof. apply Hlen. Qed.
Lemma hm_bytes k m : bytes (HM k m). Proof. apply Hbytes. Qed.
Lemma gen_init st g key : HR st g -> bytes key -> (8 <= length key)%nat -> exists g', hinitf g key = Ok (g', None) /\ HR (MOn key []) g'.
Proof.
  intros HG Bk L. destruct st as [|k m|]; [|destruct (hreset rate n dupd dfin dnew A H Hn Anew Aupd Afin Hlen Hbytes g _ HG) as (g1 & E1 & R1)|contradiction].
  - exact (hinit rate n dupd dfin dnew A H Hn Anew Aupd Afin Hlen Hbytes g key HG Bk L).
  - destruct (hinit rate n dupd dfin dnew A H Hn Anew Aupd Afin Hlen Hbytes g1 key R1 Bk L) as (g' & E & R'). exists g'. split; [|exact R']. rewrite <- E.
    unfold HMAC_Initialize. rewrite (proj2 (Nat.ltb_ge _ _) L), (proj1 HG : h_init g = true), (proj1 R1 : h_init g1 = false), E1. reflexivity.
Qed.
Lemma gen_short g key : (length key < 8)%nat -> hinitf g key = Ok (g, Some InvalidKey).
Proof. intros L. unfold HMAC_Initialize. now rewrite (proj2 (Nat.ltb_lt _ _) L). Qed.
Lemma gen_upd k m g d : HR (MOn k m) g -> bytes d -> exists g', hupdf g d 0 (length d) = Ok g' /\ HR (MOn k (m ++ d)) g'.
Proof.
  intros HG B. destruct (hupd rate n dupd dfin dnew A H Hn Aupd Afin Hlen Hbytes k m g (Piece d 0 (length d)) HG) as (g' & E & R); [cbn; lia|exact B|]. exists g'. split; [exact E|].
  unfold p_data in R. cbn [p_in p_off p_len] in R. now rewrite slice_all in R by reflexivity.
Qed.
Lemma gen_upd_at k m g d o l : HR (MOn k m) g -> bytes d -> (o + l <= length d)%nat -> exists g', hupdf g d o l = Ok g' /\ HR (MOn k (m ++ slice d o l)) g'.
Proof. intros HG B L. exact (hupd rate n dupd dfin dnew A H Hn Aupd Afin Hlen Hbytes k m g (Piece d o l) HG L B). Qed.
Lemma gen_fin k m g out : HR (MOn k m) g -> (n <= length out)%nat -> exists g', hfinf g out 0 = Ok (g', splice out 0 (HM k m)) /\ HR (MOn k []) g'.
Proof. intros HG L. exact (hfin rate n dupd dfin dnew A H Hn Anew Aupd Afin Hlen Hbytes k m g out 0 HG L). Qed.
Lemma gen_sec k m g : HR (MOn k m) g -> exists g', HMAC_FinalizeS n dupd dfin g (zeros n) 0 = Ok (g', HM k m) /\ HR (MOn k []) g'.
Proof.
  intros HG. unfold HMAC_FinalizeS. destruct (gen_fin k m g (zeros n) HG) as (g' & -> & R); [rewrite length_zeros; lia|]. cbn [bind]. rewrite splice_all by (rewrite length_zeros; apply hm_len).
  rewrite wcopy_ok by (rewrite ?hm_len, ?length_zeros; lia). cbn [bind]. rewrite slice_all by (now rewrite hm_len). rewrite splice_all by (rewrite length_zeros; apply hm_len). exists g'. auto.
Qed.

(** ** HKDF *)
Notation T := (hkdf_T HM).
Definition hB (p : list Z * list Z) (i : nat) : list Z := T (fst p) (snd p) (S (i mod 256)).
Lemma hB_len p i : length (hB p i) = n. Proof. apply hm_len. Qed.
Definition SI (prk info st : list Z) (k : nat) : Prop :=
  bytes st /\ length st = (n + 1)%nat /\ nth n st 0 = Z.of_nat (k mod 256) /\ ((k mod 256 <> 0)%nat -> firstn n st = T prk info (k mod 256)).
Lemma expand_loop prk info : bytes info -> forall fuel g st k out oo rem, HR (MOn prk []) g -> SI prk info st k -> (rem <= fuel)%nat -> (oo + rem <= length out)%nat ->
  exists g' st', hkdf_expand_loop n dupd dfin fuel g st info out oo rem = Ok (g', st', splice out oo (firstn rem (blocks_from (hB (prk, info)) k (blocks_for n rem)))) /\
    HR (MOn prk []) g' /\ SI prk info st' (k + blocks_for n rem).
Proof.
  intros Bi. induction fuel as [|fuel IH]; intros g st k out oo rem HG HS HF HO.
  - assert (rem = 0)%nat by lia. subst rem. cbn [hkdf_expand_loop]. rewrite blocks_for_0 by lia. rewrite firstn_O, Nat.add_0_r. exists g, st. unfold splice. cbn [length app]. rewrite Nat.add_0_r, firstn_skipn. auto.
  - destruct rem as [|rem']. { cbn [hkdf_expand_loop]. rewrite blocks_for_0 by lia. rewrite firstn_O, Nat.add_0_r. exists g, st. unfold splice. cbn [length app]. rewrite Nat.add_0_r, firstn_skipn. auto. }
    set (rem := S rem') in *. destruct HS as (B1 & L1 & C1 & T1).
    change (hkdf_expand_loop n dupd dfin (S fuel) g st info out oo rem) with
      (c <- get st n ;; g <- (if negb (c =? 0) then hupdf g st 0 (length st - 1) else Ok g) ;; g <- (if negb (length info =? 0)%nat then hupdf g info 0 (length info) else Ok g) ;;
       st <- put st n (u8 (c + 1)) ;; g <- hupdf g st n 1 ;; r <- hfinf g st 0 ;; let '(g, st) := r in let len := Nat.min n rem in out <- wcopy st 0 out oo len ;; hkdf_expand_loop n dupd dfin fuel g st info out (oo + len) (rem - len)).
    rewrite (get_ok st n 0) by lia. cbn [bind]. rewrite C1. set (c := (k mod 256)%nat) in *.
    assert (HC : (c < 256)%nat) by (apply Nat.mod_upper_bound; lia).
    assert (E1 : exists g1, (if negb (Z.of_nat c =? 0) then hupdf g st 0 (length st - 1) else Ok g) = Ok g1 /\ HR (MOn prk (T prk info c)) g1).
    { destruct (Z.eqb_spec (Z.of_nat c) 0) as [Z0|Z0]; cbn [negb].
      - exists g. split; [reflexivity|]. replace c with 0%nat by lia. exact HG.
      - replace (length st - 1)%nat with n by lia. destruct (gen_upd_at prk [] g st 0 n HG B1 ltac:(lia)) as (g1 & E & R). exists g1. split; [exact E|]. unfold slice in R. rewrite skipn_O, T1 in R by lia. exact R. }
    destruct E1 as (g1 & -> & R1). cbn [bind].
    assert (E2 : exists g2, (if negb (length info =? 0)%nat then hupdf g1 info 0 (length info) else Ok g1) = Ok g2 /\ HR (MOn prk (T prk info c ++ info)) g2).
    { destruct (Nat.eqb_spec (length info) 0) as [Z0|Z0]; cbn [negb].
      - exists g1. split; [reflexivity|]. destruct info; [|cbn in Z0; lia]. now rewrite app_nil_r.
      - exact (gen_upd prk _ g1 info R1 Bi). }
    destruct E2 as (g2 & -> & R2). cbn [bind]. rewrite put_ok by lia. cbn [bind]. set (st1 := upd st n (u8 (Z.of_nat c + 1))).
    assert (B2 : bytes st1) by (apply bytes_upd; [exact B1|red; unfold u8; lia]). assert (L2 : length st1 = (n + 1)%nat) by (unfold st1; now rewrite length_upd).
    assert (SL : slice st1 n 1 = [u8 (Z.of_nat c + 1)]).
    { apply (list_ext 0); [rewrite length_slice by lia; reflexivity|]. intros i Hi. rewrite length_slice in Hi by lia. assert (i = 0)%nat by lia. subst i. rewrite nth_slice by lia. rewrite Nat.add_0_r. unfold st1. rewrite nth_upd_same by lia. reflexivity. }
    destruct (gen_upd_at prk _ g2 st1 n 1 R2 B2 ltac:(lia)) as (g3 & -> & R3). cbn [bind]. rewrite SL in R3.
    destruct (gen_fin prk _ g3 st1 R3 ltac:(lia)) as (g4 & -> & R4). cbn [bind]. cbv zeta.
    assert (EB : HM prk ((T prk info c ++ info) ++ [u8 (Z.of_nat c + 1)]) = hB (prk, info) k).
    { unfold hB. cbn [fst snd hkdf_T]. fold c. f_equal. rewrite <- app_assoc. f_equal. f_equal. f_equal. unfold u8. f_equal. lia. }
    rewrite EB. set (st2 := splice st1 0 (hB (prk, info) k)). assert (LB : length (hB (prk, info) k) = n) by apply hB_len.
    assert (L3 : length st2 = (n + 1)%nat) by (unfold st2; rewrite length_splice by lia; exact L2). assert (B3 : bytes st2) by (apply bytes_splice; [exact B2|apply hm_bytes]).
    assert (F3 : firstn n st2 = hB (prk, info) k) by (unfold st2, splice; cbn [firstn app]; rewrite firstn_app, LB, Nat.sub_diag, firstn_O, app_nil_r; apply firstn_all2; lia).
    rewrite wcopy_ok by lia. cbn [bind].
    assert (SP : SI prk info st2 (S k)).
    { split; [exact B3|]. split; [exact L3|]. split.
      - unfold st2. rewrite nth_splice by lia. rewrite LB. replace (n <? 0)%nat with false by reflexivity. replace (n <? 0 + n)%nat with false by (symmetry; apply Nat.ltb_ge; lia). cbn [andb]. unfold st1. try rewrite nth_upd_same by lia. unfold u8. clear - HC. subst c. lia.
      - intros NZ. rewrite F3. unfold hB. cbn [fst snd]. f_equal. clear - NZ. lia. }
    assert (SF : slice st2 0 (Nat.min n rem) = firstn (Nat.min n rem) (hB (prk, info) k)).
    { unfold slice. rewrite skipn_O, <- F3, firstn_firstn. f_equal. lia. }
    rewrite SF. assert (LF : length (firstn (Nat.min n rem) (hB (prk, info) k)) = Nat.min n rem) by (rewrite firstn_length; lia).
    destruct (IH g4 st2 (S k) (splice out oo (firstn (Nat.min n rem) (hB (prk, info) k))) (oo + Nat.min n rem)%nat (rem - Nat.min n rem)%nat R4 SP ltac:(lia)) as (g' & st' & -> & RR & SS); [rewrite length_splice by lia; lia|].
    exists g', st'. split; [|split; [exact RR|]].
    + f_equal. f_equal. rewrite (blocks_step (hB (prk, info)) n k rem) by (try lia; intros; apply hB_len). rewrite <- LF at 2. rewrite splice_splice_next.
      * reflexivity.
      * rewrite LF, (request_len _ n) by (try lia; intros; apply hB_len). lia.
    + rewrite (blocks_for_S n rem) by lia. rewrite Nat.add_succ_r. exact SS.
Qed.
Definition hkR (st : kstate (list Z * list Z)) (o : hkdf_obj D) : Prop :=
  match st with
  | KIdle l => hk_init o = false /\ hk_info o = l /\ bytes l /\ hk_state o = zeros (n + 1) /\ exists ms, HR ms (hk_gen o)
  | KOn p k => hk_init o = true /\ hk_info o = snd p /\ bytes (snd p) /\ HR (MOn (fst p) []) (hk_gen o) /\ SI (fst p) (snd p) (hk_state o) k
  end.
Lemma SI_start prk info : SI prk info (zeros (n + 1)) 0.
Proof. split; [apply bytes_zeros|]. split; [apply length_zeros|]. split; [unfold zeros; rewrite nth_repeat; reflexivity|]. intros E. exfalso. apply E. reflexivity. Qed.
Lemma hk_gen_ok st o : hkR st o -> exists ms, HR ms (hk_gen o).
Proof. intros HO. destruct st; [exact (proj2 (proj2 (proj2 (proj2 HO))))|eexists; exact (proj1 (proj2 (proj2 (proj2 HO))))]. Qed.
Lemma hk_reset st o : hkR st o -> exists o', HKDF_Reset dnew o = Ok o' /\ hkR (KIdle (zeros (length (left_of (hkdf_kdf_spec HM n) st)))) o'.
Proof.
  intros HO. unfold HKDF_Reset. destruct (hk_gen_ok st o HO) as (ms & R0).
  destruct (hreset rate n dupd dfin dnew A H Hn Anew Aupd Afin Hlen Hbytes _ _ R0) as (g & -> & R1). cbn [bind]. eexists. split; [reflexivity|]. cbn [hkR hk_init hk_info hk_state hk_gen].
  assert (L : length (hk_state o) = (n + 1)%nat) by (destruct st; [destruct HO as (_ & _ & _ & -> & _); apply length_zeros|destruct HO as (_ & _ & _ & _ & _ & L & _); exact L]). rewrite L.
  split; [reflexivity|]. split; [|split; [apply bytes_zeros|split; [reflexivity|eexists; exact R1]]]. destruct st as [l|p k]; cbn [left_of]; [destruct HO as (_ & -> & _); reflexivity|destruct HO as (_ & -> & _); cbn [hkdf_kdf_spec ks_left]; now rewrite length_zeros].
Qed.
Lemma hk_init_ok st o key iv info : hkR st o -> bytes key -> bytes iv -> bytes info ->
  exists o' r, kstep (hkdf_ops rate n dupd dfin dnew) o (KInit key iv info) = Ok (o', r) /\ snd (kspec (hkdf_kdf_spec HM n) st (KInit key iv info)) r /\ hkR (fst (kspec (hkdf_kdf_spec HM n) st (KInit key iv info))) o'.
Proof.
  intros HO Bk Bv Bi. cbn [kstep hkdf_ops k_initialize kspec]. cbn [hkdf_kdf_spec ks_minkey]. unfold HKDF_Initialize. destruct (Nat.ltb_spec (length key) 16) as [L|L].
  { cbn [bind fst snd]. eexists _, _. split; [reflexivity|]. auto. }
  set (l := left_of _ st).
  assert (E0 : exists o1, (if hk_init o then HKDF_Reset dnew o else Ok o) = Ok o1 /\ hkR (KIdle l) o1).
  { destruct st as [l0|p k]; [exists o; rewrite (proj1 HO); auto|]. rewrite (proj1 HO). destruct (hk_reset _ o HO) as (o1 & E1 & R1). exists o1. split; [exact E1|]. cbn [left_of] in R1. rewrite length_zeros in R1. exact R1. }
  destruct E0 as (o1 & -> & (I1 & I2 & Bl & I3 & ms & I4)). cbn [bind].
  assert (E1 : (if negb (length info =? 0)%nat then wcopy info 0 (resized (hk_info o1) (length info)) 0 (length info) else Ok (hk_info o1)) = Ok (if (length info =? 0)%nat then l else info)).
  { destruct (Nat.eqb_spec (length info) 0); cbn [negb]; [now rewrite I2|]. rewrite wcopy_ok by (rewrite ?resized_len; lia). rewrite slice_all by reflexivity. now rewrite splice_all by (rewrite resized_len; lia). }
  rewrite E1. cbn [bind]. unfold ks_init, hkdf_kdf_spec. cbv zeta. set (inf := if (length info =? 0)%nat then l else info). assert (Binf : bytes inf) by (unfold inf; destruct (_ =? _)%nat; [exact Bl|exact Bi]).
  rewrite I1, I3. destruct (Nat.eqb_spec (length iv) 0) as [Z0|Z0]; cbn [negb].
  - destruct (gen_init ms _ key I4 Bk ltac:(lia)) as (g & -> & R). cbn [bind fst snd]. eexists _, _. split; [reflexivity|]. split; [reflexivity|].
    cbn [hkR hk_init hk_info hk_state hk_gen fst snd]. split; [reflexivity|]. split; [reflexivity|]. split; [exact Binf|]. split; [exact R|]. apply SI_start.
  - destruct (Nat.ltb_spec (length iv + length info) 4) as [L4|L4].
    { cbn [bind fst snd]. eexists _, _. split; [reflexivity|]. split; [reflexivity|]. cbn [hkR hk_init hk_info hk_state hk_gen]. split; [reflexivity|]. split; [reflexivity|]. split; [exact Binf|]. split; [reflexivity|eexists; exact I4]. }
    unfold HKDF_rekey. replace (negb (length iv =? 0)%nat) with true by (symmetry; apply negb_true_iff, Nat.eqb_neq; lia). destruct (Nat.ltb_spec (length iv) 8) as [L8|L8].
    { rewrite gen_short by exact L8. cbn [bind fst snd]. eexists _, _. split; [reflexivity|]. split; [reflexivity|]. cbn [hkR hk_init hk_info hk_state hk_gen]. split; [reflexivity|]. split; [reflexivity|]. split; [exact Binf|]. split; [reflexivity|eexists; exact I4]. }
    destruct (gen_init ms _ iv I4 Bv L8) as (g1 & -> & R1). cbn [bind]. destruct (gen_upd iv [] g1 key R1 Bk) as (g2 & -> & R2). cbn [bind app] in *.
    destruct (gen_sec iv key g2 R2) as (g3 & -> & R3). cbn [bind]. destruct (gen_init _ g3 (HM iv key) R3 (hm_bytes _ _) ltac:(rewrite hm_len; lia)) as (g4 & -> & R4). cbn [bind fst snd].
    eexists _, _. split; [reflexivity|]. split; [reflexivity|].
    cbn [hkR hk_init hk_info hk_state hk_gen fst snd]. split; [reflexivity|]. split; [reflexivity|]. split; [exact Binf|]. split; [exact R4|]. apply SI_start.
Qed.
Lemma SI_counter p st k : SI (fst p) (snd p) st k -> get st n = Ok (Z.of_nat (k mod 256)).
Proof. intros (_ & L & C & _). rewrite (get_ok st n 0) by lia. now rewrite C. Qed.
Lemma hk_over p o k len : hkR (KOn p k) o -> hkdf_over n o len = Ok (255 <? k mod 256 + len / n)%nat.
Proof.
  intros (_ & _ & _ & _ & S). unfold hkdf_over. rewrite (SI_counter p _ k S). cbn [bind]. f_equal. generalize (len / n)%nat, (k mod 256)%nat. intros a b. destruct (Z.ltb_spec 255 (Z.of_nat b + Z.of_nat a)), (Nat.ltb_spec 255 (b + a)); auto; lia.
Qed.
Lemma hk_expand p k o out oo len : hkR (KOn p k) o -> (oo + len <= length out)%nat ->
  exists o', HKDF_Expand n dupd dfin o out oo len = Ok (o', splice out oo (firstn len (blocks_from (hB p) k (blocks_for n len)))) /\ hkR (KOn p (k + blocks_for n len)) o'.
Proof.
  intros (I1 & I2 & B & G & S) L. unfold HKDF_Expand. rewrite I2. destruct p as [prk info]. cbn [fst snd] in *.
  destruct (expand_loop prk info B len _ _ k out oo len G S (le_n _) L) as (g & st & -> & R & S'). cbn [bind]. eexists. split; [reflexivity|]. cbn [hkR hk_init hk_info hk_state hk_gen fst snd]. auto.
Qed.
Lemma hk_expandS p k o out len : hkR (KOn p k) o -> (len <= length out)%nat ->
  exists o', HKDF_ExpandS n dupd dfin o out 0 len = Ok (o', splice out 0 (firstn len (blocks_from (hB p) k (blocks_for n len)))) /\ hkR (KOn p (k + blocks_for n len)) o'.
Proof.
  intros HO L. unfold HKDF_ExpandS. destruct (hk_expand p k o (zeros len) 0 len HO ltac:(rewrite length_zeros; lia)) as (o' & -> & R). cbn [bind]. set (d := firstn len _).
  assert (LD : length d = len) by (apply (request_len _ n); [lia|intros; apply hB_len|lia]). rewrite splice_all by (rewrite length_zeros; lia). rewrite wcopy_ok by lia. cbn [bind]. rewrite slice_all by lia. exists o'. auto.
Qed.
Lemma hk_request st o out oo len (f : hkdf_obj D -> res (hkdf_obj D * list Z)) :
  hkR st o -> (oo <= length out)%nat ->
  (hk_init o = false -> f o = Throw NotInitialized) ->
  (forall p k, st = KOn p k -> f o = (_ <- guard (negb (255 <? k mod 256 + len / n)%nat) MaxExceeded ;; _ <- guard (oo + len <=? length out)%nat InvalidSize ;;
     f o) ) ->
  (forall p k, st = KOn p k -> (oo + len <= length out)%nat -> (k mod 256 + len / n <= 255)%nat -> exists o', f o = Ok (o', splice out oo (firstn len (blocks_from (hB p) k (blocks_for n len)))) /\ hkR (KOn p (k + blocks_for n len)) o') ->
  exists o' r, caught o (f o) = Ok (o', r) /\ snd (request (hkdf_kdf_spec HM n) st out oo len) r /\ hkR (fst (request (hkdf_kdf_spec HM n) st out oo len)) o'.
Proof.
  intros HO LO F1 F2 F3. destruct st as [l|p k]; cbn [request].
  - rewrite F1 by (exact (proj1 HO)). cbn [caught fst snd]. eexists _, _. split; [reflexivity|]. auto.
  - cbn [ks_refuse hkdf_kdf_spec]. specialize (F2 p k eq_refl). specialize (F3 p k eq_refl). destruct (Nat.ltb_spec 255 (k mod 256 + len / n)) as [L|L].
    { rewrite F2. cbn [negb guard bind caught fst snd]. eexists _, _. split; [reflexivity|]. auto. }
    destruct (Nat.leb_spec (oo + len) (length out)) as [L2|L2].
    + destruct (F3 L2 L) as (o' & -> & R). cbn [caught fst snd]. eexists _, _. split; [reflexivity|]. split; [|exact R]. eexists. split; [reflexivity|]. apply splice_written. rewrite <- (request_len (hB p) n k len (blocks_for n len)) in L2 at 1; [exact L2|lia|intros; apply hB_len|apply le_n].
    + rewrite F2. cbn [negb guard bind caught fst snd]. eexists _, _. split; [reflexivity|]. auto.
Qed.
Lemma hk_step st o c : hkR st o -> kcall_ok true c ->
  exists o' r, kstep (hkdf_ops rate n dupd dfin dnew) o c = Ok (o', r) /\ snd (kspec (hkdf_kdf_spec HM n) st c) r /\ hkR (fst (kspec (hkdf_kdf_spec HM n) st c)) o'.
Proof.
  intros HO HC. destruct c as [key iv info|out oo len|out oo len|out|out|]; cbn [kcall_ok] in HC.
  - destruct HC as (B1 & B2 & B3 & _). now apply hk_init_ok.
  - cbn [kstep hkdf_ops k_gen kspec]. apply (hk_request st o out oo len (fun o => HKDF_Gen n dupd dfin o out oo len) HO HC); unfold HKDF_Gen.
    + intros ->. reflexivity.
    + intros p k ->. rewrite (proj1 HO). cbn [guard bind]. rewrite (hk_over p o k len HO). cbn [bind]. rewrite out_short_ok by exact HC. destruct (255 <? _)%nat; cbn [negb guard bind]; [reflexivity|]. destruct (oo + len <=? length out)%nat; reflexivity.
    + intros p k -> L1 L2. rewrite (proj1 HO). cbn [guard bind]. rewrite (hk_over p o k len HO). cbn [bind]. rewrite out_short_ok by exact HC. rewrite (proj2 (Nat.ltb_ge _ _) L2), (proj2 (Nat.leb_le _ _) L1). cbn [negb guard bind]. now apply hk_expand.
  - subst oo. cbn [kstep hkdf_ops k_gens kspec]. apply (hk_request st o out 0 len (fun o => HKDF_GenS n dupd dfin o out 0 len) HO (Nat.le_0_l _)); unfold HKDF_GenS.
    + intros ->. reflexivity.
    + intros p k ->. rewrite (proj1 HO). cbn [guard bind]. rewrite (hk_over p o k len HO). cbn [bind]. rewrite out_short_ok by lia. destruct (255 <? _)%nat; cbn [negb guard bind]; [reflexivity|]. destruct (0 + len <=? length out)%nat; reflexivity.
    + intros p k -> L1 L2. rewrite (proj1 HO). cbn [guard bind]. rewrite (hk_over p o k len HO). cbn [bind]. rewrite out_short_ok by lia. rewrite (proj2 (Nat.ltb_ge _ _) L2), (proj2 (Nat.leb_le _ _) L1). cbn [negb guard bind]. now apply hk_expandS.
  - cbn [kstep hkdf_ops k_all kspec]. apply (hk_request st o out 0 (length out) (fun o => HKDF_GenAll n dupd dfin o out) HO (Nat.le_0_l _)); unfold HKDF_GenAll.
    + intros ->. reflexivity.
    + intros p k ->. rewrite (proj1 HO). cbn [guard bind]. rewrite (hk_over p o k _ HO). cbn [bind]. replace (0 + length out <=? length out)%nat with true by (symmetry; apply Nat.leb_le; lia). destruct (255 <? _)%nat; cbn [negb guard bind]; reflexivity.
    + intros p k -> L1 L2. rewrite (proj1 HO). cbn [guard bind]. rewrite (hk_over p o k _ HO). cbn [bind]. rewrite (proj2 (Nat.ltb_ge _ _) L2). cbn [negb guard bind]. now apply hk_expand.
  - cbn [kstep hkdf_ops k_alls kspec]. apply (hk_request st o out 0 (length out) (fun o => HKDF_GenAllS n dupd dfin o out) HO (Nat.le_0_l _)); unfold HKDF_GenAllS.
    + intros ->. reflexivity.
    + intros p k ->. rewrite (proj1 HO). cbn [guard bind]. rewrite (hk_over p o k _ HO). cbn [bind]. replace (0 + length out <=? length out)%nat with true by (symmetry; apply Nat.leb_le; lia). destruct (255 <? _)%nat; cbn [negb guard bind]; reflexivity.
    + intros p k -> L1 L2. rewrite (proj1 HO). cbn [guard bind]. rewrite (hk_over p o k _ HO). cbn [bind]. rewrite (proj2 (Nat.ltb_ge _ _) L2). cbn [negb guard bind]. now apply hk_expandS.
  - cbn [kstep hkdf_ops k_reset kspec]. destruct (hk_reset st o HO) as (o' & -> & R). cbn [bind fst snd]. eexists _, _. split; [reflexivity|]. auto.
Qed.
Lemma hk_new : hkR (KIdle []) (HKDF_new rate n dnew).
Proof.
  cbn [hkR HKDF_new hk_init hk_info hk_state hk_gen]. split; [reflexivity|]. split; [reflexivity|]. split; [constructor|]. split; [reflexivity|]. exists MNone. exact (hmac_new_HR rate dnew A H Anew).
Qed.
Lemma hkdf_history cs : Forall (kcall_ok true) cs -> exists rs, khistory (hkdf_ops rate n dupd dfin dnew) (HKDF_new rate n dnew) cs = Ok rs /\ kexpected (hkdf_kdf_spec HM n) (KIdle []) cs rs.
Proof. intros HF. exact (khistory_ok _ _ true hkR hk_step cs (KIdle []) _ hk_new HF). Qed.
(** Extract as called by a user: the right value, but the generator stays keyed with the salt *)
Definition salt_of (salt : list Z) : list Z := match salt with [] => zeros n | _ => salt end.
Lemma hk_extract st o key salt out : hkR st o -> bytes key -> bytes salt -> (salt = [] \/ (8 <= length salt)%nat) -> (n <= length out)%nat ->
  exists o', HKDF_Extract rate n dupd dfin dnew o key salt out = Ok (o', splice out 0 (HM (salt_of salt) key)) /\
    hk_init o' = hk_init o /\ hk_info o' = hk_info o /\ hk_state o' = hk_state o /\ HR (MOn (salt_of salt) []) (hk_gen o').
Proof.
  intros HO B1 B2 V L. destruct (hk_gen_ok st o HO) as (ms & G). unfold HKDF_Extract, HKDF_rekey.
  assert (E : (if negb (length salt =? 0)%nat then hinitf (hk_gen o) salt else hinitf (hk_gen o) (zeros n)) = hinitf (hk_gen o) (salt_of salt)) by (destruct salt; reflexivity). rewrite E.
  assert (B3 : bytes (salt_of salt) /\ (8 <= length (salt_of salt))%nat) by (destruct V as [->|V]; [cbn [salt_of]; rewrite length_zeros; split; [apply bytes_zeros|lia]|destruct salt; [cbn in V; lia|auto]]).
  destruct (gen_init ms (hk_gen o) (salt_of salt) G (proj1 B3) (proj2 B3)) as (g1 & -> & R1). cbn [bind]. destruct (gen_upd _ _ g1 key R1 B1) as (g2 & -> & R2). cbn [bind app] in *.
  destruct (gen_fin _ _ g2 out R2 L) as (g3 & -> & R3). cbn [bind fst snd]. eexists. split; [reflexivity|]. cbn [hk_init hk_info hk_state hk_gen]. auto.
Qed.
Lemma hk_extract_new key salt out : bytes key -> bytes salt -> (salt = [] \/ (8 <= length salt)%nat) -> (n <= length out)%nat ->
  exists o', HKDF_Extract rate n dupd dfin dnew (HKDF_new rate n dnew) key salt out = Ok (o', splice out 0 (HM (salt_of salt) key)).
Proof. intros. destruct (hk_extract (KIdle []) (HKDF_new rate n dnew) key salt out) as (o' & E & _); auto; [exact hk_new|]. eauto. Qed.
Lemma hk_rekeyed key info ikm salt out1 out oo len : bytes key -> bytes info -> bytes ikm -> bytes salt -> (16 <= length key)%nat -> (8 <= length salt)%nat -> (n <= length out1)%nat -> (oo + len <= length out)%nat -> (len < 256 * n)%nat ->
  exists o1 o2 out1' o3, HKDF_Initialize rate n dupd dfin dnew (HKDF_new rate n dnew) key [] info = Ok (o1, None) /\ HKDF_Extract rate n dupd dfin dnew o1 ikm salt out1 = Ok (o2, out1') /\
    HKDF_Gen n dupd dfin o2 out oo len = Ok (o3, splice out oo (firstn len (blocks_from (hB (salt, info)) 0 (blocks_for n len)))).
Proof.
  intros B1 B2 B3 B4 L1 L2 L3 L4 L5. destruct (hk_init_ok (KIdle []) (HKDF_new rate n dnew) key [] info hk_new B1 (Forall_nil _) B2) as (o1 & r & E & K & R).
  cbn [kspec hkdf_kdf_spec ks_minkey] in K, R. rewrite (proj2 (Nat.ltb_ge _ _) L1) in K, R. cbn [ks_init left_of length Nat.eqb fst snd] in K, R. cbn [kstep hkdf_ops k_initialize] in E.
  destruct (HKDF_Initialize rate n dupd dfin dnew (HKDF_new rate n dnew) key [] info) as [[o1' e]| |] eqn:E1; try discriminate E. cbn [bind fst snd] in E. injection E as -> E'. subst r. destruct e; [discriminate K|]. clear E1.
  assert (EI : (if (length info =? 0)%nat then [] else info) = info) by (now destruct info).
  destruct (hk_extract _ o1 ikm salt out1 R B3 B4 (or_intror L2) L3) as (o2 & E2 & X1 & X2 & X3 & X4). replace (salt_of salt) with salt in * by (destruct salt; [cbn in L2; lia|reflexivity]).
  assert (R2 : hkR (KOn (salt, info) 0) o2).
  { destruct R as (I1 & I2 & I3 & I4 & I5). cbn [fst snd] in I2, I3, I4, I5. rewrite EI in I2, I3, I5. cbn [hkR fst snd]. rewrite X1, X2, X3. split; [exact I1|]. split; [exact I2|]. split; [exact I3|]. split; [exact X4|]. destruct I5 as (J1 & J2 & J3 & J4). cbn [fst snd] in *. split; [exact J1|]. split; [exact J2|]. split; [exact J3|]. intros Q. exfalso. apply Q. reflexivity. }
  destruct (hk_expand (salt, info) 0 o2 out oo len R2 L4) as (o3 & E3 & _). exists o1, o2. eexists. exists o3. split; [reflexivity|]. split; [exact E2|].
  unfold HKDF_Gen. rewrite (proj1 R2). cbn [guard bind]. rewrite (hk_over _ _ _ _ R2). cbn [bind]. replace (0 mod 256)%nat with 0%nat by reflexivity.
  rewrite (proj2 (Nat.ltb_ge 255 (0 + len / n))); [|assert (Q : (len / n < 256)%nat) by (apply Nat.div_lt_upper_bound; lia); revert Q; generalize (len / n)%nat; intros; lia].
  rewrite out_short_ok by lia. rewrite (proj2 (Nat.leb_le _ _) L4). cbn [negb guard bind]. exact E3.
Qed.
End kdf.
