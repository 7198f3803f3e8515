(** SecureRandom: integers. *)
From Verif Require Import BaseLemmas Spec_Common Spec_Random Model_Modes Model_SecureRandom Session_Random Proofs_Common Proofs_Windows Proofs_SecureRandom.
From Coq Require Import FinFun.
Open Scope Z_scope.

Lemma chunks_count n k : (0 < n)%nat -> forall l : list Z, length l = (n * k)%nat -> length (chunks n l) = k.
Proof.
  intros Hn. induction k as [|k IH]; intros l L; [destruct l; [reflexivity|cbn [length] in L; lia]|]. rewrite <- (firstn_skipn n l). rewrite chunks_app by (try lia; rewrite firstn_length; lia). cbn [length]. rewrite IH by (rewrite skipn_length; lia). reflexivity.
Qed.
Lemma source_bytes g a n : (forall i, is_byte (g i)) -> bytes (source g a n).
Proof. intros H. apply Forall_forall. intros x Hx. apply in_map_iff in Hx. destruct Hx as (i & <- & _). apply H. Qed.
Lemma signed_as (signed : bool) w l : (if signed then to_signed w (le_val l) else le_val l) = as_type signed w l.
Proof. unfold as_type, to_signed. destruct signed; cbn [andb]; [|reflexivity]. destruct (_ <? _) eqn:E1, (_ <=? _) eqn:E2; try reflexivity; apply Z.ltb_lt in E1 || apply Z.ltb_ge in E1; apply Z.leb_le in E2 || apply Z.leb_gt in E2; lia. Qed.
Lemma as_range signed l : bytes l -> (1 <= length l)%nat -> in_type signed (length l) (as_type signed (length l) l).
Proof.
  intros B L. assert (R := le_val_range l B). unfold in_type, as_type.
  assert (E : 2 ^ (8 * Z.of_nat (length l)) = 2 * 2 ^ (8 * Z.of_nat (length l) - 1)). { rewrite <- Z.pow_succ_r by lia. f_equal. lia. }
  replace (256 ^ Z.of_nat (length l)) with (2 ^ (8 * Z.of_nat (length l))) in R by (rewrite Z.pow_mul_r by lia; reflexivity).
  destruct signed; cbn [andb]; [|exact R]. destruct (_ <=? _) eqn:E2; [apply Z.leb_le in E2 | apply Z.leb_gt in E2]; lia.
Qed.
Lemma Next_ok g signed w s pa : inv g s pa ->
  exists s', Next g signed w s = Ok (as_type signed w (source g (fst (serve w pa)) w), s') /\ inv g s' (snd (serve w pa)).
Proof.
  intros H. destruct (Generate_all_ok g false s pa w H) as (s' & E & I). exists s'. split; [|exact I]. unfold Next. rewrite E. cbn [bind fst snd]. now rewrite signed_as.
Qed.

Lemma top_rem signed w m : 0 < m -> 0 <= top signed w -> top signed w - Z.rem (top signed w) m = top signed w / m * m.
Proof. intros Hm Ht. rewrite Z.rem_mod_nonneg by lia. pose proof (Z.div_mod (top signed w) m ltac:(lia)). lia. Qed.
Lemma top_pos signed w : (1 <= w)%nat -> 0 <= top signed w.
Proof. intros H. unfold top. destruct signed; [pose proof (Z.pow_pos_nonneg 2 (8 * Z.of_nat w - 1)) | pose proof (Z.pow_pos_nonneg 2 (8 * Z.of_nat w))]; lia. Qed.
Lemma trial_outcome signed w m x : (1 <= w)%nat -> 1 <= m <= top signed w -> in_type signed w x ->
  trial signed m (top signed w - Z.rem (top signed w) m) x = outcome signed w m x.
Proof.
  intros Hw Hm Hx. pose proof (top_pos signed w Hw) as Ht. rewrite top_rem by lia. unfold trial, outcome.
  assert (D : 1 <= top signed w / m) by (apply Z.div_le_lower_bound; lia).
  destruct (x <? 0) eqn:E0.
  - apply Z.ltb_lt in E0. destruct signed; [|cbn in Hx; lia]. cbn [andb].
    destruct (top true w / m * m <=? x) eqn:E1; [apply Z.leb_le in E1; nia|]. cbn [orb].
    pose proof (Z.rem_bound_pos_neg x m ltac:(lia) ltac:(lia)) as Rb. pose proof (Z.quot_rem' x m) as Q.
    destruct (Z.rem x m <? 0) eqn:E2; [apply Z.ltb_lt in E2 | apply Z.ltb_ge in E2].
    + destruct (x mod m =? 0) eqn:E3; [|reflexivity]. apply Z.eqb_eq in E3. apply Z.mod_divide in E3; [|lia]. destruct E3 as (c & ->). rewrite Z.rem_mul in E2 by lia. lia.
    + assert (R0 : Z.rem x m = 0) by lia. rewrite R0 in *. replace x with (Z.quot x m * m) by lia. rewrite Z.mod_mul by lia. reflexivity.
  - apply Z.ltb_ge in E0. rewrite Z.rem_mod_nonneg by lia. pose proof (Z.mod_pos_bound x m ltac:(lia)).
    destruct (x mod m <? 0) eqn:E2; [apply Z.ltb_lt in E2; lia|]. rewrite andb_false_r, orb_false_r. destruct (_ <=? x) eqn:E1, (x <? _) eqn:E3; try reflexivity;
      apply Z.leb_le in E1 || apply Z.leb_gt in E1; apply Z.ltb_lt in E3 || apply Z.ltb_ge in E3; lia.
Qed.
Lemma sample_ok g signed w m : (1 <= w)%nat -> 1 <= m <= top signed w -> (forall i, is_byte (g i)) -> forall fuel s pa, inv g s pa ->
  exists s', sample fuel g signed w m (top signed w - Z.rem (top signed w) m) s = Ok (fst (first_outcome fuel g signed w m pa), s') /\ inv g s' (snd (first_outcome fuel g signed w m pa)).
Proof.
  intros Hw Hm Hg. induction fuel as [|f IH]; intros s pa I.
  - exists s. auto.
  - cbn [sample first_outcome]. destruct (Next_ok g signed w s pa I) as (s1 & -> & I1). cbn [bind fst snd].
    destruct (serve w pa) as [a pa1] eqn:Es. cbn [fst snd] in *. rewrite trial_outcome; [| assumption | assumption |].
    2:{ pose proof (as_range signed (source g a w) (source_bytes g a w Hg)) as R. rewrite source_len in R. auto. }
    destruct (outcome signed w m (as_type signed w (source g a w))) as [v|]; [exists s1; auto|]. destruct (IH s1 pa1 I1) as (s2 & E2 & I2). exists s2. auto.
Qed.

Lemma outcome_range signed w m x v : 1 <= m -> outcome signed w m x = Some v -> 0 <= v < m.
Proof.
  intros Hm. unfold outcome. pose proof (Z.mod_pos_bound x m ltac:(lia)). destruct (x <? 0); [destruct (_ =? _) | destruct (_ <? _)]; intros E; inversion E; subst; lia.
Qed.
Lemma first_range signed w m g fuel : 1 <= m -> forall pa v pa', first_outcome fuel g signed w m pa = (Some v, pa') -> 0 <= v < m.
Proof.
  intros Hm. induction fuel as [|f IH]; intros pa v pa' E; cbn [first_outcome] in E; [discriminate|]. destruct (serve w pa) as [a pa1].
  destruct (outcome _ _ _ _) as [u|] eqn:Eo; [|eauto]. inversion E; subst. eapply outcome_range; eauto.
Qed.

(** ** every call history *)
Lemma threshold_ok signed w mx mn : size_ok w -> in_type signed w mx -> in_type signed w mn -> mn <= mx -> mx - mn + 1 <= top signed w -> threshold signed w mx mn = Ok (mx - mn + 1).
Proof.
  intros Hw H1 H2 Hm Ht. unfold threshold. destruct signed.
  - destruct Hw as [-> | [-> | -> ]]; cbn [Nat.eqb].
    + unfold top in Ht. change (2 ^ (8 * Z.of_nat 2 - 1)) with 32768 in Ht. change (2 ^ (8 * Z.of_nat 2)) with 65536. unfold to_signed. change (2 ^ (8 * Z.of_nat 2 - 1)) with 32768.
      rewrite Z.mod_small by lia. destruct (_ <? _) eqn:E; [reflexivity|]. apply Z.ltb_ge in E. lia.
    + change (type_max true 4) with (top true 4). destruct (_ <=? _) eqn:E; [reflexivity|]. apply Z.leb_gt in E. lia.
    + change (type_max true 8) with (top true 8). destruct (_ <=? _) eqn:E; [reflexivity|]. apply Z.leb_gt in E. lia.
  - unfold top in Ht. rewrite Z.mod_small; [reflexivity|]. lia.
Qed.
Lemma rhistory_ok fuel g : (forall i, is_byte (g i)) -> forall cs s pa, inv g s pa -> Forall rcall_ok cs -> rhistory fuel g cs s = Ok (rexpected fuel g cs pa).
Proof.
  intros Hg. induction cs as [|c cs IH]; intros s pa I H; [reflexivity|]. inversion H as [|? ? Hc Hcs]; subst. destruct c as [secure out off len | secure w out off n | signed w | signed w mx | signed w mx mn]; cbn [rhistory rexpected rcall_ok] in *.
  - destruct (Generate_ok g secure s pa out off len I Hc) as (s' & -> & I'). destruct (serve len pa) as [a pa']. cbn [answer fst snd] in *. now rewrite (IH s' pa' I' Hcs).
  - unfold Fill. destruct (off + n <=? length out)%nat eqn:E; cbn [guard bind].
    + apply Nat.leb_le in E. destruct (Generate_all_ok g secure s pa (n * w) I) as (s' & -> & I'). destruct (serve (n * w) pa) as [a pa']. cbn [bind fst snd] in *.
      rewrite wr_ok. 2:{ rewrite map_length. replace (length (chunks w (source g a (n * w)))) with n; [lia|].
        symmetry. apply chunks_count; [destruct Hc as [-> | [-> | -> ]]; lia | rewrite source_len; lia]. }
      cbn [bind answer]. now rewrite (IH s' pa' I' Hcs).
    + cbn [answer]. now rewrite (IH s pa I Hcs).
  - destruct (Next_ok g signed w s pa I) as (s' & -> & I'). destruct (serve w pa) as [a pa']. cbn [answer fst snd] in *. now rewrite (IH s' pa' I' Hcs).
  - destruct Hc as (Hw & Ht). assert (W1 : (1 <= w)%nat) by (destruct Hw as [-> | [-> | -> ]]; lia). unfold NextMax. destruct (mx <? 1) eqn:E; cbn [negb guard bind answer].
    + now rewrite (IH s pa I Hcs).
    + apply Z.ltb_ge in E. change (type_max signed w) with (top signed w).
      assert (Hm : 1 <= mx <= top signed w) by (unfold in_type, top in *; destruct signed; lia).
      destruct (sample_ok g signed w mx W1 Hm Hg fuel s pa I) as (s' & -> & I'). destruct (first_outcome fuel g signed w mx pa) as [o pa']. cbn [answer fst snd] in *.
      destruct o as [v|]; cbn [int_or value]; [|reflexivity]. rewrite (IH s' pa' I' Hcs). reflexivity.
  - destruct Hc as (Hw & H1 & H2 & Ht). assert (W1 : (1 <= w)%nat) by (destruct Hw as [-> | [-> | -> ]]; lia). unfold NextRange. destruct (mx <? 1) eqn:E; cbn [negb guard bind answer orb].
    + now rewrite (IH s pa I Hcs).
    + apply Z.ltb_ge in E. destruct (mx <? mn) eqn:E2; cbn [negb guard bind answer]; [now rewrite (IH s pa I Hcs)|]. apply Z.ltb_ge in E2.
      rewrite (threshold_ok signed w mx mn Hw H1 H2 E2 Ht). cbn [bind]. destruct (mx - mn + 1 =? 0) eqn:E3; [apply Z.eqb_eq in E3; lia|]. cbn [negb safe bind].
      change (type_max signed w) with (top signed w). assert (Hm : 1 <= mx - mn + 1 <= top signed w) by lia.
      destruct (sample_ok g signed w (mx - mn + 1) W1 Hm Hg fuel s pa I) as (s' & -> & I'). destruct (first_outcome fuel g signed w (mx - mn + 1) pa) as [o pa']. cbn [bind answer fst snd] in *.
      destruct o as [v|]; cbn [int_or option_map value]; [|reflexivity]. rewrite (IH s' pa' I' Hcs). reflexivity.
Qed.

(** ** counting *)
Lemma card_steps P r m k : m <> 0 -> (forall x, P x <-> exists j, (j < k)%nat /\ x = r + Z.of_nat j * m) -> has_card P k.
Proof.
  intros Hm H. exists (map (fun j => r + Z.of_nat j * m) (seq 0 k)). split; [|split].
  - apply Injective_map_NoDup; [|apply seq_NoDup]. intros a b E. assert (Z.of_nat a = Z.of_nat b) by (apply (Z.mul_cancel_r _ _ m); lia). lia.
  - now rewrite map_length, seq_length.
  - intros x. rewrite H, in_map_iff. split.
    + intros (j & <- & Hj). apply in_seq in Hj. exists j. split; [lia | reflexivity].
    + intros (j & Hj & ->). exists j. split; [reflexivity|]. apply in_seq. lia.
Qed.
Lemma card_or P Q R a b : has_card P a -> has_card Q b -> (forall x, P x -> Q x -> False) -> (forall x, R x <-> P x \/ Q x) -> has_card R (a + b).
Proof.
  intros (l & Nl & Ll & Il) (l' & Nl' & Ll' & Il') D E. exists (l ++ l'). split; [|split].
  - clear - Nl Nl' D Il Il'. assert (DD : forall x, In x l -> ~ In x l') by (intros x H1 H2; apply (D x); [now apply Il | now apply Il']). clear D Il Il'.
    induction l as [|x l IH]; [exact Nl'|]. inversion Nl as [|? ? N1 N2]; subst. cbn [app]. constructor.
    + rewrite in_app_iff. intros [H|H]; [auto|]. apply (DD x); [now left | assumption].
    + apply IH; [assumption|]. intros y Hy. apply DD. now right.
  - rewrite app_length. lia.
  - intros x. rewrite in_app_iff, E, Il, Il'. tauto.
Qed.
Lemma low_steps t m r x : 1 <= m -> 0 <= r < m -> 0 <= t -> (0 <= x < t / m * m /\ x mod m = r) <-> exists j, (j < Z.to_nat (t / m))%nat /\ x = r + Z.of_nat j * m.
Proof.
  intros Hm Hr Ht. assert (0 <= t / m) by (apply Z.div_pos; lia). split.
  - intros (Hx & E). pose proof (Z.div_mod x m ltac:(lia)) as D. assert (x / m < t / m) by (apply Z.div_lt_upper_bound; lia). assert (0 <= x / m) by (apply Z.div_pos; lia).
    exists (Z.to_nat (x / m)). split; [lia|]. rewrite Z2Nat.id by lia. lia.
  - intros (j & Hj & ->). rewrite Z.add_mod, Z.mod_mul, Z.add_0_r, Z.mod_mod, Z.mod_small by lia. split; [|reflexivity]. nia.
Qed.
Lemma card_unsigned w m r : (1 <= w)%nat -> 1 <= m <= top false w -> 0 <= r < m -> has_card (gives false w m r) (Z.to_nat (top false w / m)).
Proof.
  intros Hw Hm Hr. apply (card_steps _ r m); [lia|]. intros x. rewrite <- (low_steps (top false w) m r x) by lia. unfold gives, outcome, in_type.
  pose proof (Z.mul_div_le (top false w) m ltac:(lia)). unfold top in *. split.
  - intros (Hx & E). revert E. destruct (x <? 0) eqn:E0; apply Z.ltb_lt in E0 || apply Z.ltb_ge in E0; [lia|]. destruct (x <? _) eqn:E1; [|discriminate]. apply Z.ltb_lt in E1. intros E. inversion E. lia.
  - intros (Hx & E). split; [lia|]. destruct (x <? 0) eqn:E0; apply Z.ltb_lt in E0 || apply Z.ltb_ge in E0; [lia|]. destruct (x <? _) eqn:E1; [now rewrite E|]. apply Z.ltb_ge in E1. lia.
Qed.
Lemma card_signed_low w m r : (1 <= w)%nat -> 1 <= m <= top true w -> 0 <= r < m -> has_card (fun x => 0 <= x /\ gives true w m r x) (Z.to_nat (top true w / m)).
Proof.
  intros Hw Hm Hr. apply (card_steps _ r m); [lia|]. intros x. rewrite <- (low_steps (top true w) m r x) by lia. unfold gives, outcome, in_type.
  pose proof (Z.mul_div_le (top true w) m ltac:(lia)). unfold top in *. split.
  - intros (H0 & Hx & E). revert E. destruct (x <? 0) eqn:E0; apply Z.ltb_lt in E0 || apply Z.ltb_ge in E0; [lia|]. destruct (x <? _) eqn:E1; [|discriminate]. apply Z.ltb_lt in E1. intros E. inversion E. lia.
  - intros (Hx & E). split; [lia|]. split; [lia|]. destruct (x <? 0) eqn:E0; apply Z.ltb_lt in E0 || apply Z.ltb_ge in E0; [lia|]. destruct (x <? _) eqn:E1; [now rewrite E|]. apply Z.ltb_ge in E1. lia.
Qed.
Lemma card_signed w m r : (1 <= w)%nat -> 1 <= m <= top true w -> 0 < r < m -> has_card (gives true w m r) (Z.to_nat (top true w / m)).
Proof.
  intros Hw Hm Hr. destruct (card_signed_low w m r Hw Hm ltac:(lia)) as (l & N & L & I). exists l. split; [exact N|]. split; [exact L|]. intros x. rewrite I. split; [tauto|]. intros G. split; [|exact G].
  destruct G as (_ & G). unfold outcome in G. revert G. destruct (x <? 0) eqn:E; [|apply Z.ltb_ge in E; lia]. destruct (_ =? _); intros G; inversion G. lia.
Qed.
Lemma card_signed_zero w m : (1 <= w)%nat -> 1 <= m <= top true w ->
  has_card (gives true w m 0) (Z.to_nat (top true w / m) + Z.to_nat (2 ^ (8 * Z.of_nat w - 1) / m)).
Proof.
  intros Hw Hm. eapply (card_or (fun x => 0 <= x /\ gives true w m 0 x) (fun x => x < 0 /\ gives true w m 0 x)).
  - apply card_signed_low; lia.
  - set (T := 2 ^ (8 * Z.of_nat w - 1)). assert (HT : 0 <= T / m) by (apply Z.div_pos; unfold top in Hm; lia).
    apply (card_steps _ (- m) (- m)); [lia|]. intros x. split.
    + intros (H0 & Hx & E). unfold outcome, in_type in *. fold T in Hx. revert E. destruct (x <? 0) eqn:E0; [|apply Z.ltb_ge in E0; lia]. destruct (x mod m =? 0) eqn:E1; [|discriminate]. intros _. apply Z.eqb_eq in E1.
      apply Z.mod_divide in E1; [|lia]. destruct E1 as (c & ->). assert (c < 0) by nia. exists (Z.to_nat (- c - 1)). rewrite Z2Nat.id by lia. split; [|lia].
      assert (- c <= T / m) by (apply Z.div_le_lower_bound; lia). lia.
    + intros (j & Hj & ->). pose proof (Z.mul_div_le T m ltac:(lia)). unfold gives, outcome, in_type. fold T. assert (Z.of_nat j + 1 <= T / m) by lia.
      assert (m * (Z.of_nat j + 1) <= m * (T / m)) by nia. split; [nia|]. split; [split; nia|].
      destruct (_ <? 0) eqn:E0; [|apply Z.ltb_ge in E0; nia]. replace (- m + Z.of_nat j * - m) with ((- (Z.of_nat j + 1)) * m) by lia. rewrite Z.mod_mul by lia. reflexivity.
  - intros x (A & _) (C & _). lia.
  - intros x. split; [intros G; destruct (Z_lt_le_dec x 0); tauto | tauto].
Qed.

(** ** requests *)
Lemma serve_from n p a : (p <= fst (serve n (p, a)))%nat /\ (fst (serve n (p, a)) + n <= fst (snd (serve n (p, a))))%nat.
Proof. cbn [serve]. destruct (n <=? a)%nat; cbn [fst snd]; lia. Qed.
Lemma in_order_weak ws : forall a b, (a <= b)%nat -> in_order b ws -> in_order a ws.
Proof. destruct ws as [|[c n] ws]; intros a b H K; [exact I|]. destruct K as (K1 & K2). split; [lia | exact K2]. Qed.
Lemma requests_ok g : forall ns s p a, inv g s (p, a) ->
  exists starts, length starts = length ns /\ requests g ns s = Ok (map (fun an => source g (fst an) (snd an)) (combine starts (map snd ns))) /\ in_order p (combine starts (map snd ns)).
Proof.
  induction ns as [|[secure n] ns IH]; intros s p a I.
  - exists []. repeat split.
  - cbn [requests]. destruct (Generate_all_ok g secure s (p, a) n I) as (s' & -> & I'). cbn [bind fst snd]. pose proof (serve_from n p a) as (S1 & S2).
    destruct (serve n (p, a)) as [at_ [p' a']]. cbn [fst snd] in *. destruct (IH s' p' a' I') as (st & L & E & O). exists (at_ :: st). rewrite E. cbn [bind].
    split; [cbn [length]; lia|]. split; [reflexivity|]. cbn [map combine in_order snd fst]. split; [exact S1|]. eapply in_order_weak; [exact S2 | exact O].
Qed.

(** ** the ranges that do not fit *)
Lemma sample_value g signed w m smpmax : forall fuel s v s', sample fuel g signed w m smpmax s = Ok (Some v, s') -> exists x, trial signed m smpmax x = Some v.
Proof.
  induction fuel as [|f IH]; intros s v s' E; cbn [sample] in E; [discriminate|]. destruct (Next g signed w s) as [[x s1]| |]; cbn [bind fst snd] in E; try discriminate.
  destruct (trial signed m smpmax x) as [u|] eqn:Et; [|eauto]. inversion E; subst. eauto.
Qed.
Lemma wrapped fuel g mx mn s v s' : in_type true 2 mx -> in_type true 2 mn -> 1 <= mx -> 2 ^ 15 <= mx - mn + 1 -> NextRange fuel g true 2 mx mn s = Ok (Some v, s') ->
  mn <= v < mx /\ (mx - mn + 1 = 2 ^ 15 -> v = mn) /\ v < mn + (2 ^ 16 - (mx - mn + 1)).
Proof.
  intros H1 H2 H3 H4. unfold NextRange. change (2 ^ 15) with 32768 in *. change (2 ^ 16) with 65536. cbn in H1, H2.
  destruct (mx <? 1) eqn:E1; [apply Z.ltb_lt in E1; lia|]. destruct (mx <? mn) eqn:E2; [apply Z.ltb_lt in E2; lia|]. cbn [negb guard bind].
  unfold threshold. cbn [Nat.eqb]. cbn [bind]. change (2 ^ (8 * Z.of_nat 2)) with 65536. set (t := mx - mn + 1) in *. assert (Ht : 32768 <= t <= 65536) by (unfold t; lia).
  destruct (Z.eq_dec t 65536) as [E | N].
  { rewrite E. cbn. discriminate. }
  rewrite Z.mod_small by lia. unfold to_signed. change (2 ^ (8 * Z.of_nat 2 - 1)) with 32768. change (2 ^ (8 * Z.of_nat 2)) with 65536.
  destruct (t <? 32768) eqn:E3; [apply Z.ltb_lt in E3; lia|]. destruct (t - 65536 =? 0) eqn:E4; [apply Z.eqb_eq in E4; lia|]. cbn [negb safe bind].
  change (type_max true 2) with 32767.
  destruct (sample fuel g true 2 (t - 65536) (32767 - Z.rem 32767 (t - 65536)) s) as [[o s1]| |] eqn:Es; cbn [bind fst snd]; try discriminate.
  destruct o as [u|]; cbn [option_map]; [|discriminate]. intros E. inversion E; subst v s1. clear E.
  apply sample_value in Es. destruct Es as (x & T). unfold trial in T. cbn [andb] in T.
  destruct (_ <=? x) eqn:E5; cbn [orb] in T; [discriminate|]. apply Z.leb_gt in E5. destruct (Z.rem x (t - 65536) <? 0) eqn:E6; [discriminate|]. apply Z.ltb_ge in E6. inversion T; subst u. clear T.
  pose proof (Z.rem_bound_abs x (t - 65536) ltac:(lia)) as Rb. 
  assert (K : t = 32768 -> Z.rem x (t - 65536) = 0).
  { intros ->. change (32768 - 65536) with (- (32768)) in *. change (32767 - Z.rem 32767 (- (32768))) with 0 in E5. pose proof (Z.rem_nonpos x (- (32768)) ltac:(lia) ltac:(lia)). lia. }
  destruct (Z.eq_dec t 32768) as [E | N2].
  - rewrite (K E). split; [unfold t in *; lia|]. split; [intros; lia | lia].
  - split; [|split; [intros; contradiction | lia]]. split; [lia|]. unfold t in *. lia.
Qed.
Lemma whole_unsigned fuel g w mx s : size_ok w -> mx = top false w -> NextRange fuel g false w mx 0 s = UB.
Proof. intros [-> | [-> | -> ]] ->; reflexivity. Qed.
Lemma too_wide fuel g w mx mn s : (w = 4%nat \/ w = 8%nat) -> 1 <= mx -> mn <= mx -> top true w < mx - mn + 1 -> NextRange fuel g true w mx mn s = UB.
Proof.
  intros Hw H1 H2 H3. unfold NextRange. destruct (mx <? 1) eqn:E1; [apply Z.ltb_lt in E1; lia|]. destruct (mx <? mn) eqn:E2; [apply Z.ltb_lt in E2; lia|]. cbn [negb guard bind].
  assert (T : threshold true w mx mn = UB). { unfold threshold. change (type_max true w) with (top true w). destruct (mx - mn + 1 <=? top true w) eqn:E; [apply Z.leb_le in E; lia|]. destruct Hw as [-> | -> ]; reflexivity. }
  now rewrite T.
Qed.
Lemma whole_int16 fuel g s : NextRange fuel g true 2 32767 (- 32768) s = UB.
Proof. reflexivity. Qed.
