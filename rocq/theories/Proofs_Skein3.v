(** The tree mode of the Skein objects when every leaf has its own worker: every call history. *)
From Verif Require Import BaseLemmas Spec_Common Proofs_Common Spec_Feed Session_Digest Proofs_Digest Model_IntegerTools Proofs_IntegerTools Model_Modes Proofs_Windows
  Model_Absorb Proofs_Absorb Model_Keccak Proofs_SHA3 Model_CSX Proofs_CSX Spec_ChaCha Spec_Threefish Proofs_Threefish2 Model_Threefish Spec_Skein Model_SHA2Par Proofs_SHA2Par Model_Skein Session_Skein Proofs_Skein Proofs_Skein2.
Open Scope Z_scope.

Lemma skein_facts v : a_skein v -> ((4 <= f_n (sv_F v) <= 16)%nat /\ length (f_pi (sv_F v)) = f_n (sv_F v)) /\
  (forall m t k, length m = f_n (sv_F v) -> length t = 2%nat -> length k = f_n (sv_F v) -> sv_perm v m t k = Ok (threefish (sv_F v) (sv_rounds v) k t m)).
Proof.
  intros [->|[->| ->]]; (split; [split; [cbn; lia|reflexivity]|]); intros m t k H1 H2 H3.
  - now apply skein256_ok.
  - now apply skein512_ok.
  - now apply skein1024_ok.
Qed.

Lemma each_leaf_len {S} f : forall (ls : list S) i ls', each_leaf i f ls = Ok ls' -> length ls' = length ls.
Proof.
  induction ls as [|s t IH]; intros i ls' E; cbn [each_leaf] in E; [injection E as <-; reflexivity|].
  destruct (f i s); try discriminate E. cbn [bind] in E. destruct (each_leaf (Datatypes.S i) f t) eqn:E2; try discriminate E. cbn [bind] in E. injection E as <-. cbn [length]. f_equal. eauto.
Qed.
Lemma first_all d f ss : length ss = d -> first_leaves d f ss = each_leaf 0 f ss.
Proof.
  intros H. unfold first_leaves. rewrite H, Nat.leb_refl. cbn [safe bind]. rewrite firstn_all2, skipn_all2 by lia.
  destruct (each_leaf 0 f ss); cbn [bind]; [now rewrite app_nil_r|reflexivity|reflexivity].
Qed.

Lemma update_par n perm d pblk ss buf pos inp io len : length ss = d ->
  SkeinP_Update n perm d pblk (ss, buf, pos) inp io len = par_update (8 * n) (fun s b o => ProcessBlock n perm b o s (8 * n)) d pblk (ss, buf, pos) inp io len.
Proof.
  intros L. unfold SkeinP_Update, par_update, minsize, rate. cbv zeta. destruct (len =? 0)%nat; [reflexivity|].
  set (P := fun s b o => ProcessBlock n perm b o s (8 * n)).
  assert (T : forall ss buf pos io len, length ss = d ->
    (r <- (if (pblk <=? len)%nat then
            _ <- safe (negb (pblk =? 0))%nat ;;
            ss <- first_leaves d (fun i s => ProcessLeaf (8 * n) P d (len - len mod pblk) inp (io + i * (8 * n)) s (len - len mod pblk)) ss ;; Ok (ss, (io + (len - len mod pblk))%nat, (len - (len - len mod pblk))%nat)
          else Ok (ss, io, len)) ;;
    let '(ss, io, len) := r in
    r <- (if (d * (8 * n) <=? len)%nat then
            _ <- safe (negb (d * (8 * n) =? 0))%nat ;;
            ss <- first_leaves d (fun i s => ProcessLeaf (8 * n) P d (len - len mod (d * (8 * n))) inp (io + i * (8 * n)) s (len - len mod (d * (8 * n)))) ss ;; Ok (ss, (io + (len - len mod (d * (8 * n))))%nat, (len - (len - len mod (d * (8 * n))))%nat)
          else Ok (ss, io, len)) ;;
    let '(ss, io, len) := r in
    if (len =? 0)%nat then Ok (ss, buf, pos)
    else buf <- wcopy inp io buf pos len ;; Ok (ss, buf, (pos + len)%nat)) =
    (r <- (if (pblk <=? len)%nat then
            _ <- safe (negb (pblk =? 0))%nat ;;
            ss <- process_leaves (8 * n) P d ss inp io (len - len mod pblk) ;; Ok (ss, (io + (len - len mod pblk))%nat, (len - (len - len mod pblk))%nat)
          else Ok (ss, io, len)) ;;
    let '(ss, io, len) := r in
    r <- (if (d * (8 * n) <=? len)%nat then
            _ <- safe (negb (d * (8 * n) =? 0))%nat ;;
            ss <- process_leaves (8 * n) P d ss inp io (len - len mod (d * (8 * n))) ;; Ok (ss, (io + (len - len mod (d * (8 * n))))%nat, (len - (len - len mod (d * (8 * n))))%nat)
          else Ok (ss, io, len)) ;;
    let '(ss, io, len) := r in
    if (len =? 0)%nat then Ok (ss, buf, pos)
    else buf <- wcopy inp io buf pos len ;; Ok (ss, buf, (pos + len)%nat))).
  { clear ss buf pos io len L. intros ss buf pos io len L.
    assert (T2 : forall ss io len, length ss = d ->
     (r <- (if (d * (8 * n) <=? len)%nat then
            _ <- safe (negb (d * (8 * n) =? 0))%nat ;;
            ss <- first_leaves d (fun i s => ProcessLeaf (8 * n) P d (len - len mod (d * (8 * n))) inp (io + i * (8 * n)) s (len - len mod (d * (8 * n)))) ss ;; Ok (ss, (io + (len - len mod (d * (8 * n))))%nat, (len - (len - len mod (d * (8 * n))))%nat)
          else Ok (ss, io, len)) ;;
    let '(ss, io, len) := r in
    if (len =? 0)%nat then Ok (ss, buf, pos)
    else buf <- wcopy inp io buf pos len ;; Ok (ss, buf, (pos + len)%nat)) =
     (r <- (if (d * (8 * n) <=? len)%nat then
            _ <- safe (negb (d * (8 * n) =? 0))%nat ;;
            ss <- process_leaves (8 * n) P d ss inp io (len - len mod (d * (8 * n))) ;; Ok (ss, (io + (len - len mod (d * (8 * n))))%nat, (len - (len - len mod (d * (8 * n))))%nat)
          else Ok (ss, io, len)) ;;
    let '(ss, io, len) := r in
    if (len =? 0)%nat then Ok (ss, buf, pos)
    else buf <- wcopy inp io buf pos len ;; Ok (ss, buf, (pos + len)%nat))).
    { clear ss io len L. intros ss io len L. destruct (d * (8 * n) <=? len)%nat; [|reflexivity]. destruct (d * (8 * n) =? 0)%nat; cbn [negb safe bind]; [reflexivity|].
      rewrite first_all by exact L. reflexivity. }
    destruct (pblk <=? len)%nat.
    - destruct (pblk =? 0)%nat; cbn [negb safe bind]; [reflexivity|]. rewrite first_all by exact L. unfold process_leaves at 1. unfold process_leaves in T2.
      match goal with |- context [each_leaf 0 ?f ss] => destruct (each_leaf 0 f ss) as [ss'| |] eqn:E end; [|reflexivity|reflexivity]. cbn [bind]. apply T2. now rewrite (each_leaf_len _ _ _ _ E).
    - cbn [bind]. now apply T2. }
  destruct (negb (pos =? 0) && (length buf <=? len + pos))%nat.
  - destruct (pos <=? length buf)%nat; cbn [safe bind]; [|reflexivity]. destruct (wcopy inp io buf pos (length buf - pos)) as [buf'| |]; [|reflexivity|reflexivity]. cbn [bind].
    rewrite first_all by exact L. unfold par_absorb. cbn [Nat.add].
    change (fun (i : nat) (s : kstate) => ProcessBlock n perm buf' (i * (8 * n)) s (8 * n)) with (fun (i : nat) (s : kstate) => P s buf' (i * (8 * n))%nat).
    match goal with |- context [each_leaf 0 ?f ss] => destruct (each_leaf 0 f ss) as [ss'| |] eqn:E end; [|reflexivity|reflexivity]. cbn [bind]. apply T. now rewrite (each_leaf_len _ _ _ _ E).
  - cbn [bind]. now apply T.
Qed.

Lemma skip_len {A} (x y : list A) : skipn (length x) (x ++ y) = y.
Proof. induction x as [|a x IH]; [reflexivity|exact IH]. Qed.

Section tree.
Context (v : skv) (Hv : a_skein v) (cfg : list Z).
Notation F := (sv_F v). Notation n := (f_n F). Notation perm := (sv_perm v). Notation rounds := (sv_rounds v). Notation R := (8 * n)%nat. Notation W := (2 ^ 64).
Hypothesis Hcfg : length cfg = R.
Lemma Hn : (4 <= n)%nat. Proof. destruct (skein_facts v Hv) as (((A & _) & _) & _). exact A. Qed.
Lemma Hn2 : (n <= 16)%nat. Proof. destruct (skein_facts v Hv) as (((_ & A) & _) & _). exact A. Qed.
Lemma Hpi : length (f_pi F) = n. Proof. destruct (skein_facts v Hv) as ((_ & A) & _). exact A. Qed.
Lemma Hperm : forall m t k, length m = n -> length t = 2%nat -> length k = n -> perm m t k = Ok (threefish F rounds k t m).
Proof. destruct (skein_facts v Hv) as (_ & A). exact A. Qed.
Notation gg := (g F rounds).
Notation L0 := (leaf0 v cfg).
Notation LS := (leaf_start F rounds W cfg).
Lemma L0_I i : I F (L0 i).
Proof. exists (LS i), (LS i), true, 0. split; [apply start_len; auto using Hn, Hn2, Hpi, Hperm|reflexivity]. Qed.

(** ** the end of a tree *)
Lemma final_all bs : Forall (fun b => length b = R) bs -> forall fuel inp io G V f t, slice inp io (length bs * R) = concat bs -> (io + length bs * R <= length inp)%nat ->
  (length bs * R <= fuel)%nat -> length G = n -> exists f' t', length (root_blocks F rounds W f t G bs) = n /\
  final_blocks n perm fuel inp io (length bs * R) (mk 4 G V f true t) = Ok (mk 4 (root_blocks F rounds W f t G bs) V f' true t').
Proof.
  pose proof Hn. induction 1 as [|b bs HB HBS IH]; intros fuel inp io G V f t E L Hf HG.
  - exists f, t. split; [exact HG|]. destruct fuel; reflexivity.
  - change (length (b :: bs) * R)%nat with (R + length bs * R)%nat in *. destruct fuel as [|k]; [lia|]. cbn [final_blocks]. unfold rate.
    replace (R + length bs * R =? 0)%nat with false by (symmetry; apply Nat.eqb_neq; lia).
    replace (R <=? R + length bs * R)%nat with true by (symmetry; apply Nat.leb_le; lia).
    rewrite slice_app in E. cbn [concat] in E.
    assert (LA : length (slice inp io R) = length b) by (rewrite HB; apply length_slice; lia).
    destruct (app_inj_eq _ _ _ _ LA E) as (E1 & E2).
    rewrite (Process_mk F rounds perm Hn Hpi Hperm) by (auto; lia). cbn [bind]. rewrite E1.
    replace (R + length bs * R - R)%nat with (length bs * R)%nat by lia. cbn [root_blocks]. change (nb F) with R.
    apply IH; try lia; [exact E2|]. apply (step_len F rounds perm); auto using Hn, Hpi. apply le_words_len; lia.
Qed.
Lemma stored_all (ss : list kstate) : forall buf, Forall (fun s => length (kS s) = n) ss -> length buf = (length ss * R)%nat ->
  for_up 0 (length ss) (fun i buf => match nth_error ss i with Some s => wr buf (i * R) (concat (map (le_bytes 8) (kS s))) | None => UB end) buf
  = Ok (concat (map (fun s => to_bytes (kS s)) ss)).
Proof.
  intros buf HF HL.
  match goal with |- for_up _ _ ?f _ = _ => destruct (for_up_inv (fun i b => b = concat (map (fun s => to_bytes (kS s)) (firstn i ss)) ++ skipn (i * R) buf) f 0 (length ss) buf) as (b & E & G) end.
  - reflexivity.
  - intros i b Hi ->. destruct (nth_error ss i) as [s|] eqn:N; [|apply nth_error_None in N; lia].
    assert (LC : length (concat (map (fun s => to_bytes (kS s)) (firstn i ss))) = (i * R)%nat).
    { rewrite (concat_length_eq R).
      - rewrite map_length, firstn_length. f_equal. lia.
      - intros b Hb. apply in_map_iff in Hb. destruct Hb as (s' & <- & Hin). rewrite tobytes_len. rewrite Forall_forall in HF. rewrite HF; [lia|].
        rewrite <- (firstn_skipn i ss). apply in_or_app. now left. }
    assert (Ls : length (to_bytes (kS s)) = R) by (rewrite tobytes_len; rewrite Forall_forall in HF; rewrite HF; [lia|eapply nth_error_In; eauto]).
    rewrite wr_ok by (rewrite app_length, skipn_length, LC; fold (to_bytes (kS s)); nia). eexists. split; [reflexivity|]. fold (to_bytes (kS s)).
    assert (FS : firstn (S i) ss = firstn i ss ++ [s]).
    { clear -N. revert i N. induction ss as [|x t IH]; intros [|i] H; try discriminate H; [injection H as ->; reflexivity|]. cbn [firstn app]. f_equal. now apply IH. }
    rewrite FS, map_app, concat_app. cbn [map concat]. rewrite app_nil_r. unfold splice.
    rewrite firstn_app, LC, Nat.sub_diag, firstn_all2 by lia. cbn [firstn]. rewrite app_nil_r. rewrite <- app_assoc. f_equal. f_equal.
    rewrite Ls. rewrite skipn_app, LC, skipn_all2 by lia. cbn [app]. rewrite skipn_skipn. f_equal. lia.
  - rewrite E, G. f_equal. cbn [Nat.add]. rewrite firstn_all, skipn_all2, app_nil_r by lia. reflexivity.
Qed.

Context (d : nat) (Hd : (0 < d)%nat).
Notation min := (d * R)%nat.
Definition tail (rest : list Z) (i : nat) : list Z := firstn R (skipn (i * R) rest).
Lemma tail_len rest i : length (tail rest i) = Nat.min R (length rest - i * R).
Proof. unfold tail. now rewrite firstn_length, skipn_length. Qed.
Lemma tail_slice rest i : (i < d)%nat -> (length rest <= min)%nat -> slice (rest ++ zeros (min - length rest)) (i * R) R = tail rest i ++ zeros (R - length (tail rest i)).
Proof.
  intros H1 H2. assert (Q : ((i + 1) * R <= min)%nat) by (apply Nat.mul_le_mono_r; lia). unfold slice, tail at 1.
  rewrite skipn_app, firstn_app, skipn_length. f_equal. rewrite tail_len.
  assert (E : skipn (i * R - length rest) (zeros (min - length rest)) = zeros (min - length rest - (i * R - length rest))).
  { unfold zeros. clear. generalize (i * R - length rest)%nat as a. generalize (min - length rest)%nat as b. induction b; intros [|a]; try reflexivity. apply IHb. }
  rewrite E. assert (E2 : forall a b, (a <= b)%nat -> firstn a (zeros b) = zeros a).
  { clear. intros a. induction a as [|a IH]; intros [|b] H; try lia; try reflexivity. unfold zeros in *. cbn [repeat firstn]. f_equal. apply IH. lia. }
  rewrite E2 by lia. f_equal. lia.
Qed.
Section fin.
Context (rest : list Z) (Hrest : (length rest <= min)%nat) (G V : nat -> list Z) (f : nat -> bool) (t : nat -> Z) (HG : forall i, (i < d)%nat -> length (G i) = n).
Definition leafS (i : nat) : list Z :=
  match tail rest i with
  | [] => G i
  | _ => output F rounds W (ubi_step F rounds W 48 (f i) true (t i + Z.of_nat (length (tail rest i))) (G i) (le_words 8 (tail rest i ++ zeros (R - length (tail rest i)))))
  end.
Lemma tail_nil i : (length rest <= i * R)%nat -> tail rest i = [].
Proof. intros H. unfold tail. rewrite skipn_all2 by lia. apply firstn_nil. Qed.
Lemma finish_ok j : forall k, (k + j)%nat = d -> exists ss, finish n perm j (map (fun i => mk 48 (G i) (V i) (f i) false (t i)) (seq k j)) (rest ++ zeros (min - length rest)) k (length rest - k * R) = Ok ss /\
  map kS ss = map leafS (seq k j) /\ map kV ss = map V (seq k j).
Proof.
  pose proof Hn as H4. assert (DONE : forall k j, (length rest <= k * R)%nat -> map kS (map (fun i => mk 48 (G i) (V i) (f i) false (t i)) (seq k j)) = map leafS (seq k j) /\ map kV (map (fun i => mk 48 (G i) (V i) (f i) false (t i)) (seq k j)) = map V (seq k j)).
  { intros k j0 H. split; rewrite map_map; [|reflexivity]. apply map_ext_in. intros i Hi. apply in_seq in Hi. cbn [mk kS]. unfold leafS. rewrite tail_nil; [reflexivity|]. assert (k * R <= i * R)%nat by (apply Nat.mul_le_mono_r; lia). lia. }
  induction j as [|j IH]; intros k Hk.
  - assert (length rest - k * R = 0)%nat by (replace k with d by lia; lia). eexists. split; [|now apply DONE; lia]. cbn [finish]. rewrite H. reflexivity.
  - destruct (Nat.eq_dec (length rest - k * R) 0) as [E0|E0].
    + eexists. split; [|apply DONE; lia]. cbn [finish]. rewrite E0. reflexivity.
    + cbn [finish seq map]. replace (length rest - k * R =? 0)%nat with false by (symmetry; now apply Nat.eqb_neq).
      assert (RM : (if (rate n <=? length rest - k * R)%nat then rate n else (length rest - k * R)%nat) = length (tail rest k)).
      { rewrite tail_len. unfold rate. destruct (Nat.leb_spec R (length rest - k * R)); lia. }
      cbv zeta. rewrite RM. unfold rate.
      assert (Q : ((k + 1) * R <= min)%nat) by (apply Nat.mul_le_mono_r; lia).
      rewrite (HashFinal_one F rounds perm Hn Hpi Hperm); [|rewrite tail_len; lia|rewrite app_length, length_zeros; lia|apply HG; lia]. cbn [bind].
      rewrite tail_slice by lia.
      destruct (IH (S k)) as (ss & E & M1 & M2); [lia|].
      replace (length rest - k * R - length (tail rest k))%nat with (length rest - S k * R)%nat by (rewrite tail_len; cbn [Nat.mul]; lia).
      rewrite E. cbn [bind]. eexists. split; [reflexivity|]. cbn [map mk kS kV]. rewrite M1, M2. split; [|reflexivity]. f_equal.
      unfold leafS. destruct (tail rest k) eqn:ET; [|reflexivity]. exfalso. apply (f_equal (@length Z)) in ET. rewrite tail_len in ET. cbn [length] in ET. lia.
Qed.
End fin.

(** ** the leaves of a message *)
Lemma parts_of bs rest i : Forall (blk min) bs -> (length rest < min)%nat -> (i < d)%nat ->
  leaf_part F d i (concat bs ++ rest) = map (fun b => slice b (i * R) R) bs /\ leaf_tail F d i (concat bs ++ rest) = tail rest i.
Proof.
  pose proof Hn as H4. intros HB HR Hi. unfold leaf_part, leaf_tail, tail. change (nb F) with R.
  assert (LC : length (concat bs) = (length bs * min)%nat) by (apply concat_length_eq; intros b Hb; rewrite Forall_forall in HB; apply (HB b Hb)).
  assert (Q : (length (concat bs ++ rest) / min)%nat = length bs).
  { rewrite app_length, LC. rewrite Nat.add_comm, Nat.div_add by nia. now rewrite Nat.div_small. }
  rewrite Q. split.
  - assert (P : forall bs pre, Forall (blk min) bs -> map (fun j => slice (concat (pre ++ bs) ++ rest) ((j * d + i) * R) R) (seq (length pre) (length bs)) = map (fun b => slice b (i * R) R) bs \/ ~ Forall (blk min) pre).
    { clear - Hi H4 Hd. intros bs. induction bs as [|b bs IH]; intros pre HB; [left; reflexivity|].
      inversion HB as [|? ? (B1 & B2) B3]; subst.
      destruct (IH (pre ++ [b]) B3) as [E|E].
      - cbn [length seq map]. rewrite <- app_assoc in E. cbn [app] in E. rewrite app_length in E. cbn [length] in E. rewrite Nat.add_1_r in E. rewrite E.
        destruct (Forall_dec (fun x : list Z => length x = min) (fun x => Nat.eq_dec (length x) min) pre) as [FP|FP].
        + left. f_equal. assert (LP : length (concat pre) = (length pre * min)%nat) by (apply concat_length_eq; intros x Hx; rewrite Forall_forall in FP; now apply FP).
          unfold slice. rewrite concat_app, <- app_assoc. replace ((length pre * d + i) * R)%nat with (i * R + length (concat pre))%nat by (rewrite LP; ring).
          rewrite <- skipn_skipn, skip_len. cbn [concat]. rewrite <- app_assoc, skipn_app, firstn_app.
          assert (((i + 1) * R <= min)%nat) by (apply Nat.mul_le_mono_r; lia).
          replace (R - length (skipn (i * R) b))%nat with 0%nat by (rewrite skipn_length; lia). cbn [firstn]. now rewrite app_nil_r.
        + right. intros FP'. apply FP. eapply Forall_impl; [|exact FP']. intros x (_ & X). exact X.
      - right. intros FP. apply E. apply Forall_app. split; [exact FP|]. constructor; [split; auto|constructor]. }
    destruct (P bs [] HB) as [E|E]; [exact E|]. exfalso. apply E. constructor.
  - f_equal. rewrite <- LC, Nat.add_comm. rewrite <- skipn_skipn, skip_len. reflexivity.
Qed.

Context (c : nat) (Hc : (0 < c)%nat).
Definition tfresh : kobj := (map L0 (seq 0 d), zeros min, 0%nat).
Definition TA (o : kobj) (m : list Z) : Prop := pinv R gg (I F) d (map L0 (seq 0 d)) m o.
Notation TH := (skein_hash_tree v W cfg d).
Lemma TA_fresh : TA tfresh [].
Proof.
  apply ainv_start; [unfold minsize; pose proof Hn; nia| |apply bytes_zeros|apply length_zeros]. split; [now rewrite map_length, seq_length|].
  apply Forall_forall. intros s Hs. apply in_map_iff in Hs. destruct Hs as (i & <- & _). apply L0_I.
Qed.
Lemma TA_upd o m p : TA o m -> p_ok p -> exists o', skp_update v d (c * min) o (p_in p) (p_off p) (p_len p) = Ok o' /\ TA o' (m ++ p_data p).
Proof.
  destruct o as ((ss & buf) & pos). intros HA (P1 & P2). unfold skp_update.
  rewrite update_par by (destruct HA as ((L & _) & _); exact L). unfold p_data.
  apply (Proofs_SHA2Par.update_ok R (fun s b o => ProcessBlock n perm b o s R) gg (I F) (fun _ _ _ _ => UB) (fun _ _ _ => UB) (kzero n) (fun _ => []) d) with (c := c); auto.
  - pose proof Hn. lia.
  - intros s b o. apply Process_ok; auto using Hn, Hpi, Hperm.
Qed.
Lemma TA_bad o out oo : (oo <= length out)%nat -> (length out < oo + R)%nat -> skp_finalize v o out oo = Throw InvalidSize.
Proof.
  destruct o as ((ss & buf) & pos). intros H1 H2. unfold skp_finalize, SkeinP_Finalize, rate. replace (oo <=? length out)%nat with true by (symmetry; apply Nat.leb_le; lia).
  replace (length out - oo <? 8 * n)%nat with true by (symmetry; apply Nat.ltb_lt; lia). reflexivity.
Qed.
Lemma out_len G : length (output F rounds W G) = n.
Proof. unfold output. apply (ubi_len F rounds perm); auto using Hn, Hpi, Hperm. Qed.
Lemma TH_len m : length (TH m) = R.
Proof. unfold skein_hash_tree, skein_tree, root. rewrite tobytes_len, out_len. reflexivity. Qed.
Lemma rparams : SkeinParams_new (Z.of_nat R) 0 0 = Ok (default_params v).
Proof. clear Hcfg. destruct Hv as [->|[->| ->]]; reflexivity. Qed.
Lemma states_of bs : fold_left (gls R gg 0) bs (map L0 (seq 0 d)) = map (fun i => fold_left gg (map (fun b => slice b (i * R) R) bs) (L0 i)) (seq 0 d).
Proof.
  change (gls R gg 0) with (fun ls b => gls R gg 0 ls b). rewrite fold_gls, map_length, seq_length.
  assert (E : combine (seq 0 d) (map L0 (seq 0 d)) = map (fun i => (i, L0 i)) (seq 0 d)) by (generalize (seq 0 d); intros l; induction l as [|x l IH]; [reflexivity|]; cbn [map combine]; f_equal; exact IH).
  rewrite E, map_map. apply map_ext. intros i. cbn [fst snd]. generalize (L0 i). induction bs as [|b bs IH]; intros s; [reflexivity|]. cbn [fold_left map]. apply IH.
Qed.
Lemma fin_any buf pos G f t out oo : length buf = min -> (pos <= min)%nat -> (forall i, (i < d)%nat -> length (G i) = n) -> (oo + R <= length out)%nat ->
  skp_finalize v (map (fun i => mk 48 (G i) (LS i) (f i) false (t i)) (seq 0 d), buf, pos) out oo =
  Ok (tfresh, splice out oo (to_bytes (root F rounds W (map (fun i => to_bytes (leafS (slice buf 0 pos) G f t i)) (seq 0 d))))).
Proof.
  pose proof Hn as H4. pose proof Hpi as HP. pose proof Hperm as HQ.
  intros Lb P HG Ho. unfold skp_finalize, SkeinP_Finalize, rate.
  replace (length out - oo <? 8 * n)%nat with false by (symmetry; apply Nat.ltb_ge; lia). rewrite Bool.andb_false_r. cbn [negb guard bind].
  unfold clear_from. replace (pos <=? length buf)%nat with true by (symmetry; apply Nat.leb_le; lia). cbn [safe bind].
  rewrite wr_ok by (rewrite length_zeros; lia). cbn [bind].
  set (rest := slice buf 0 pos) in *. assert (Lr : length rest = pos) by (apply length_slice; lia).
  assert (EB : splice buf pos (zeros (length buf - pos)) = rest ++ zeros (min - length rest)).
  { unfold splice. rewrite length_zeros, skipn_all2 by lia. rewrite app_nil_r, Lr, Lb. reflexivity. }
  rewrite EB.
  destruct (finish_ok rest ltac:(lia) G LS f t HG d 0 eq_refl) as (ss' & E & M1 & M2).
  rewrite map_length, seq_length. change (0 * R)%nat with 0%nat in E. rewrite Nat.sub_0_r, Lr in E. rewrite Lr, E. cbn [bind].
  rewrite rparams. cbn [bind]. rewrite (GetConfig_ok v) by auto using default_ok, Hn2. cbn [bind].
  assert (LD : length (cfg_bytes (default_params v)) = R) by (rewrite (cfg_len v); auto using default_ok, Hn2).
  assert (LC : length (le_words 8 (cfg_bytes (default_params v))) = n) by (apply le_words_len; lia).
  rewrite rd_ok by (rewrite LC; lia). cbn [bind]. rewrite slice_full by exact LC.
  rewrite (Load_zero v H4 Hn2 HP HQ) by exact LD. cbn [bind].
  assert (Lss : length ss' = d) by (apply (f_equal (@length _)) in M1; rewrite !map_length, seq_length in M1; exact M1).
  assert (LL : forall i, (i < d)%nat -> length (leafS rest G f t i) = n).
  { intros i Hi. unfold leafS. destruct (tail rest i); [now apply HG|apply out_len]. }
  assert (FL : Forall (fun s => length (kS s) = n) ss').
  { apply Forall_forall. intros s Hin. apply (in_map kS) in Hin. rewrite M1 in Hin. apply in_map_iff in Hin. destruct Hin as (i & <- & Hi). apply in_seq in Hi. apply LL. lia. }
  rewrite stored_all; [|exact FL|rewrite app_length, length_zeros, Lss; lia]. cbn [bind].
  set (bb := map (fun s => to_bytes (kS s)) ss').
  assert (Lbb : length bb = d) by (unfold bb; now rewrite map_length).
  assert (FB : Forall (fun b => length b = R) bb).
  { apply Forall_forall. intros b Hb. apply in_map_iff in Hb. destruct Hb as (s & <- & Hin). rewrite tobytes_len. rewrite Forall_forall in FL. now rewrite FL. }
  assert (Lcb : length (concat bb) = (length bb * R)%nat) by (apply concat_length_eq; intros b Hb; rewrite Forall_forall in FB; now apply FB).
  rewrite Lss, <- Lbb. unfold HashFinal. cbv zeta. cbn [mk kS kV kT]. rewrite SetFinal_tw by auto.
  replace (length bb * R =? 0)%nat with false by (symmetry; apply Nat.eqb_neq; rewrite Lbb; nia).
  set (S1 := threefish F rounds (zeros n) (tweak W 4 true true 32) (le_words 8 (cfg_bytes (default_params v)))).
  assert (L1 : length S1 = n) by (unfold S1; rewrite threefish_len; auto).
  change (KState S1 (chain0 F rounds W (cfg_bytes (default_params v))) (tw 4 true true 32)) with (mk 4 S1 (chain0 F rounds W (cfg_bytes (default_params v))) true true 32).
  destruct (final_all bb FB (length bb * R) (concat bb) 0 S1 (chain0 F rounds W (cfg_bytes (default_params v))) true 32) as (f' & t' & LR & ER).
  { apply slice_full. exact Lcb. } { lia. } { lia. } { exact L1. }
  rewrite ER. cbn [bind]. unfold rate. rewrite (out_block F rounds perm H4 HP HQ) by exact LR. cbn [bind mk kS].
  assert (EH : concat (map (le_bytes 8) (output F rounds W (root_blocks F rounds W true 32 S1 bb))) = to_bytes (root F rounds W (map (fun i => to_bytes (leafS rest G f t i)) (seq 0 d)))).
  { unfold root. fold (to_bytes (output F rounds W (root_blocks F rounds W true 32 S1 bb))). do 2 f_equal. unfold S1. rewrite (default_cfg v Hv). f_equal.
    unfold bb. rewrite <- (map_map kS to_bytes), M1, map_map. reflexivity. }
  rewrite EH. rewrite wr_ok by (rewrite tobytes_len; unfold root; rewrite out_len; lia). cbn [bind]. rewrite Lbb. apply f_equal. apply (f_equal (fun x => (x, splice out oo (to_bytes (root F rounds W (map (fun i => to_bytes (leafS rest G f t i)) (seq 0 d))))))).
  unfold KReset, tfresh. rewrite Lcb, Lbb. apply (f_equal (fun x : list kstate => (x, zeros min, 0%nat))).
  rewrite <- (map_map kV (fun x => KState x x (StartNew 48))), M2, map_map. rewrite StartNew_tw by auto. reflexivity.
Qed.
Lemma TA_fin o m out oo : TA o m -> (oo + R <= length out)%nat -> skp_finalize v o out oo = Ok (tfresh, splice out oo (TH m)).
Proof.
  pose proof Hn as H4. pose proof Hpi as HP. pose proof Hperm as HQ.
  destruct o as ((ss & buf) & pos). intros (Is & Bb & Lb & P & bs & Hbs & Hm & Hs) Ho. unfold minsize in *.
  set (rest := slice buf 0 pos) in *. assert (Lr : length rest = pos) by (apply length_slice; lia).
  rewrite Hs, states_of.
  (* the states in terms of chaining values *)
  assert (ST : exists G f t, (forall i, (i < d)%nat -> length (G i) = n) /\
    map (fun i => fold_left gg (map (fun b => slice b (i * R) R) bs) (L0 i)) (seq 0 d) = map (fun i => mk 48 (G i) (LS i) (f i) false (t i)) (seq 0 d) /\
    forall i, (i < d)%nat -> leafS rest G f t i = leaf F rounds W cfg d i m).
  { set (one := fun i => fold_left gg (map (fun b => slice b (i * R) R) bs) (L0 i)).
    assert (EACH : forall i, (i < d)%nat -> exists G', length G' = n /\ one i = mk 48 G' (LS i) (match bs with [] => true | _ => false end) false (0 + Z.of_nat R * Z.of_nat (length bs)) /\
      (forall last, ubi_blocks F rounds W 48 true 0 (LS i) (map (fun b => slice b (i * R) R) bs ++ [last]) = ubi_step F rounds W 48 (match bs with [] => true | _ => false end) true (0 + Z.of_nat R * Z.of_nat (length bs) + Z.of_nat (length last)) G' (le_words 8 (last ++ zeros (R - length last)))) /\
      ubi_open F rounds W 48 true 0 (LS i) (map (fun b => slice b (i * R) R) bs) = G').
    { intros i Hi. assert (FB : Forall (blk R) (map (fun b => slice b (i * R) R) bs)).
      { apply Forall_forall. intros b Hb. apply in_map_iff in Hb. destruct Hb as (b' & <- & Hin). rewrite Forall_forall in Hbs. destruct (Hbs b' Hin) as (B1 & B2).
        assert (((i + 1) * R <= min)%nat) by (apply Nat.mul_le_mono_r; lia). split; [now apply bytes_slice|apply length_slice; lia]. }
      assert (LI : length (LS i) = n) by (apply start_len; auto using Hn2).
      destruct (fold_mk F rounds perm H4 HP HQ _ FB (LS i) (LS i) true 0 LI) as (G' & L' & E1 & E2 & E3). rewrite map_length in E1, E2.
      exists G'. split; [exact L'|split; [|split; [|exact E3]]].
      - unfold one, leaf0. rewrite E1. destruct bs; reflexivity.
      - intros last. rewrite E2. destruct bs; reflexivity. }
    exists (fun i => kS (one i)), (fun i => match bs with [] => true | _ => false end), (fun i => 0 + Z.of_nat R * Z.of_nat (length bs)). split; [|split].
    - intros i Hi. destruct (EACH i Hi) as (G' & L' & E & _). rewrite E. exact L'.
    - apply map_ext_in. intros i Hi. apply in_seq in Hi. destruct (EACH i ltac:(lia)) as (G' & L' & E & _). fold (one i). rewrite E. reflexivity.
    - intros i Hi. destruct (EACH i Hi) as (G' & L' & E & E2 & E3). rewrite Hm.
      destruct (parts_of bs rest i Hbs ltac:(lia) Hi) as (Q1 & Q2). unfold leafS, leaf. rewrite Q1, Q2. rewrite E. cbn [mk kS].
      destruct (tail rest i) eqn:ET; [symmetry; exact E3|]. rewrite <- ET. f_equal. symmetry. apply E2. }
  destruct ST as (G & f & t & HG & EM & EL). rewrite EM, fin_any by (auto; lia). do 2 f_equal. f_equal. unfold skein_hash_tree, skein_tree. do 2 f_equal. fold rest.
  apply map_ext_in. intros i Hi. apply in_seq in Hi. rewrite EL by lia. reflexivity.
Qed.
Theorem tree_history cs : Forall dcall_ok cs -> exists rs, dhistory (skp_update v d (c * min)) (skp_finalize v) (skp_compute v d (c * min)) tfresh tfresh cs = Ok rs /\ expected TH R [] cs rs.
Proof.
  intros HC. apply (history_ok _ _ _ tfresh TA TH R) with (m := []); auto.
  - apply TA_fresh.
  - intros. now apply TA_upd.
  - intros. now apply TA_fin.
  - intros. now apply TA_bad.
  - apply TH_len.
  - apply TA_fresh.
Qed.
End tree.
