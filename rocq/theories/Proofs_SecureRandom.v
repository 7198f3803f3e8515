(** SecureRandom: buffering and sampling. *)
From Verif Require Import BaseLemmas Spec_Common Spec_Random Model_Modes Model_SecureRandom Session_Random Proofs_Common Proofs_Windows.
Open Scope Z_scope.

Lemma source_len g a n : length (source g a n) = n.
Proof. unfold source. now rewrite map_length, seq_length. Qed.
Lemma source_app g a n m : source g a (n + m) = source g a n ++ source g (a + n) m.
Proof. unfold source. now rewrite seq_app, map_app. Qed.
Lemma source_slice g a n o k : (o + k <= n)%nat -> slice (source g a n) o k = source g (a + o) k.
Proof.
  intros H. replace n with (o + (k + (n - o - k)))%nat by lia. rewrite !source_app. unfold slice.
  rewrite skipn_app, source_len, Nat.sub_diag, skipn_all2 by (rewrite source_len; lia). cbn [app skipn].
  rewrite firstn_app, source_len, Nat.sub_diag, firstn_all2 by (rewrite source_len; lia). now rewrite app_nil_r.
Qed.
Notation B := BUFFER_SIZE.
Lemma serve_eq n p a : serve n (p, a) = if (n <=? a)%nat then (p, (p + n, a - n)%nat) else (p + a, (p + a + n, B - n mod B))%nat.
Proof. reflexivity. Qed.
Lemma B_pos : (0 < B)%nat.
Proof. unfold BUFFER_SIZE. lia. Qed.
#[local] Opaque BUFFER_SIZE.
Lemma block_source g k : engine_block g k = source g (B * k) B.
Proof. reflexivity. Qed.

(** the buffer holds the next [a] bytes, of [p] used *)
Definition inv (g : nat -> Z) (s : rnd) (pa : nat * nat) : Prop :=
  length (r_buf s) = B /\ (r_pos s <= B)%nat /\ snd pa = (B - r_pos s)%nat /\ (fst pa + snd pa = B * r_blk s)%nat /\
  skipn (r_pos s) (r_buf s) = source g (fst pa) (snd pa).
Lemma inv_new g : inv g SecureRandom_new (0, 0)%nat.
Proof.
  unfold inv, SecureRandom_new. cbn [r_pos r_buf r_blk fst snd]. assert (length (zeros B) = B) by (unfold zeros; apply repeat_length).
  split; [assumption|]. split; [lia|]. split; [lia|]. split; [lia|]. rewrite skipn_all2 by lia. reflexivity.
Qed.

Lemma move_ok secure buf io out oo len : (io + len <= length buf)%nat -> (oo + len <= length out)%nat ->
  exists buf', buf_move secure buf io out oo len = Ok (buf', splice out oo (slice buf io len)) /\ length buf' = length buf /\ skipn (io + len) buf' = skipn (io + len) buf.
Proof.
  intros H1 H2. unfold buf_move. rewrite wcopy_ok by assumption. cbn [bind]. destruct secure.
  - exists buf. auto.
  - assert (Hz : length (zeros len) = len) by (unfold zeros; apply repeat_length). rewrite wr_ok by (rewrite Hz; assumption). cbn [bind].
    eexists. split; [reflexivity|]. split; [rewrite length_splice; lia|].
    unfold splice. rewrite Hz, app_assoc, skipn_app. assert (Hl : length (firstn io buf ++ zeros len) = (io + len)%nat) by (rewrite app_length, Hz, firstn_length; lia).
    rewrite Hl, Nat.sub_diag. rewrite skipn_all2 by lia. reflexivity.
Qed.
Lemma splice_next out off (a b : list Z) : (off + length a + length b <= length out)%nat -> splice (splice out off a) (off + length a) b = splice out off (a ++ b).
Proof. intros H. now rewrite splice_splice_next by lia. Qed.

Lemma gen_loop_ok g secure : forall fuel buf k out off len, length buf = B -> (len <= fuel)%nat -> (off + len <= length out)%nat ->
  exists buf', gen_loop fuel g secure buf k out off len =
    Ok (buf', (k + len / B)%nat, splice out off (source g (B * k) (len / B * B)), (off + len / B * B)%nat, (len mod B)%nat) /\ length buf' = B.
Proof.
  induction fuel as [|fuel IH]; intros buf k out off len Hb Hf Ho; pose proof B_pos as HB.
  - assert (len = 0)%nat by lia. subst len. cbn [gen_loop]. rewrite Hb. exists buf. split; [|assumption].
    pose proof B_pos. rewrite Nat.div_small, Nat.mod_small by assumption. destruct (B <=? 0)%nat eqn:E; [apply Nat.leb_le in E; lia|]. cbn [Nat.mul]. rewrite !Nat.add_0_r. f_equal. f_equal. f_equal. f_equal.
    unfold source. cbn [seq map]. unfold splice. cbn [length app]. rewrite Nat.add_0_r. now rewrite firstn_skipn.
  - cbn [gen_loop]. rewrite Hb. destruct (B <=? len)%nat eqn:E.
    + apply Nat.leb_le in E.
      destruct (move_ok secure (engine_block g k) 0 out off B) as (b' & Hm & Lb & _); [rewrite block_source, source_len; lia | lia |].
      rewrite Hm. cbn [bind fst snd]. rewrite block_source, source_len in Lb.
      rewrite block_source, source_slice, Nat.add_0_r by lia.
      assert (Hd : (len / B = S ((len - B) / B))%nat). { replace len with (len - B + 1 * B)%nat at 1 by lia. rewrite Nat.div_add by lia. lia. }
      assert (Hm2 : (len mod B = (len - B) mod B)%nat). { replace len with (len - B + 1 * B)%nat at 1 by lia. now rewrite Nat.mod_add by lia. }
      assert (Hdm := Nat.div_mod (len - B) B ltac:(lia)).
      destruct (IH b' (k + 1)%nat (splice out off (source g (B * k) B)) (off + B)%nat (len - B)%nat Lb ltac:(lia)) as (b2 & Hl & L2); [rewrite length_splice; rewrite ?source_len; lia|].
      rewrite Hl. exists b2. split; [|exact L2]. rewrite Hd, Hm2. set (q := ((len - B) / B)%nat) in *.
      replace (S q * B)%nat with (B + q * B)%nat by lia. rewrite source_app. replace (B * k + B)%nat with (B * (k + 1))%nat by lia.
      rewrite <- splice_next by (rewrite !source_len; lia). rewrite source_len. replace (k + 1 + q)%nat with (k + S q)%nat by lia. replace (off + B + q * B)%nat with (off + (B + q * B))%nat by lia. reflexivity.
    + apply Nat.leb_gt in E. exists buf. split; [|assumption]. rewrite Nat.div_small, Nat.mod_small by assumption. cbn [Nat.mul]. rewrite !Nat.add_0_r.
      unfold source. cbn [seq map]. unfold splice. cbn [length app]. now rewrite Nat.add_0_r, firstn_skipn.
Qed.

Lemma splice_over out off (a b : list Z) : (length a <= length b)%nat -> (off + length b <= length out)%nat -> splice (splice out off a) off b = splice out off b.
Proof.
  intros H1 H2. apply (list_ext 0); [rewrite !length_splice by (rewrite ?length_splice; lia); reflexivity|]. intros i Hi. rewrite !length_splice in Hi by (rewrite ?length_splice; lia).
  rewrite !nth_splice by (rewrite ?length_splice; lia). destruct (i <? off)%nat; [reflexivity|]. destruct (i <? off + length b)%nat eqn:E; [reflexivity|]. apply Nat.ltb_ge in E.
  destruct (i <? off + length a)%nat eqn:E2; [apply Nat.ltb_lt in E2; lia|]. reflexivity.
Qed.

Lemma Generate_ok g secure s pa out off len : inv g s pa -> (off + len <= length out)%nat ->
  exists s', Generate g secure s out off len = Ok (splice out off (source g (fst (serve len pa)) len), s') /\ inv g s' (snd (serve len pa)).
Proof.
  intros (Lb & Lp & Ha & Hp & Hs) Ho. destruct pa as [p a]. cbn [fst snd] in *. pose proof B_pos as HB. rewrite serve_eq. unfold Generate. rewrite Lb. rewrite <- Ha.
  destruct (len =? 0)%nat eqn:E0.
  - apply Nat.eqb_eq in E0. subst len. cbn [Nat.leb fst snd]. rewrite Nat.add_0_r, Nat.sub_0_r. exists s. split; [|repeat split; assumption].
    unfold source. cbn [seq map]. unfold splice. cbn [length app]. now rewrite Nat.add_0_r, firstn_skipn.
  - apply Nat.eqb_neq in E0. destruct (a <? len)%nat eqn:E1.
    + apply Nat.ltb_lt in E1. destruct (len <=? a)%nat eqn:E2; [apply Nat.leb_le in E2; lia|]. cbn [fst snd].
      assert (P : exists b1 pre, (if (0 <? a)%nat then buf_move secure (r_buf s) (r_pos s) out off a else Ok (r_buf s, out)) = Ok (b1, splice out off pre) /\ length b1 = B /\ (length pre <= len)%nat).
      { destruct (0 <? a)%nat eqn:E3.
        - destruct (move_ok secure (r_buf s) (r_pos s) out off a) as (b1 & Hm & L1 & _); [lia | lia |]. exists b1, (slice (r_buf s) (r_pos s) a). split; [exact Hm|]. split; [lia|]. rewrite length_slice; lia.
        - exists (r_buf s), []. split; [|split; [assumption | cbn; lia]]. unfold splice. cbn [length app]. now rewrite Nat.add_0_r, firstn_skipn. }
      destruct P as (b1 & pre & -> & L1 & Lpre). cbn [bind fst snd].
      assert (Lo : length (splice out off pre) = length out) by (rewrite length_splice; lia).
      destruct (gen_loop_ok g secure len b1 (r_blk s) (splice out off pre) off len L1 (le_n _)) as (b2 & -> & L2); [lia|]. cbn [bind].
      assert (Hdm := Nat.div_mod len B ltac:(lia)). assert (Hmb := Nat.mod_upper_bound len B ltac:(lia)).
      set (q := (len / B)%nat) in *. set (t := (len mod B)%nat) in *.
      destruct (move_ok secure (engine_block g (r_blk s + q)) 0 (splice (splice out off pre) off (source g (B * r_blk s) (q * B))) (off + q * B)%nat t) as (b3 & Hm & L3 & K3).
      { rewrite block_source, source_len. lia. } { rewrite length_splice; rewrite ?source_len; lia. }
      rewrite Hm. cbn [bind fst snd]. rewrite block_source, source_len in L3. rewrite block_source in K3. rewrite block_source, source_slice, Nat.add_0_r by lia.
      eexists. split.
      * replace (off + q * B)%nat with (off + length (source g (B * r_blk s) (q * B)))%nat by (now rewrite source_len).
        rewrite splice_next by (rewrite !source_len; lia). replace (B * (r_blk s + q))%nat with (B * r_blk s + q * B)%nat by lia. rewrite <- source_app.
        replace (q * B + t)%nat with len by lia. rewrite splice_over by (rewrite ?source_len; lia). rewrite Hp. reflexivity.
      * unfold inv. cbn [r_buf r_pos r_blk fst snd]. split; [exact L3|]. split; [lia|]. split; [reflexivity|]. split; [lia|].
        cbn [Nat.add] in K3. rewrite K3. rewrite <- (firstn_all2 (n := B - t) (skipn t (source g (B * (r_blk s + q)) B))) by (rewrite skipn_length, source_len; lia).
        change (firstn (B - t) (skipn t (source g (B * (r_blk s + q)) B))) with (slice (source g (B * (r_blk s + q)) B) t (B - t)).
        rewrite source_slice by lia. f_equal. lia.
    + apply Nat.ltb_ge in E1. destruct (len <=? a)%nat eqn:E2; [|apply Nat.leb_gt in E2; lia]. cbn [fst snd].
      destruct (move_ok secure (r_buf s) (r_pos s) out off len) as (b1 & Hm & L1 & K1); [lia | lia |]. rewrite Hm. cbn [bind fst snd].
      assert (Hsl : slice (r_buf s) (r_pos s) len = source g p len).
      { unfold slice. rewrite Hs. change (firstn len (source g p a)) with (slice (source g p a) 0 len). rewrite source_slice by lia. now rewrite Nat.add_0_r. }
      rewrite Hsl. eexists. split; [reflexivity|]. unfold inv. cbn [r_buf r_pos r_blk fst snd]. split; [lia|]. split; [lia|]. split; [lia|]. split; [lia|].
      rewrite K1. rewrite Nat.add_comm, <- skipn_skipn, Hs. rewrite <- (firstn_all2 (n := a - len) (skipn len (source g p a))) by (rewrite skipn_length, source_len; lia).
      change (firstn (a - len) (skipn len (source g p a))) with (slice (source g p a) len (a - len)). now rewrite source_slice by lia.
Qed.
Lemma Generate_all_ok g secure s pa n : inv g s pa ->
  exists s', Generate_all g secure s (zeros n) = Ok (source g (fst (serve n pa)) n, s') /\ inv g s' (snd (serve n pa)).
Proof.
  intros H. assert (Hz : length (zeros n) = n) by (unfold zeros; apply repeat_length). destruct (Generate_ok g secure s pa (zeros n) 0 n H) as (s' & E & I); [lia|]. exists s'. split; [|exact I].
  unfold Generate_all. rewrite Hz, E. f_equal. f_equal. unfold splice. cbn [firstn app Nat.add]. rewrite source_len. rewrite skipn_all2 by lia. apply app_nil_r.
Qed.
