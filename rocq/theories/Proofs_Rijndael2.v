(** Block functions and key schedule of RHX (Model_Rijndael.v) compute FIPS 197. *)
From Verif Require Import Base BaseLemmas Model_IntegerTools Model_Modes Model_RijndaelGen Model_Rijndael
  Spec_AES Proofs_AES Proofs_IntegerTools Proofs_Windows Proofs_Sponge Proofs_Rijndael.
Open Scope Z_scope.

(** ** chunks as slices *)
Lemma chunks_slices {A} b n : (0 < b)%nat -> forall o (l : list A), length l = (o + b * n)%nat ->
  chunks b (skipn o l) = map (fun i => slice l (o + b * i) b) (seq 0 n).
Proof.
  intros Hb. induction n as [|n IH]; intros o l Hl.
  - rewrite skipn_all2 by lia. reflexivity.
  - rewrite chunks_cons; [|lia|intros E; apply (f_equal (@length A)) in E; rewrite skipn_length in E; cbn in E; nia].
    cbn [seq map]. rewrite Nat.mul_0_r, Nat.add_0_r. unfold slice at 1. f_equal.
    rewrite skipn_skipn, (IH (b + o)%nat) by nia. rewrite <- seq_shift, map_map. apply map_ext. intros i. f_equal. nia.
Qed.

Section block.
  Variables (R : nat) (rk : list Z).
  Hypothesis HR : (1 <= R)%nat.
  Hypothesis Hrk : length rk = (4 * (R + 1))%nat.
  Definition rkey (i : nat) : list Z := slice (rk_bytes rk) (16 * i) 16.
  Definition rkeys : list (list Z) := map rkey (seq 0 (R + 1)).
  Lemma rkeys_chunks : chunks 16 (rk_bytes rk) = rkeys.
  Proof.
    change (rk_bytes rk) with (skipn 0 (rk_bytes rk)) at 1. rewrite (chunks_slices 16 (R + 1)) by (rewrite ?rk_len; lia).
    reflexivity.
  Qed.
  Lemma rkey_st i : (i <= R)%nat -> st 4 (rkey i).
  Proof.
    intros. split; [unfold rkey; rewrite length_slice; [reflexivity|rewrite rk_len; lia]|].
    unfold rkey, slice. apply bytes_firstn, bytes_skipn, rk_bytes_bytes.
  Qed.
  Lemma rkeys_ok : keys_ok 4 rkeys.
  Proof.
    split; [|unfold rkeys; rewrite map_length, seq_length; lia]. apply Forall_forall. intros k Hk.
    apply in_map_iff in Hk. destruct Hk as (i & <- & Hi). apply in_seq in Hi. apply rkey_st. lia.
  Qed.
  Lemma add_ok s i : st 4 s -> (i <= R)%nat -> KeyAddition s rk (4 * i) = Ok (xorl s (rkey i)).
  Proof.
    intros [L B] Hi. rewrite (KeyAddition_ok s rk (4 * i) 4) by (auto; lia). unfold rkey. rewrite L.
    now replace (4 * (4 * i))%nat with (16 * i)%nat by lia.
  Qed.
  Lemma offs_ok r : (nth r aes_offsets 0 <= 4)%nat.
  Proof. destruct r as [|[|[|[|[|r]]]]]; cbn; lia. Qed.
  Notation sh := (shift_rows aes_offsets).
  Notation ish := (inv_shift_rows aes_offsets).
  Lemma s1 s : st 4 s -> st 4 (sub_bytes s). Proof. apply sub_st. Qed.
  Lemma s2 s : st 4 s -> st 4 (sh s). Proof. apply shift_st; try exact offs_ok; lia. Qed.
  Lemma s3 s : st 4 s -> st 4 (mix_columns s). Proof. apply mix_st. Qed.
  Lemma t1 s : st 4 s -> st 4 (inv_sub_bytes s). Proof. apply inv_sub_st. Qed.
  Lemma t2 s : st 4 s -> st 4 (ish s). Proof. apply inv_shift_st; try exact offs_ok; lia. Qed.
  Lemma t3 s : st 4 s -> st 4 (inv_mix_columns s). Proof. apply inv_mix_st. Qed.

  Lemma sx a b : st 4 a -> st 4 b -> st 4 (xorl a b).
  Proof. intros [L B] [L' B']. split; [rewrite length_xorl; lia|now apply bytes_xorl]. Qed.

  Lemma enc_loop m : forall i s, (i + m = R)%nat -> st 4 s ->
    (s <- for_up i m (fun i s =>
      s <- Substitution s ;; s <- ShiftRows128 s ;; s <- MixColumns s ;; KeyAddition s rk (4 * i)) s ;;
     s <- Substitution s ;; s <- ShiftRows128 s ;; KeyAddition s rk (4 * R)) = Ok (rounds aes_offsets (map rkey (seq i (m + 1))) s).
  Proof.
    induction m as [|m IH]; intros i s Hi Hs; cbn [for_up Nat.add seq map].
    - cbn [bind]. rewrite (Substitution_ok s) by apply Hs. cbn [bind].
      rewrite ShiftRows128_ok by apply s1, Hs. cbn [bind]. fold aes_offsets. rewrite add_ok by (auto using s2, s1).
      cbn [rounds]. do 3 f_equal. lia.
    - rewrite (Substitution_ok s) by apply Hs. cbn [bind].
      rewrite ShiftRows128_ok by apply s1, Hs. cbn [bind]. fold aes_offsets.
      rewrite (MixColumns_ok _ 4) by (apply s2, s1, Hs). cbn [bind].
      rewrite add_ok by (auto using s3, s2, s1; lia). cbn [bind].
      rewrite IH by (try lia; apply sx; auto using s3, s2, s1; apply rkey_st; lia).
      rewrite rounds_cons; [reflexivity|]. replace (m + 1)%nat with (S m) by lia. discriminate.
  Qed.
  (** K_j, ..., K_0 *)
  Lemma dec_loop m : forall k s, (k + m = R - 1)%nat -> st 4 s ->
    (s <- for_up k m (fun k s =>
      let i := (R - 1 - k)%nat in
      s <- InvShiftRows s ;; s <- InvSubBytes s ;; s <- KeyAddition s rk (4 * i) ;; InvMixColumns s) s ;;
     s <- InvShiftRows s ;; s <- InvSubBytes s ;; KeyAddition s rk 0) = Ok (inv_rounds aes_offsets (map rkey (rev (seq 0 (m + 1)))) s).
  Proof.
    induction m as [|m IH]; intros k s Hk Hs; cbn [for_up].
    - cbn [bind]. rewrite InvShiftRows_ok by apply Hs. cbn [bind]. fold aes_offsets. rewrite InvSubBytes_ok by (apply t2, Hs).
      cbn [bind]. change (KeyAddition (inv_sub_bytes (ish s)) rk 0) with (KeyAddition (inv_sub_bytes (ish s)) rk (4 * 0)).
      rewrite add_ok by (auto using t2, t1; lia). reflexivity.
    - cbv zeta. rewrite InvShiftRows_ok by apply Hs. cbn [bind]. fold aes_offsets. rewrite InvSubBytes_ok by (apply t2, Hs).
      cbn [bind]. rewrite add_ok by (auto using t2, t1; lia). cbn [bind].
      assert (X : st 4 (xorl (inv_sub_bytes (ish s)) (rkey (R - 1 - k)))) by (apply sx; auto using t1, t2; apply rkey_st; lia).
      rewrite (InvMixColumns_ok _ 4) by apply X. cbn [bind]. rewrite IH by (try lia; now apply t3).
      replace (S m + 1)%nat with (S (m + 1)) by lia. rewrite (seq_S (m + 1) 0), rev_app_distr. cbn [rev app map Nat.add].
      replace (R - 1 - k)%nat with (m + 1)%nat by lia. f_equal.
      replace (m + 1)%nat with (S m) by lia. rewrite (seq_S m 0), rev_app_distr. reflexivity.
  Qed.
  Lemma bind_assoc {A B C} (m : res A) (f : A -> res B) (g : B -> res C) : bind (bind m f) g = bind m (fun x => bind (f x) g).
  Proof. destruct m; reflexivity. Qed.

  Lemma Encrypt128_ok inp io out oo : (io + 16 <= length (src inp out))%nat -> (oo + 16 <= length out)%nat -> bytes (src inp out) ->
    RHX_Encrypt128 R rk inp io out oo = Ok (splice out oo (rijndael aes_offsets rkeys (slice (src inp out) io 16))).
  Proof.
    intros Hi Ho Hb. unfold RHX_Encrypt128. rewrite wcopy_ok by (try rewrite length_zeros; lia). cbn [bind].
    set (b := slice (src inp out) io 16).
    assert (Sb : st 4 b) by (split; [apply length_slice; lia|unfold b, slice; now apply bytes_firstn, bytes_skipn]).
    replace (splice (zeros 16) 0 b) with b by (symmetry; apply splice_all; rewrite length_zeros; apply Sb).
    change (KeyAddition b rk 0) with (KeyAddition b rk (4 * 0)). rewrite add_ok by (auto; lia). cbn [bind].
    assert (X : st 4 (xorl b (rkey 0))) by (apply sx; auto; apply rkey_st; lia).
    pose proof (enc_loop (R - 1) 1 (xorl b (rkey 0)) ltac:(lia) X) as E.
    destruct (for_up 1 (R - 1) _ (xorl b (rkey 0))) as [s| |]; cbn [bind] in E |- *; try discriminate.
    destruct (Substitution s) as [s'| |]; cbn [bind] in E |- *; try discriminate.
    destruct (ShiftRows128 s') as [s''| |]; cbn [bind] in E |- *; try discriminate.
    rewrite E. cbn [bind].
    assert (F : rounds aes_offsets (map rkey (seq 1 (R - 1 + 1))) (xorl b (rkey 0)) = rijndael aes_offsets rkeys b).
    { unfold rkeys. replace (R + 1)%nat with (S R) by lia. cbn [seq map rijndael]. now replace (R - 1 + 1)%nat with R by lia. }
    rewrite F. assert (Sr : st 4 (rijndael aes_offsets rkeys b)) by (apply rijndael_st; auto using rkeys_ok, offs_ok; lia).
    destruct Sr as [Lr _]. rewrite wcopy_ok by lia. now rewrite slice_all by lia.
  Qed.
  Lemma Decrypt128_ok inp io out oo : (io + 16 <= length (src inp out))%nat -> (oo + 16 <= length out)%nat -> bytes (src inp out) ->
    RHX_Decrypt128 R rk inp io out oo = Ok (splice out oo (inv_rijndael aes_offsets rkeys (slice (src inp out) io 16))).
  Proof.
    intros Hi Ho Hb. unfold RHX_Decrypt128. rewrite wcopy_ok by (try rewrite length_zeros; lia). cbn [bind].
    set (b := slice (src inp out) io 16).
    assert (Sb : st 4 b) by (split; [apply length_slice; lia|unfold b, slice; now apply bytes_firstn, bytes_skipn]).
    replace (splice (zeros 16) 0 b) with b by (symmetry; apply splice_all; rewrite length_zeros; apply Sb).
    rewrite add_ok by (auto; lia). cbn [bind].
    destruct (Nat.eqb_spec R 0); [lia|]. cbn [negb safe bind].
    assert (X : st 4 (xorl b (rkey R))) by (apply sx; auto; apply rkey_st; lia).
    pose proof (dec_loop (R - 1) 0 (xorl b (rkey R)) ltac:(lia) X) as E.
    destruct (for_up 0 (R - 1) _ (xorl b (rkey R))) as [s| |]; cbn [bind] in E |- *; try discriminate.
    destruct (InvShiftRows s) as [s'| |]; cbn [bind] in E |- *; try discriminate.
    destruct (InvSubBytes s') as [s''| |]; cbn [bind] in E |- *; try discriminate.
    rewrite E. cbn [bind].
    assert (F : inv_rounds aes_offsets (map rkey (rev (seq 0 (R - 1 + 1)))) (xorl b (rkey R)) = inv_rijndael aes_offsets rkeys b).
    { unfold inv_rijndael, rkeys. rewrite <- map_rev. replace (R + 1)%nat with (S R) by lia. rewrite (seq_S R 0), rev_app_distr.
      cbn [rev app map Nat.add]. now replace (R - 1 + 1)%nat with R by lia. }
    rewrite F. assert (Sr : st 4 (inv_rijndael aes_offsets rkeys b)) by (apply inv_rijndael_st; auto using rkeys_ok, offs_ok; lia).
    destruct Sr as [Lr _]. rewrite wcopy_ok by lia. now rewrite slice_all by lia.
  Qed.
End block.

(** ** key schedule *)
Definition word4 (w : list Z) : Prop := length w = 4%nat /\ bytes w.
Lemma word4_sbox w : word4 w -> word4 (map sbox w).
Proof. intros [L B]. split; [now rewrite map_length|]. apply map_bytes; auto. exact sbox_byte. Qed.
Lemma word4_xorl a b : word4 a -> word4 b -> word4 (xorl a b).
Proof. intros [L B] [L' B']. split; [rewrite length_xorl; lia|now apply bytes_xorl]. Qed.
Lemma word4_rot w : word4 w -> word4 (rot_word w).
Proof.
  intros [L B]. destruct (four w L) as (a & b & c & d & ->). split; [reflexivity|]. apply bytes_four in B. cbn.
  unfold bytes. rewrite !Forall_cons_iff. intuition.
Qed.
Lemma be_val_xorl a b : word4 a -> word4 b -> be_val (xorl a b) = Z.lxor (be_val a) (be_val b).
Proof.
  intros [L B] [L' B']. unfold be_val. rewrite <- le_val_xorl by (rewrite ?rev_length; auto using bytes_rev; lia). f_equal.
  destruct (four a L) as (? & ? & ? & ? & ->), (four b L') as (? & ? & ? & ? & ->). reflexivity.
Qed.
Lemma be4 a b c d : be_val [a; b; c; d] = a * 2 ^ 24 + b * 2 ^ 16 + c * 2 ^ 8 + d.
Proof. unfold be_val. cbn [rev app le_val]. lia. Qed.
Lemma SubWord_ok w : word4 w -> SubWord (be_val w) = Ok (be_val (map sbox w)).
Proof.
  intros [L B]. destruct (four w L) as (a & b & c & d & ->). bytes4 B.
  pose proof (BeBytesTo32_correct (map sbox [a; b; c; d]) 0) as E.
  rewrite slice_all in E by reflexivity. cbn [map] in E |- *. unfold BeBytesTo32 in E. cbn [get nth_error bind Nat.add] in E.
  unfold SubWord. rewrite be4. unfold wshr. rewrite !Z.shiftr_div_pow2 by lia. change 0xFF with (Z.ones 8). rewrite !Z.land_ones by lia.
  unfold is_byte in *.
  replace ((a * 2 ^ 24 + b * 2 ^ 16 + c * 2 ^ 8 + d) / 2 ^ 24) with a by lia.
  replace ((a * 2 ^ 24 + b * 2 ^ 16 + c * 2 ^ 8 + d) / 2 ^ 16 mod 2 ^ 8) with b by lia.
  replace ((a * 2 ^ 24 + b * 2 ^ 16 + c * 2 ^ 8 + d) / 2 ^ 8 mod 2 ^ 8) with c by lia.
  replace ((a * 2 ^ 24 + b * 2 ^ 16 + c * 2 ^ 8 + d) mod 2 ^ 8) with d by lia.
  assert (L256 : length SBox = 256%nat) by reflexivity.
  rewrite !(get_ok SBox _ 0) by (rewrite L256; lia). cbn [bind]. rewrite !SBox_ok by (unfold is_byte; lia).
  apply E; [|cbn; lia]. unfold bytes. rewrite !Forall_cons_iff. repeat split; auto; apply sbox_byte; unfold is_byte; lia.
Qed.
Lemma rot_ok w : word4 w -> Z.lor (wshl 32 (be_val w) 8) (Z.land (wshr (be_val w) 24) 0xFF) = be_val (rot_word w).
Proof.
  intros [L B]. destruct (four w L) as (a & b & c & d & ->). bytes4 B. cbn [rot_word tl firstn app]. rewrite !be4.
  unfold wshl, wshr. rewrite Z.shiftr_div_pow2, Z.shiftl_mul_pow2 by lia. change 0xFF with (Z.ones 8). rewrite Z.land_ones by lia.
  unfold is_byte in *.
  replace ((a * 2 ^ 24 + b * 2 ^ 16 + c * 2 ^ 8 + d) / 2 ^ 24 mod 2 ^ 8) with a by lia.
  replace ((a * 2 ^ 24 + b * 2 ^ 16 + c * 2 ^ 8 + d) * 2 ^ 8 mod 2 ^ 32) with (Z.shiftl (b * 2 ^ 16 + c * 2 ^ 8 + d) 8)
    by (rewrite Z.shiftl_mul_pow2 by lia; lia).
  rewrite Z.lor_comm, lor_shiftl_add by lia. lia.
Qed.

Lemma next_len nk ws : length (next_word nk ws) = S (length ws).
Proof. unfold next_word. cbv zeta. rewrite app_length. cbn. lia. Qed.
Section sched.
  Variables (nk n : nat).
  Hypothesis Hnk : (4 <= nk)%nat.
  (** RoundKeys holds the words [ws], and zeros after them *)
  Definition holds (rk : list Z) (ws : list (list Z)) : Prop :=
    Forall word4 ws /\ (nk <= length ws <= n)%nat /\ rk = map be_val ws ++ zeros (n - length ws).
  Lemma holds_get rk ws j : holds rk ws -> (j < length ws)%nat -> get rk j = Ok (be_val (nth j ws [])).
  Proof.
    intros (_ & _ & ->) Hj. rewrite (get_ok _ _ (be_val [])) by (rewrite app_length, map_length; lia).
    rewrite app_nth1 by (rewrite map_length; lia). now rewrite map_nth.
  Qed.
  Lemma holds_word rk ws j : holds rk ws -> (j < length ws)%nat -> word4 (nth j ws []).
  Proof. intros (F & _) Hj. apply (proj1 (Forall_forall _ _) F). now apply nth_In. Qed.
  Lemma holds_put rk ws w i : holds rk ws -> i = length ws -> (i < n)%nat -> word4 w ->
    exists rk', put rk i (be_val w) = Ok rk' /\ holds rk' (ws ++ [w]).
  Proof.
    intros (F & L & ->) -> Hi Hw. replace (n - length ws)%nat with (S (n - length ws - 1)) by lia.
    eexists. split.
    - apply (put_at _ _ 0); [rewrite map_length; lia|cbn; lia].
    - split; [apply Forall_app; auto|]. split; [rewrite app_length; cbn; lia|].
      rewrite map_app, <- app_assoc, app_length. cbn [upd zeros repeat map app length]. do 3 f_equal. unfold zeros. f_equal. lia.
  Qed.
  Lemma last_nth (ws : list (list Z)) : ws <> [] -> last ws [] = nth (length ws - 1) ws [].
  Proof.
    induction ws as [|a ws IH]; [congruence|]. intros _. destruct ws as [|b ws]; [reflexivity|].
    change (last (a :: b :: ws) []) with (last (b :: ws) []). rewrite IH by congruence. cbn [length]. now replace (S (S (length ws)) - 1)%nat with (S (S (length ws) - 1)) by lia.
  Qed.
  (** a word without transformation *)
  Definition plain (i : nat) : Prop := (i mod nk =? 0)%nat = false /\ ((6 <? nk) && (i mod nk =? 4))%nat = false.
  Lemma plain_ok rk ws i a b : holds rk ws -> i = length ws -> (i < n)%nat -> plain i -> a = (i - nk)%nat -> b = (i - 1)%nat ->
    exists rk', xor_key rk i a b = Ok rk' /\ holds rk' (next_word nk ws).
  Proof.
    intros H Hi Hn [P1 P2] -> ->. pose proof H as (_ & L & _). unfold xor_key.
    rewrite (holds_get rk ws) by (auto; lia). cbn [bind]. rewrite (holds_get rk ws) by (auto; lia). cbn [bind].
    rewrite <- be_val_xorl by (apply (holds_word rk); auto; lia).
    unfold next_word. cbv zeta. rewrite <- Hi, P1, P2, last_nth, <- Hi by (intros ->; cbn in *; lia).
    apply holds_put; auto. apply word4_xorl; apply (holds_word rk); auto; lia.
  Qed.
  Definition next4 (ws : list (list Z)) := next_word nk (next_word nk (next_word nk (next_word nk ws))).
  Lemma three_ok rk ws i : holds rk ws -> S i = length ws -> (i + 3 < n)%nat -> plain (i + 1) -> plain (i + 2) -> plain (i + 3) ->
    exists rk', xor_three rk i nk = Ok rk' /\ holds rk' (next_word nk (next_word nk (next_word nk ws))).
  Proof.
    intros H Hi Hn P1 P2 P3. unfold xor_three.
    destruct (plain_ok rk ws (i + 1) (i + 1 - nk) i H) as (rk1 & -> & H1); auto; try lia. cbn [bind].
    destruct (plain_ok rk1 _ (i + 2) (i + 2 - nk) (i + 1) H1) as (rk2 & -> & H2); auto; rewrite ?next_len; try lia. cbn [bind].
    apply (plain_ok rk2); auto; rewrite ?next_len; try lia.
  Qed.
  Definition rcon_in (r : nat) : Prop := nth_error Rcon r = Some (be_val (rcon r)) /\ word4 (rcon r).
  Lemma rot_block rk ws i r : holds rk ws -> i = length ws -> (i + 3 < n)%nat -> (i mod nk =? 0)%nat = true -> (i / nk)%nat = r -> rcon_in r ->
    plain (i + 1) -> plain (i + 2) -> plain (i + 3) ->
    exists rk', ExpandRotBlock rk i nk r = Ok rk' /\ holds rk' (next4 ws).
  Proof.
    intros H Hi Hn P0 Hr [Hc Hw] P1 P2 P3. pose proof H as (_ & L & _). unfold ExpandRotBlock.
    rewrite (holds_get rk ws (i - nk)) by (auto; lia). cbn [bind].
    rewrite (holds_get rk ws (i - 1)) by (auto; lia). cbn [bind].
    assert (W1 : word4 (nth (i - 1) ws [])) by (apply (holds_word rk); auto; lia).
    assert (W2 : word4 (nth (i - nk) ws [])) by (apply (holds_word rk); auto; lia).
    rewrite rot_ok by auto. rewrite SubWord_ok by now apply word4_rot. cbn [bind].
    unfold get. rewrite Hc. cbn [bind].
    pose proof (word4_sbox _ (word4_rot _ W1)) as W3.
    rewrite <- !be_val_xorl by auto using word4_xorl.
    destruct (holds_put rk ws (xorl (xorl (nth (i - nk) ws []) (map sbox (rot_word (nth (i - 1) ws [])))) (rcon r)) i) as (rk1 & -> & H1);
      auto using word4_xorl; try lia. cbn [bind].
    assert (E : next_word nk ws = ws ++ [xorl (xorl (nth (i - nk) ws []) (map sbox (rot_word (nth (i - 1) ws [])))) (rcon r)]).
    { unfold next_word. cbv zeta. rewrite <- Hi, P0, last_nth, <- Hi, Hr by (intros ->; cbn in *; lia). now rewrite xorl_assoc. }
    rewrite <- E in H1. unfold next4. apply three_ok; auto. rewrite next_len. lia.
  Qed.
  Lemma sub_block rk ws i : holds rk ws -> i = length ws -> (i + 3 < n)%nat -> (i mod nk =? 0)%nat = false ->
    ((6 <? nk) && (i mod nk =? 4))%nat = true -> plain (i + 1) -> plain (i + 2) -> plain (i + 3) ->
    exists rk', ExpandSubBlock rk i nk = Ok rk' /\ holds rk' (next4 ws).
  Proof.
    intros H Hi Hn P0 Hr P1 P2 P3. pose proof H as (_ & L & _). unfold ExpandSubBlock.
    rewrite (holds_get rk ws (i - 1)) by (auto; lia). cbn [bind].
    assert (W1 : word4 (nth (i - 1) ws [])) by (apply (holds_word rk); auto; lia).
    assert (W2 : word4 (nth (i - nk) ws [])) by (apply (holds_word rk); auto; lia).
    rewrite SubWord_ok by auto. cbn [bind]. rewrite (holds_get rk ws (i - nk)) by (auto; lia). cbn [bind].
    pose proof (word4_sbox _ W1) as W3.
    rewrite <- !be_val_xorl by auto using word4_xorl. rewrite xorl_comm.
    destruct (holds_put rk ws (xorl (nth (i - nk) ws []) (map sbox (nth (i - 1) ws []))) i) as (rk1 & -> & H1);
      auto using word4_xorl; try lia. cbn [bind].
    assert (E : next_word nk ws = ws ++ [xorl (nth (i - nk) ws []) (map sbox (nth (i - 1) ws []))]).
    { unfold next_word. cbv zeta. rewrite <- Hi, P0, Hr, last_nth, <- Hi by (intros ->; cbn in *; lia). reflexivity. }
    rewrite <- E in H1. unfold next4. apply three_ok; auto. rewrite next_len. lia.
  Qed.
  Lemma load_ok key : (4 * nk <= length key)%nat -> bytes key -> (nk <= n)%nat ->
    exists rk, load_key key (zeros n) nk = Ok rk /\ holds rk (chunks 4 (firstn (4 * nk) key)).
  Proof.
    intros Hk Hb Hn.
    assert (C : forall m, (m <= nk)%nat -> length (chunks 4 (firstn (4 * m) key)) = m /\ Forall word4 (chunks 4 (firstn (4 * m) key))).
    { intros m Hm. assert (Lf : length (firstn (4 * m) key) = (4 * m)%nat) by (rewrite firstn_length; lia).
      change (firstn (4 * m) key) with (skipn 0 (firstn (4 * m) key)). rewrite (chunks_slices 4 m) by (rewrite ?Lf; lia).
      split; [now rewrite map_length, seq_length|]. apply Forall_forall. intros w Hw. apply in_map_iff in Hw.
      destruct Hw as (i & <- & Hi). apply in_seq in Hi. split; [apply length_slice; rewrite Lf; lia|].
      unfold slice. now apply bytes_firstn, bytes_skipn, bytes_firstn. }
    assert (Sn : forall m, (m < nk)%nat -> chunks 4 (firstn (4 * S m) key) = chunks 4 (firstn (4 * m) key) ++ [slice key (4 * m) 4]).
    { intros m Hm. set (l := firstn (4 * S m) key). assert (Lf : length l = (4 * S m)%nat) by (unfold l; rewrite firstn_length; lia).
      assert (Lg : length (firstn (4 * m) key) = (4 * m)%nat) by (rewrite firstn_length; lia).
      change l with (skipn 0 l) at 1. rewrite (chunks_slices 4 (S m)) by (rewrite ?Lf; lia).
      change (firstn (4 * m) key) with (skipn 0 (firstn (4 * m) key)). rewrite (chunks_slices 4 m) by (rewrite ?Lg; lia).
      rewrite seq_S, map_app. cbn [map Nat.add]. f_equal.
      - apply map_ext_in. intros i Hi. apply in_seq in Hi. unfold l, slice. rewrite !skipn_firstn_comm, !firstn_firstn. f_equal. lia.
      - f_equal. unfold l, slice. rewrite skipn_firstn_comm, firstn_firstn. f_equal. lia. }
    unfold load_key.
    destruct (for_up_inv (fun m rk => (m <= nk)%nat /\ rk = map be_val (chunks 4 (firstn (4 * m) key)) ++ zeros (n - m))
      (fun i rk => w <- BeBytesTo32 key (4 * i) ;; put rk i w) 0 nk (zeros n)) as (rk & E & _ & I).
    - split; [lia|]. rewrite Nat.sub_0_r. reflexivity.
    - intros j rk Hj [_ ->]. rewrite BeBytesTo32_correct by (auto; lia). cbn [bind].
      destruct (C j ltac:(lia)) as [Lj _]. replace (n - j)%nat with (S (n - S j)) by lia.
      rewrite (put_at _ _ 0) by (rewrite ?map_length, ?length_zeros; lia). eexists. split; [reflexivity|]. split; [lia|].
      rewrite Sn, map_app, <- app_assoc by lia. reflexivity.
    - exists rk. split; [exact E|]. rewrite Nat.add_0_l in I.
      destruct (C nk ltac:(lia)) as [Lj Fj].
      split; [auto|]. rewrite Lj. split; [lia|exact I].
  Qed.
End sched.

Lemma len_step nk ws i i' : length ws = i -> i' = (4 + i)%nat -> length (next4 nk ws) = i'.
Proof. intros. unfold next4. rewrite !next_len. lia. Qed.
Lemma len_one nk ws i i' : length ws = i -> i' = (1 + i)%nat -> length (next_word nk ws) = i'.
Proof. intros. rewrite next_len. lia. Qed.
Lemma chunks_len (k : list Z) n : length k = (4 * n)%nat -> length (chunks 4 k) = n.
Proof.
  intros H. change k with (skipn 0 k). rewrite (chunks_slices 4 n) by lia. now rewrite map_length, seq_length.
Qed.
Ltac con := match goal with
  | |- plain _ _ => split; reflexivity
  | |- rcon_in _ => split; [reflexivity|split; [reflexivity|repeat constructor; red; vm_compute; intuition congruence]]
  | |- _ = true => reflexivity | |- _ = false => reflexivity
  | |- (_ / _)%nat = _ => reflexivity
  | L : length ?ws = _ |- _ = length ?ws => now rewrite L
  | |- _ => lia end.
Lemma iter4 nk ws k k' W : ws = Nat.iter k (next_word nk) W -> k' = (4 + k)%nat -> next4 nk ws = Nat.iter k' (next_word nk) W.
Proof. intros -> ->. reflexivity. Qed.
Lemma iter1 nk ws k k' W : ws = Nat.iter k (next_word nk) W -> k' = (1 + k)%nat -> next_word nk ws = Nat.iter k' (next_word nk) W.
Proof. intros -> ->. reflexivity. Qed.
Lemma bind_step {A B} (m : res A) a (f : A -> res B) r : m = Ok a -> f a = r -> bind m f = r.
Proof. intros -> <-. reflexivity. Qed.
Ltac estep := match goal with
  | H : holds ?nk ?n ?rk ?ws, L : length ?ws = ?i0, I : ?ws = Nat.iter ?k _ _ |- context [ExpandRotBlock ?rk ?i ?nk ?r] =>
      let rk' := fresh "rk" in let H' := fresh "H" in let E := fresh "E" in let L' := fresh in let I' := fresh in
      let i' := eval cbv in (4 + i0)%nat in let k' := eval cbv in (4 + k)%nat in
      destruct (rot_block nk n ltac:(lia) rk ws i r H) as (rk' & E & H'); [con..|]; clear H; first [apply (bind_step _ _ _ _ E); cbv beta | refine (eq_trans E _)]; clear E;
      pose proof (len_step nk ws i0 i' L eq_refl) as L'; pose proof (iter4 nk ws k k' _ I eq_refl) as I';
      revert H' L' I'; generalize (next4 nk ws); clear I L ws; intros ws H' L I
  | H : holds ?nk ?n ?rk ?ws, L : length ?ws = ?i0, I : ?ws = Nat.iter ?k _ _ |- context [ExpandSubBlock ?rk ?i ?nk] =>
      let rk' := fresh "rk" in let H' := fresh "H" in let E := fresh "E" in let L' := fresh in let I' := fresh in
      let i' := eval cbv in (4 + i0)%nat in let k' := eval cbv in (4 + k)%nat in
      destruct (sub_block nk n ltac:(lia) rk ws i H) as (rk' & E & H'); [con..|]; clear H; first [apply (bind_step _ _ _ _ E); cbv beta | refine (eq_trans E _)]; clear E;
      pose proof (len_step nk ws i0 i' L eq_refl) as L'; pose proof (iter4 nk ws k k' _ I eq_refl) as I';
      revert H' L' I'; generalize (next4 nk ws); clear I L ws; intros ws H' L I
  | H : holds ?nk ?n ?rk ?ws, L : length ?ws = ?i0, I : ?ws = Nat.iter ?k _ _ |- context [xor_key ?rk ?i ?a ?b] =>
      let rk' := fresh "rk" in let H' := fresh "H" in let E := fresh "E" in let L' := fresh in let I' := fresh in
      let i' := eval cbv in (1 + i0)%nat in let k' := eval cbv in (1 + k)%nat in
      destruct (plain_ok nk n ltac:(lia) rk ws i a b H) as (rk' & E & H'); [con..|]; clear H; first [apply (bind_step _ _ _ _ E); cbv beta | refine (eq_trans E _)]; clear E;
      pose proof (len_one nk ws i0 i' L eq_refl) as L'; pose proof (iter1 nk ws k k' _ I eq_refl) as I';
      revert H' L' I'; generalize (next_word nk ws); clear I L ws; intros ws H' L I
  end.
Ltac estart key := match goal with H : holds ?nk ?n ?rk ?W |- _ =>
  let L := fresh "L" in let I := fresh "I" in
  assert (L : length W = nk) by (apply chunks_len; rewrite firstn_length; lia);
  assert (I : W = Nat.iter 0 (next_word nk) W) by reflexivity;
  revert H L I; generalize W at 1 2 3; intros ws H L I end.

(** RoundKeys after a key expansion that wrote the words [ws] *)
Lemma holds_words nk n rk ws : holds nk n rk ws -> rk = map be_val ws ++ zeros (n - length ws).
Proof. intros H. apply H. Qed.
Lemma zeros_resized n m : firstn n (zeros m) ++ zeros (n - length (zeros m)) = zeros n.
Proof.
  rewrite length_zeros. unfold zeros. destruct (Nat.le_ge_cases m n).
  - rewrite firstn_all2 by (rewrite repeat_length; lia). rewrite <- repeat_app. f_equal. lia.
  - replace (n - m)%nat with O by lia. cbn [repeat]. rewrite app_nil_r. replace m with (n + (m - n))%nat by lia.
    rewrite repeat_app, firstn_app, repeat_length, Nat.sub_diag. cbn [firstn]. rewrite app_nil_r, firstn_all2 by (rewrite repeat_length; lia). reflexivity.
Qed.
Lemma Expand128 m key : length key = 16%nat -> bytes key ->
  StandardExpand (zeros m) key = Ok (10%nat, map be_val (key_expansion key)).
Proof.
  intros Hk Hb. unfold StandardExpand. rewrite Hk. cbv zeta. rewrite zeros_resized.
  change (16 / 4)%nat with 4%nat. cbn [Nat.eqb Nat.add Nat.mul].
  refine (bind_step _ _ _ _ _ eq_refl).
  destruct (load_ok 4 44 ltac:(lia) key) as (rk & E & H); [lia|auto|lia|]. apply (bind_step _ _ _ _ E). cbv beta. clear E.
  estart key. repeat estep. f_equal. match goal with H : holds _ _ _ _, I : _ = Nat.iter _ _ _ |- _ => rewrite (holds_words _ _ _ _ H), L, I end.
  change (44 - 44)%nat with O. cbn [zeros repeat]. rewrite app_nil_r, firstn_all2 by lia.
  unfold key_expansion. rewrite Hk. change (16 / 4)%nat with 4%nat. reflexivity.
Qed.
Lemma Expand192 m key : length key = 24%nat -> bytes key ->
  StandardExpand (zeros m) key = Ok (12%nat, map be_val (key_expansion key)).
Proof.
  intros Hk Hb. unfold StandardExpand. rewrite Hk. cbv zeta. rewrite zeros_resized.
  change (24 / 4)%nat with 6%nat. cbn [Nat.eqb Nat.add Nat.mul].
  refine (bind_step _ _ _ _ _ eq_refl).
  destruct (load_ok 6 52 ltac:(lia) key) as (rk & E & H); [lia|auto|lia|]. apply (bind_step _ _ _ _ E). cbv beta. clear E.
  estart key. repeat estep. f_equal. match goal with H : holds _ _ _ _, I : _ = Nat.iter _ _ _ |- _ => rewrite (holds_words _ _ _ _ H), L, I end.
  change (52 - 52)%nat with O. cbn [zeros repeat]. rewrite app_nil_r, firstn_all2 by lia.
  unfold key_expansion. rewrite Hk. change (24 / 4)%nat with 6%nat. reflexivity.
Qed.
Lemma Expand256 m key : length key = 32%nat -> bytes key ->
  StandardExpand (zeros m) key = Ok (14%nat, map be_val (key_expansion key)).
Proof.
  intros Hk Hb. unfold StandardExpand. rewrite Hk. cbv zeta. rewrite zeros_resized.
  change (32 / 4)%nat with 8%nat. cbn [Nat.eqb Nat.add Nat.mul].
  refine (bind_step _ _ _ _ _ eq_refl).
  destruct (load_ok 8 60 ltac:(lia) key) as (rk & E & H); [lia|auto|lia|]. apply (bind_step _ _ _ _ E). cbv beta. clear E.
  estart key. repeat estep. f_equal. match goal with H : holds _ _ _ _, I : _ = Nat.iter _ _ _ |- _ => rewrite (holds_words _ _ _ _ H), L, I end.
  change (60 - 60)%nat with O. cbn [zeros repeat]. rewrite app_nil_r, firstn_all2 by lia.
  unfold key_expansion. rewrite Hk. change (32 / 4)%nat with 8%nat. reflexivity.
Qed.
(** the 64-byte keys: only the first 16 bytes are used *)
Lemma Expand512 m key : length key = 64%nat -> bytes key ->
  StandardExpand (zeros m) key = Ok (22%nat, map be_val (key_expansion (firstn 16 key)) ++ zeros 48).
Proof.
  intros Hk Hb. unfold StandardExpand. rewrite Hk. cbv zeta. rewrite zeros_resized.
  change (64 / 4)%nat with 16%nat. cbn [Nat.eqb Nat.add Nat.mul].
  refine (bind_step _ _ _ _ _ eq_refl).
  destruct (load_ok 4 92 ltac:(lia) key) as (rk & E & H); [lia|auto|lia|]. apply (bind_step _ _ _ _ E). cbv beta. clear E.
  estart key. repeat estep. f_equal. match goal with H : holds _ _ _ _, I : _ = Nat.iter _ _ _ |- _ => rewrite (holds_words _ _ _ _ H), L, I end.
  change (92 - 44)%nat with 48%nat.
  unfold key_expansion. rewrite firstn_length, Hk. change (Nat.min 16 64 / 4)%nat with 4%nat. reflexivity.
Qed.
