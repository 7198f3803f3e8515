(** The wide block functions of RCS and RWS compute Rijndael with 256 and 512 bit blocks. *)
From Verif Require Import Base BaseLemmas Model_IntegerTools Model_Modes Model_RijndaelGen Model_Rijndael
  Spec_AES Proofs_AES Proofs_IntegerTools Proofs_Windows Proofs_Sponge Proofs_Rijndael Proofs_Rijndael2 Model_ChaCha Model_CSX Model_RCS.
Open Scope Z_scope.

Lemma ShiftRows512_ok s : length s = 64%nat -> ShiftRows512 s = Ok (shift_rows [1; 2; 4; 8]%nat s).
Proof. intros H. destruct_len s H. vm_compute. reflexivity. Qed.

Section wideblock.
  Variables (fam : rfam) (n : nat) (offs : list nat) (R : nat) (rk : list Z).
  Hypothesis HB : f_B fam = (4 * n)%nat.
  Hypothesis Hn : (0 < n)%nat.
  Hypothesis Hoffs : forall r, (nth r offs 0 <= n)%nat.
  Hypothesis Hsh : forall s, length s = (4 * n)%nat -> f_shift fam s = Ok (shift_rows offs s).
  Hypothesis HR : (1 <= R)%nat.
  Hypothesis Hrk : length rk = (n * (R + 1))%nat.
  Let wkey (i : nat) : list Z := slice (rk_bytes rk) (4 * n * i) (4 * n).
  Let wkeys : list (list Z) := map wkey (seq 0 (R + 1)).
  Lemma wkeys_chunks : chunks (4 * n) (rk_bytes rk) = wkeys.
  Proof.
    change (rk_bytes rk) with (skipn 0 (rk_bytes rk)) at 1. rewrite (chunks_slices (4 * n) (R + 1)) by (rewrite ?rk_len, ?Hrk; lia).
    reflexivity.
  Qed.
  Lemma wkey_st i : (i <= R)%nat -> st n (wkey i).
  Proof.
    intros. split; [unfold wkey; rewrite length_slice; [reflexivity|rewrite rk_len, Hrk; nia]|].
    unfold wkey, slice. apply bytes_firstn, bytes_skipn, rk_bytes_bytes.
  Qed.
  Lemma wkeys_ok : keys_ok n wkeys.
  Proof.
    split; [|unfold wkeys; rewrite map_length, seq_length; lia]. apply Forall_forall. intros k Hk.
    apply in_map_iff in Hk. destruct Hk as (i & <- & Hi). apply in_seq in Hi. apply wkey_st. lia.
  Qed.
  Lemma wadd_ok s i : st n s -> (i <= R)%nat -> KeyAddition s rk (i * n) = Ok (xorl s (wkey i)).
  Proof.
    intros [L B] Hi. rewrite (KeyAddition_ok s rk (i * n) n) by (auto; rewrite Hrk; nia). unfold wkey. rewrite L.
    now replace (4 * (i * n))%nat with (4 * n * i)%nat by lia.
  Qed.
  Lemma w1 s : st n s -> st n (sub_bytes s). Proof. apply sub_st. Qed.
  Lemma w2 s : st n s -> st n (shift_rows offs s). Proof. apply shift_st; try exact Hoffs; lia. Qed.
  Lemma w3 s : st n s -> st n (mix_columns s). Proof. apply mix_st. Qed.
  Lemma wx a b : st n a -> st n b -> st n (xorl a b).
  Proof. intros [L B] [L' B']. split; [rewrite length_xorl; lia|now apply bytes_xorl]. Qed.
  Lemma wide_loop m : forall i s, (i + m = R)%nat -> st n s ->
    (s <- for_up i m (fun i s =>
      s <- Substitution s ;; s <- f_shift fam s ;; s <- MixColumns s ;; KeyAddition s rk (i * n)) s ;;
     s <- Substitution s ;; s <- f_shift fam s ;; KeyAddition s rk (R * n)) = Ok (rounds offs (map wkey (seq i (m + 1))) s).
  Proof.
    induction m as [|m IH]; intros i s Hi Hs; cbn [for_up Nat.add seq map].
    - cbn [bind]. rewrite (Substitution_ok s) by apply Hs. cbn [bind].
      rewrite Hsh by apply w1, Hs. cbn [bind]. rewrite wadd_ok by (auto using w2, w1).
      cbn [rounds]. do 3 f_equal. lia.
    - rewrite (Substitution_ok s) by apply Hs. cbn [bind].
      rewrite Hsh by apply w1, Hs. cbn [bind].
      rewrite (MixColumns_ok _ n) by (apply w2, w1, Hs). cbn [bind].
      rewrite wadd_ok by (auto using w3, w2, w1; lia). cbn [bind].
      rewrite IH by (try lia; apply wx; auto using w3, w2, w1; apply wkey_st; lia).
      rewrite rounds_cons; [reflexivity|]. replace (m + 1)%nat with (S m) by lia. discriminate.
  Qed.
  Lemma wide_st b : st n b -> st n (rijndael offs (chunks (4 * n) (rk_bytes rk)) b).
  Proof. intros Hb. rewrite wkeys_chunks. apply rijndael_st; auto using wkeys_ok. Qed.
  Lemma R_block_ok ctr out oo : st n ctr -> (oo + f_B fam <= length out)%nat ->
    R_block fam rk R ctr out oo = Ok (splice out oo (rijndael offs (chunks (4 * n) (rk_bytes rk)) ctr)).
  Proof.
    intros Sb Ho. unfold R_block. rewrite HB in *. replace (4 * n / 4)%nat with n by (rewrite Nat.mul_comm, Nat.div_mul; lia).
    destruct Sb as [Lb Bb]. pose proof (conj Lb Bb : st n ctr) as Sb. rewrite wcopy_ok by (try rewrite length_zeros; lia). cbn [bind]. rewrite slice_all by lia.
    replace (splice (zeros (4 * n)) 0 ctr) with ctr by (symmetry; apply splice_all; rewrite length_zeros; apply Sb).
    change (KeyAddition ctr rk 0) with (KeyAddition ctr rk (0 * n)). rewrite wadd_ok by (auto; lia). cbn [bind].
    assert (X : st n (xorl ctr (wkey 0))) by (apply wx; auto; apply wkey_st; lia).
    pose proof (wide_loop (R - 1) 1 (xorl ctr (wkey 0)) ltac:(lia) X) as E.
    destruct (for_up 1 (R - 1) _ (xorl ctr (wkey 0))) as [s| |]; cbn [bind] in E |- *; try discriminate.
    destruct (Substitution s) as [s'| |]; cbn [bind] in E |- *; try discriminate.
    destruct (f_shift fam s') as [s''| |]; cbn [bind] in E |- *; try discriminate.
    rewrite E. cbn [bind].
    assert (F : rounds offs (map wkey (seq 1 (R - 1 + 1))) (xorl ctr (wkey 0)) = rijndael offs (chunks (4 * n) (rk_bytes rk)) ctr).
    { rewrite wkeys_chunks. unfold wkeys. replace (R + 1)%nat with (S R) by lia. cbn [seq map rijndael]. now replace (R - 1 + 1)%nat with R by lia. }
    rewrite F. destruct (wide_st ctr Sb) as [Lr _]. rewrite wcopy_ok by lia. now rewrite slice_all by lia.
  Qed.
End wideblock.
