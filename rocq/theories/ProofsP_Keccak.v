(** Glue for Properties_Keccak.v. *)
From Verif Require Import BaseLemmas Spec_Common Spec_Feed Proofs_Common Spec_Keccak Model_Keccak Model_SHA3 Session_Digest Proofs_Keccak Proofs_KeccakInv Proofs_Sponge Proofs_SHA3 Proofs_XOF.
Open Scope Z_scope.

Lemma c34_hist256 cs : Forall dcall_ok cs ->
  exists rs, dhistory SHA3256_Update SHA3256_Finalize SHA3256_Compute SHA3256_new SHA3256_new cs = Ok rs /\ expected sha3_256 32 [] cs rs.
Proof. refine (sha3_hist 136 32 _ _ cs); lia. Qed.
Lemma c34_hist512 cs : Forall dcall_ok cs ->
  exists rs, dhistory SHA3512_Update SHA3512_Finalize SHA3512_Compute SHA3512_new SHA3512_new cs = Ok rs /\ expected sha3_512 64 [] cs rs.
Proof. refine (sha3_hist 72 64 _ _ cs); lia. Qed.
Lemma sponge_len R rate dom m n : rounds_ok R -> (0 < rate <= 200)%nat -> bytes m -> is_byte dom -> length (sponge (keccak R) rate zero_state dom m n) = n.
Proof.
  intros HR Hr Hm Hd. destruct (Absorb_ok R m 0 (length m) rate dom zero_state HR Hr zero_state_ok Hm ltac:(lia) Hd) as (st & _ & H).
  replace (slice m 0 (length m)) with m in H by (unfold slice; cbn [skipn]; now rewrite firstn_all). rewrite (sponge_stream _ _ _ _ _ n _ H). apply stream_len; auto. apply H.
Qed.
Lemma c34_compute R rate inp io len out oo : (R <= 48)%nat -> Nat.even R = true -> bytes inp -> (io + len <= length inp)%nat -> (67 <= rate < 200)%nat -> Nat.even rate = true ->
  (oo + (200 - rate) / 2 <= length out)%nat ->
  exists out', Compute R inp io len out oo rate = Ok out' /\ written out out' oo (sponge (keccak R) rate zero_state 6 (slice inp io len) ((200 - rate) / 2)).
Proof.
  intros H1 H2 Hi HL Hr He HO. eexists. split; [apply Compute_ok; auto; now split|]. apply splice_written.
  rewrite sponge_len; auto; [now split|lia|now apply bytes_slice|red; lia].
Qed.
Lemma c39_xof R rate inp io len out oo n : (R <= 48)%nat -> Nat.even R = true -> (0 < rate <= 198)%nat -> bytes inp -> (io + len <= length inp)%nat -> (oo + n <= length out)%nat ->
  exists out', XOFP1600 R inp io len out oo n rate = Ok out' /\ written out out' oo (shake R rate (slice inp io len) n).
Proof.
  intros H1 H2 Hr Hi HL HO. eexists. split; [apply XOF_ok; auto; now split|]. apply splice_written.
  unfold shake. rewrite sponge_len; auto; [now split|lia|now apply bytes_slice|red; lia].
Qed.
Lemma c35_bijective n : exists g, forall A, is_state A -> is_state (keccak n A) /\ is_state (g A) /\ g (keccak n A) = A /\ keccak n (g A) = A.
Proof.
  exists (keccak_inv n). intros A H. split; [now apply keccak_ok|]. split; [|split; [now apply keccak_inv_l|now apply keccak_inv_r]].
  unfold keccak_inv. revert A H. induction (rev (seq 0 n)) as [|k l IH]; cbn [fold_left]; intros A H; auto. apply IH. now apply round_inv_ok.
Qed.
