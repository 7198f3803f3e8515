(** * Properties of KMAC and SHAKE: C29, C39 *)
From Verif Require Import Base Spec_Common Spec_Feed Spec_Keccak Model_Keccak Model_SHAKE Session_Digest Session_KMAC Session_SHAKE ProofsP_Keccak ProofsP_KMAC.
Open Scope Z_scope.

(** ** C29 KMAC *)
(** any sequence of Initialize, Update, Finalize, Compute and Reset calls on one object, in each of the three modes *)
Theorem C29_every_history rt cs : In rt kmac_modes -> Forall (kcall_ok (fst rt)) cs ->
  exists rs, khistory (fst rt) (snd rt) KMAC_new cs = Ok rs /\ kexpected (fst rt) (snd rt) None cs rs.
Proof. exact (c29_hist rt cs). Qed.
Print Assumptions C29_every_history.
Example C29_every_history_case : In (136, 32)%nat kmac_modes /\
  Forall (kcall_ok 136) [KUpdate (Piece [9; 97; 98] 1 2); KInit [1] [] []; KInit (zeros 16) [1; 2; 3; 4] []; KUpdate (Piece [9; 97; 98] 1 2); KFinal (zeros 40) 4; KCompute [1] (zeros 32); KReset].
Proof. split; [cbn; auto|]. repeat first [apply Forall_nil | apply Forall_cons]; cbn; unfold p_ok, short, bytes, is_byte; cbn; repeat split; try lia; repeat constructor; lia. Qed.
(** the tag is that of SP 800-185 for every way of cutting the message into pieces, as long as the encoded
    length of the output fits into the last block *)
Theorem C29_is_kmac rt key cust ps n : In rt kmac_modes -> bytes key -> bytes cust -> short key -> short cust -> (16 <= length key)%nat -> (length cust = 0 \/ 4 <= length cust)%nat ->
  Forall p_ok ps -> (snd rt <= n)%nat -> 8 * Z.of_nat n < 2 ^ 64 -> (length (joined ps) mod fst rt + length (right_encode (8 * Z.of_nat n)) < fst rt)%nat ->
  kmac_run (fst rt) (snd rt) key cust ps n = Ok (Done :: repeat Done (length ps) ++ [Wrote (kmac 24 (fst rt) key (joined ps) n cust)]).
Proof. exact (c29_tag rt key cust ps n). Qed.
Print Assumptions C29_is_kmac.
Example C29_is_kmac_case : In (136, 32)%nat kmac_modes /\ Forall p_ok [Piece [9; 97; 98] 1 2; Piece [99] 0 1] /\ (Nat.modulo (length (joined [Piece [9%Z; 97%Z; 98%Z] 1 2; Piece [99%Z] 0 1])) 136 + length (right_encode (8 * Z.of_nat 32)) < 136)%nat.
Proof. split; [cbn; auto|]. split; [repeat constructor; cbn; unfold is_byte; lia|]. vm_compute. lia. Qed.
(** otherwise it is cut off: two different messages have the same 128 byte tag, under every key *)
Theorem C29_distinct_messages_refuted rt key cust m : In rt kmac_modes -> bytes key -> bytes cust -> bytes m -> short key -> short cust -> (16 <= length key)%nat -> (length cust = 0 \/ 4 <= length cust)%nat ->
  (length m mod fst rt = fst rt - 5)%nat ->
  exists t, kmac_run (fst rt) (snd rt) key cust (whole m) 128 = Ok [Done; Done; Wrote t] /\ kmac_run (fst rt) (snd rt) key cust (whole (m ++ [4; 0; 2])) 128 = Ok [Done; Done; Wrote t].
Proof. exact (c29_collision rt key cust m). Qed.
Print Assumptions C29_distinct_messages_refuted.
Example C29_distinct_messages_case : In (136, 32)%nat kmac_modes /\ bytes (zeros 131) /\ (length (zeros 131) mod 136 = 136 - 5)%nat.
Proof. split; [cbn; auto|]. split; [|reflexivity]. unfold zeros. apply Forall_forall. intros x Hx. apply repeat_spec in Hx. subst. red. lia. Qed.
(** and a 64 byte tag is the front of the 95 byte tag *)
Theorem C29_distinct_lengths_refuted rt key cust m : In rt kmac_modes -> bytes key -> bytes cust -> bytes m -> short key -> short cust -> (16 <= length key)%nat -> (length cust = 0 \/ 4 <= length cust)%nat ->
  (length m mod fst rt = fst rt - 1)%nat ->
  exists t1 t2, kmac_run (fst rt) (snd rt) key cust (whole m) 64 = Ok [Done; Done; Wrote t1] /\ kmac_run (fst rt) (snd rt) key cust (whole m) 95 = Ok [Done; Done; Wrote t2] /\ t1 = firstn 64 t2 /\ length t1 = 64%nat /\ length t2 = 95%nat.
Proof. exact (c29_prefix rt key cust m). Qed.
Print Assumptions C29_distinct_lengths_refuted.
Example C29_distinct_lengths_case : (length (zeros 135) mod 136 = 136 - 1)%nat.
Proof. reflexivity. Qed.
(** the stateless form, for messages that do not end on a block boundary *)
Theorem C29_stateless R key cust msg io len out rate : (R <= 48)%nat -> Nat.even R = true -> (64 <= rate <= 190)%nat -> bytes key -> bytes cust -> bytes msg -> short key -> short cust -> short out -> (io + len <= length msg)%nat ->
  (0 < len mod rate)%nat -> (len mod rate + length (right_encode (8 * Z.of_nat (length out))) < rate)%nat ->
  MACP1600 R key cust msg io len out rate = Ok (kmac R rate key (slice msg io len) (length out) cust).
Proof. exact (c29_stateless R key cust msg io len out rate). Qed.
Print Assumptions C29_stateless.
Example C29_stateless_case : (0 < 3 mod 136)%nat /\ (3 mod 136 + length (right_encode (8 * Z.of_nat (length (zeros 32)))) < 136)%nat.
Proof. vm_compute. lia. Qed.
(** on the empty message it returns something else: bytes of the padded key stay in the last block *)
Theorem C29_stateless_empty_refuted : let key := map Z.of_nat (seq 1 16) in exists t, MACP1600 24 key [] [] 0 0 (zeros 32) 136 = Ok t /\ t <> kmac 24 136 key [] 32 [].
Proof. exact c29_stateless_refuted. Qed.
Print Assumptions C29_stateless_empty_refuted.

(** ** C39 SHAKE *)
(** any sequence of Initialize, Generate and Reset calls on one object.  The first request after Initialize gives
    the first bytes of cSHAKE(key, name, customization), each further one goes on at the next whole block *)
Theorem C39_every_history rate cs : In rate shake_rates -> Forall (scall_ok rate) cs ->
  exists rs, shistory rate SHAKE_new cs = Ok rs /\ sexpected rate None cs rs.
Proof. exact (c39_hist rate cs). Qed.
Print Assumptions C39_every_history.
Example C39_every_history_case : In 136%nat shake_rates /\
  Forall (scall_ok 136) [SGen [0] 0 1; SInit [1; 2; 3; 4] [] []; SGen (zeros 300) 5 280; SGen [0] 0 1; SInit [1; 2; 3; 4] [5; 6; 7; 8] [9]; SGen (zeros 4) 1 3; SReset].
Proof. split; [cbn; auto|]. repeat first [apply Forall_nil | apply Forall_cons]; cbn; unfold short, bytes, is_byte; cbn; repeat split; try lia; repeat constructor; lia. Qed.
(** a shorter output is the front of a longer one *)
Theorem C39_prefix rate key cust info n1 n2 : In rate shake_rates -> bytes key -> bytes cust -> bytes info -> short cust -> short info -> (n1 <= n2)%nat ->
  cshake 24 rate key n1 info cust = firstn n1 (cshake 24 rate key n2 info cust).
Proof. exact (c39_prefix rate key cust info n1 n2). Qed.
Print Assumptions C39_prefix.
(** two requests are not one request cut in two: the second one starts at a new block *)
Theorem C39_split_refuted rate key : In rate shake_rates -> bytes key -> (4 <= length key)%nat ->
  exists o1 o2, shistory rate SHAKE_new [SInit key [] []; SGen [0] 0 1; SGen [0] 0 1] = Ok [Done; Wrote o1; Wrote o2] /\
    o1 = [nth 0 (shake 24 rate key (rate + 1)) 0] /\ o2 = [nth rate (shake 24 rate key (rate + 1)) 0].
Proof. exact (c39_split rate key). Qed.
Print Assumptions C39_split_refuted.
(** the stateless forms *)
Theorem C39_stateless R rate inp io len out oo n : (R <= 48)%nat -> Nat.even R = true -> (0 < rate <= 198)%nat -> bytes inp -> (io + len <= length inp)%nat -> (oo + n <= length out)%nat ->
  exists out', XOFP1600 R inp io len out oo n rate = Ok out' /\ written out out' oo (shake R rate (slice inp io len) n).
Proof. exact (c39_xof R rate inp io len out oo n). Qed.
Print Assumptions C39_stateless.
Theorem C39_stateless_custom R key cust name out oo n rate : (R <= 48)%nat -> Nat.even R = true -> (11 <= rate <= 200)%nat -> bytes key -> bytes cust -> bytes name -> short cust -> short name -> fits_block rate name cust -> (oo + n <= length out)%nat ->
  (0 < length name + length cust)%nat ->
  exists out', CXOFP1600 R key cust name out oo n rate = Ok out' /\ written out out' oo (cshake R rate key n name cust).
Proof. exact (c39_cxof R key cust name out oo n rate). Qed.
Print Assumptions C39_stateless_custom.
Example C39_stateless_case : (24 <= 48)%nat /\ Nat.even 24 = true /\ fits_block 136 [1; 2] [3; 4; 5; 6] /\ (0 < length [1%Z; 2%Z] + length [3%Z; 4%Z; 5%Z; 6%Z])%nat.
Proof. vm_compute. lia. Qed.
