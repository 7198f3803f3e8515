(** * Properties of RCS and RWS: C57 *)
From Coq Require Import Permutation.
From Verif Require Import Base Spec_Common Spec_ChaCha Spec_Stream Session_KMAC Spec_RCS Model_ChaCha Model_CSX Model_RCS Session_CSX Session_RCS ProofsP_CSX3 ProofsP_RCS ProofsP_RCS2 ProofsP_RCS3.
Open Scope Z_scope.

(** Initialize on a new object, plain or authenticated, then any calls with any windows: Transform xors the keystream
    (the wide Rijndael of consecutive counter values under round keys drawn from cSHAKE); an authenticated object appends,
    or first checks, KMAC over the associated data, the nonce, the ciphertext and the running total *)
Theorem C57_every_history fam w p auth enc key iv info cs : In (fam, w) wide_ciphers -> wide_profile (w_B w) p -> bytes key -> bytes iv -> yinfo info -> fitting w key iv = true ->
  ycalls_ok w p auth enc (length key) (value_le (firstn 16 iv)) cs ->
  exists rs, yhistory fam p (R_new fam auth) (XInit enc key iv info :: cs) = Ok (XDone :: rs) /\ yexpected w auth (begun w auth [] enc key iv info) cs rs.
Proof. exact (fun HI => c57_hist fam w HI p auth enc key iv info cs). Qed.
Print Assumptions C57_every_history.
Definition wkey (k : nat) : list Z := map Z.of_nat (seq 1 k).
Definition wprof : sprof := SProf true 64 128 2.
Example C57_every_history_case : In (rcs_fam, rcs) wide_ciphers /\ wide_profile 32 wprof /\ yinfo [1; 2; 3; 4] /\ fitting rcs (wkey 32) (wkey 32) = true /\
  ycalls_ok rcs wprof true true 32 (value_le (firstn 16 (wkey 32))) [XAad [1; 2] 0 2; XTransform (zeros 140) 3 (zeros 200) 1 130 [1; 0]%nat; XTag; XInit true (wkey 3) [] []; XInit false (wkey 64) (wkey 32) []; XTransform (zeros 70) 0 (zeros 4) 1 3 []].
Proof.
  split; [cbn; auto|]. split; [unfold wide_profile, no_ff; cbn [sp_par sp_deg sp_min sp_blk wprof]; intros _; repeat split; try (vm_compute; congruence); try lia; intros i Hi j Hj|].
  { destruct i as [|[|i]]; [| |lia]; destruct j as [|[|[|[|j]]]]; try lia; vm_compute; congruence. }
  split; [unfold yinfo, short; small; cbn; lia|]. split; [reflexivity|].
  assert (P : Permutation [1; 0]%nat [0; 1]%nat) by apply perm_swap.
  cbn [ycalls_ok ycall_ok andb negb]. change (fitting rcs (wkey 3) []) with false. change (fitting rcs (wkey 64) (wkey 32)) with true. cbv iota. change (length (wkey 64)) with 64%nat.
  change (w_tag rcs 32) with 32%nat. change (w_tag rcs 64) with 64%nat. change (w_B rcs) with 32%nat. unfold short.
  assert (Q : forall t, (t < 200)%nat -> orders_ok wprof t [1; 0]%nat \/ True) by auto.
  repeat match goal with
  | |- _ /\ _ => split
  | |- True => exact I
  | |- bytes _ => small
  | |- orders_ok _ _ _ => unfold orders_ok; cbn [sp_par sp_deg sp_blk wprof]; intros _ k Hk
  | |- _ -> _ => intros _
  | |- _ \/ _ => left; reflexivity
  end; try (cbn; lia); try (vm_compute; congruence).
  change (130 / 128)%nat with 1%nat in Hk. replace k with 0%nat by lia. exact P.
Qed.
(** decryption inverts encryption: every message of a conversation comes back, in order, also when the two sides use
    different profiles *)
Theorem C57_round_trip fam w auth p p' key iv info ls : In (fam, w) wide_ciphers -> wide_profile (w_B w) p -> wide_profile (w_B w) p' -> bytes key -> bytes iv -> yinfo info -> fitting w key iv = true ->
  Forall (yletter_ok (w_tag w (length key)) auth p p') ls -> yroom w p iv ls -> yroom w p' iv ls -> let t := if auth then w_tag w (length key) else 0%nat in
  exists rs rs', yhistory fam p (R_new fam auth) (XInit true key iv info :: seal_calls t ls) = Ok rs /\ map (@length Z) (outs rs) = map (fun l => (length (l_msg l) + t)%nat) ls /\
    yhistory fam p' (R_new fam auth) (XInit false key iv info :: open_calls t ls (outs rs)) = Ok rs' /\ outs rs' = map l_msg ls.
Proof. exact (c57_talk fam w auth p p' key iv info ls). Qed.
Print Assumptions C57_round_trip.
Example C57_round_trip_case : fitting rws (wkey 64) (wkey 64) = true /\ wide_profile 64 seqp /\ yroom rws seqp (wkey 64) [Letter [[1; 2]; [3]] [1; 2; 3] [] []; Letter [] [] [] []] /\
  Forall (yletter_ok 64 true seqp seqp) [Letter [[1; 2]; [3]] [1; 2; 3] [] []; Letter [] [] [] []].
Proof.
  split; [reflexivity|]. split; [discriminate|]. split; [discriminate|].
  repeat (apply Forall_cons; [unfold yletter_ok, orders_ok; cbn [l_aad l_msg l_ord l_ord']; small; try discriminate; try (cbn; lia)|]); apply Forall_nil.
Qed.
(** neither the parallel profile nor the schedule changes any result *)
Theorem C57_schedules fam w p p' auth enc key iv info cs cs' : In (fam, w) wide_ciphers -> wide_profile (w_B w) p -> wide_profile (w_B w) p' -> bytes key -> bytes iv -> yinfo info -> fitting w key iv = true ->
  ycalls_ok w p auth enc (length key) (value_le (firstn 16 iv)) cs -> ycalls_ok w p' auth enc (length key) (value_le (firstn 16 iv)) cs' -> map unscheduled cs = map unscheduled cs' ->
  yhistory fam p (R_new fam auth) (XInit enc key iv info :: cs) = yhistory fam p' (R_new fam auth) (XInit enc key iv info :: cs').
Proof. exact (c57_schedule fam w p p' auth enc key iv info cs cs'). Qed.
Print Assumptions C57_schedules.
(** a plain object may encrypt a message in pieces of whole blocks *)
Theorem C57_aligned_split fam w p key iv info ls l : In (fam, w) wide_ciphers -> wide_profile (w_B w) p -> bytes key -> bytes iv -> yinfo info -> fitting w key iv = true ->
  Forall (yletter_ok (w_tag w (length key)) false p p) (ls ++ [l]) -> yroom w p iv (ls ++ [l]) -> Forall (fun l => (length (l_msg l) mod w_B w = 0)%nat) ls ->
  exists rs, yhistory fam p (R_new fam false) (XInit true key iv info :: seal_calls 0 (ls ++ [l])) = Ok rs /\
    concat (outs rs) = ycrypt w (begun w false [] true key iv info) (concat (map l_msg (ls ++ [l]))).
Proof. exact (c57_split fam w p key iv info ls l). Qed.
Print Assumptions C57_aligned_split.
Example C57_aligned_split_case : Forall (fun l => (length (l_msg l) mod w_B rws = 0)%nat) [Letter [] (zeros 128) [] []] /\ Forall (yletter_ok 32 false seqp seqp) [Letter [] (zeros 128) [] []; Letter [] [5; 6] [] []].
Proof.
  split; [repeat constructor|].
  repeat (apply Forall_cons; [unfold yletter_ok, orders_ok; cbn [l_aad l_msg l_ord l_ord']; small; try discriminate; try (cbn; lia)|]); apply Forall_nil.
Qed.
(** after any conversation, the next packet with any other tag is refused and no plaintext is written *)
Theorem C57_tampered_tag fam w p p' key iv info ls l ps ct tg tg' : In (fam, w) wide_ciphers -> wide_profile (w_B w) p -> wide_profile (w_B w) p' -> bytes key -> bytes iv -> yinfo info -> fitting w key iv = true ->
  let tag := w_tag w (length key) in Forall (yletter_ok tag true p p') (ls ++ [l]) -> yroom w p iv (ls ++ [l]) -> yroom w p' iv (ls ++ [l]) -> length tg = tag -> length tg' = tag -> bytes tg' -> tg' <> tg ->
  forall rs, yhistory fam p (R_new fam true) (XInit true key iv info :: seal_calls tag (ls ++ [l])) = Ok rs -> outs rs = ps ++ [ct ++ tg] ->
  exists rs', yhistory fam p' (R_new fam true) (XInit false key iv info :: open_calls tag (ls ++ [l]) (ps ++ [ct ++ tg'])) = Ok (rs' ++ [XFail AuthenticationFailure (zeros (length (l_msg l)))]) /\ outs rs' = map l_msg ls.
Proof. exact (c57_tamper fam w p p' key iv info ls l ps ct tg tg'). Qed.
Print Assumptions C57_tampered_tag.
(** an object restored from Serialize, after any calls, is the object itself except that its authenticator is as after
    Initialize: associated data and messages it had already taken in are forgotten *)
Theorem C57_serialize fam w p auth enc key iv info o cs : In (fam, w) wide_ciphers -> wide_profile (w_B w) p -> bytes key -> bytes iv -> yinfo info -> Z.of_nat (length info) < 65536 -> fitting w key iv = true ->
  R_Initialize fam p (R_new fam auth) enc key iv info = Ok (o, None) -> Forall other_call cs -> ycalls_ok w p auth enc (length key) (value_le (firstn 16 iv)) cs ->
  exists o', yend fam p o cs = Ok o' /\ R_restore fam (R_Serialize o') = Ok (set_rmac o' (r_mac o)).
Proof. exact (c57_serial fam w p auth enc key iv info o cs). Qed.
Print Assumptions C57_serialize.
(** an object that is initialised again, whatever was done with it, behaves as a new one if an Info is given (or none
    was given before) *)
Theorem C57_reinitialize fam w p auth enc key iv info o cs o' : In (fam, w) wide_ciphers -> wide_profile (w_B w) p -> bytes key -> bytes iv -> yinfo info -> fitting w key iv = true ->
  R_Initialize fam p (R_new fam auth) enc key iv info = Ok (o, None) -> Forall other_call cs -> ycalls_ok w p auth enc (length key) (value_le (firstn 16 iv)) cs -> yend fam p o cs = Ok o' ->
  forall enc2 key2 iv2 info2 cs2, bytes key2 -> bytes iv2 -> yinfo info2 -> (info2 <> [] \/ info = []) -> fitting w key2 iv2 = true -> ycalls_ok w p auth enc2 (length key2) (value_le (firstn 16 iv2)) cs2 ->
    yhistory fam p o' (XInit enc2 key2 iv2 info2 :: cs2) = yhistory fam p (R_new fam auth) (XInit enc2 key2 iv2 info2 :: cs2).
Proof. exact (c57_reinit fam w p auth enc key iv info o cs o'). Qed.
Print Assumptions C57_reinitialize.
(** without an Info it behaves as a new object whose Info is as many zeros as the previous Info was long *)
Theorem C57_reinitialize_without_info fam w p auth enc key iv info o cs o' : In (fam, w) wide_ciphers -> wide_profile (w_B w) p -> bytes key -> bytes iv -> yinfo info -> fitting w key iv = true ->
  R_Initialize fam p (R_new fam auth) enc key iv info = Ok (o, None) -> Forall other_call cs -> ycalls_ok w p auth enc (length key) (value_le (firstn 16 iv)) cs -> yend fam p o cs = Ok o' ->
  forall enc2 key2 iv2 cs2, bytes key2 -> bytes iv2 -> fitting w key2 iv2 = true -> ycalls_ok w p auth enc2 (length key2) (value_le (firstn 16 iv2)) cs2 ->
    yhistory fam p o' (XInit enc2 key2 iv2 [] :: cs2) = yhistory fam p (R_new fam auth) (XInit enc2 key2 iv2 (zeros (length info)) :: cs2).
Proof. exact (c57_reinit_default fam w p auth enc key iv info o cs o'). Qed.
Print Assumptions C57_reinitialize_without_info.

(** ** what does not hold *)
(** Transform with one array as input and output destroys the message: zeros, whatever the key *)
Theorem C57_in_place_refuted fam w p ord enc key iv info k out len : In (fam, w) wide_ciphers -> wide_profile (w_B w) p -> bytes key -> bytes iv -> yinfo info -> fitting w key iv = true ->
  (k + len <= length out)%nat -> (sp_par p = false \/ (len < sp_blk p)%nat) ->
  exists o o', R_Initialize fam p (R_new fam false) enc key iv info = Ok (o, None) /\ R_Transform fam p ord o None k out k len = Ok (o', splice out k (zeros len), None).
Proof. exact (c57_in_place fam w p ord enc key iv info k out len). Qed.
Print Assumptions C57_in_place_refuted.
(** two workers of 65535 blocks each, a nonce that starts with 1: the second worker starts at 0 instead of 65536, so
    the pads of the first worker are used a second time, for every key *)
Theorem C57_parallel_carry_refuted fam w key iv info ord m : In (fam, w) wide_ciphers -> bytes key -> bytes iv -> yinfo info -> fitting w key iv = true ->
  firstn 16 iv = 1 :: zeros 15 -> length m = (2 * (many * w_B w))%nat -> Permutation ord [0; 1]%nat -> let B := w_B w in
  exists o o' ct, R_Initialize fam (carry_profile many B) (R_new fam false) true key iv info = Ok (o, None) /\
    R_Transform fam (carry_profile many B) ord o (Some m) 0 (zeros (length m)) 0 (length m) = Ok (o', ct, None) /\
    forall j, (j + 1 < many)%nat -> xorl (slice m (j * B) B) (slice ct (j * B) B) = xorl (slice m ((many + 1 + j) * B) B) (slice ct ((many + 1 + j) * B) B).
Proof. exact (c57_lost_carry fam w key iv info ord m). Qed.
Print Assumptions C57_parallel_carry_refuted.
Example C57_parallel_carry_case : fitting rcs (wkey 32) (1 :: zeros 31) = true /\ firstn 16 (1 :: zeros 31) = 1 :: zeros 15.
Proof. split; reflexivity. Qed.
(** RWS with a 16-byte key: the plain and the authenticated object have the same cSHAKE name, hence one keystream *)
Theorem C57_same_stream_refuted p key iv info m ord : wide_profile 64 p -> bytes key -> bytes iv -> yinfo info -> length key = 16%nat -> length iv = 64%nat -> yletter_ok 16 false p p (Letter [] m ord ord) -> yroom rws p iv [Letter [] m ord ord] ->
  exists c t, yhistory rws_fam p (R_new rws_fam false) [XInit true key iv info; XTransform m 0 (zeros (length m)) 0 (length m) ord] = Ok [XDone; XOut c] /\
    yhistory rws_fam p (R_new rws_fam true) [XInit true key iv info; XTransform m 0 (zeros (length m + 16)) 0 (length m) ord] = Ok [XDone; XOut (c ++ t)].
Proof. exact (c57_same_stream p key iv info m ord). Qed.
Print Assumptions C57_same_stream_refuted.
(** an Info of one to three bytes is refused only by the generator, when the object has already been changed *)
Theorem C57_short_info_refuted fam w p auth enc key iv info : In (fam, w) wide_ciphers -> wide_profile (w_B w) p -> fitting w key iv = true -> (1 <= length info <= 3)%nat ->
  exists o, R_Initialize fam p (R_new fam auth) enc key iv info = Ok (o, Some InvalidSalt) /\ r_init o = false /\ r_rk o = [].
Proof. exact (c57_short_info fam w p auth enc key iv info). Qed.
Print Assumptions C57_short_info_refuted.
(** Transform on a new object is undefined: a null authenticator, or round keys that are not there *)
Theorem C57_uninitialized_auth_refuted fam p ord inp io out oo len : R_Transform fam p ord (R_new fam true) inp io out oo len = UB.
Proof. exact (c57_uninit_auth fam p ord inp io out oo len). Qed.
Print Assumptions C57_uninitialized_auth_refuted.
Theorem C57_uninitialized_refuted fam w p ord inp io out oo len : In (fam, w) wide_ciphers -> sp_par p = false -> (0 < len)%nat -> R_Transform fam p ord (R_new fam false) inp io out oo len = UB.
Proof. exact (c57_uninit fam w p ord inp io out oo len). Qed.
Print Assumptions C57_uninitialized_refuted.
