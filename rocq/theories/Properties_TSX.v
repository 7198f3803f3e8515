(** * Properties of TSX256, TSX512 and TSX1024: C67, C68 *)
From Coq Require Import Permutation.
From Verif Require Import Base Spec_Common Spec_ChaCha Spec_Stream Session_CSX Spec_TSX Model_ChaCha Model_TSX Session_TSX ProofsP_CSX3 Proofs_TSX ProofsP_TSX ProofsP_TSX2.
Open Scope Z_scope.

(** ** C67 without authentication *)
(** Initialize on a new object, then any calls with any windows: Transform xors the keystream of key, tweak and
    counter, each call going on at the next whole block; refused calls leave the object as it was *)
Theorem C67_every_history cf c p enc key iv info cs : In (cf, c) tsx_ciphers -> profile_ok (t_B c) p -> bytes key -> bytes iv -> bytes info -> taccepted c key iv info = true ->
  tcalls_ok c p false enc cs ->
  exists rs, thistory cf p (T_new cf false) (XInit enc key iv info :: cs) = Ok (XDone :: rs) /\ texpected c false (topened c false enc key iv info) cs rs.
Proof. exact (c67_hist cf c p false enc key iv info cs). Qed.
Print Assumptions C67_every_history.
Example C67_every_history_case : In (tsx256_conf, tsx256) tsx_ciphers /\ profile_ok 32 (SProf true 32 64 1) /\ taccepted tsx256 tkey1 tiv [] = true /\
  tcalls_ok tsx256 (SProf true 32 64 1) false true [XTransform (zeros 200) 3 (zeros 150) 5 140 [0%nat]; XAad [1] 0 1; XTag; XInit false tkey1 [1] []; XInit false tkey1 tiv tiv; XTransform [1; 2] 0 [0; 0] 0 2 [0%nat]].
Proof.
  split; [left; reflexivity|]. split; [unfold profile_ok; cbn; repeat split; lia|]. split; [reflexivity|].
  cbn [tcalls_ok tcall_ok andb negb sp_par t_exact tsx256]. small; try (cbn; lia); cbn; auto; try lia.
Qed.
(** decryption inverts encryption: whatever was sent in however many calls comes back, also when the two sides use
    different parallel profiles and schedules *)
Theorem C67_round_trip cf c p p' key iv info ls : In (cf, c) tsx_ciphers -> profile_ok (t_B c) p -> profile_ok (t_B c) p' -> bytes key -> bytes iv -> bytes info -> taccepted c key iv info = true ->
  Forall (tletter_ok c false p p') ls ->
  exists rs rs', thistory cf p (T_new cf false) (XInit true key iv info :: seal_calls 0 ls) = Ok rs /\ map (@length Z) (outs rs) = map (fun l => (length (l_msg l) + 0)%nat) ls /\
    thistory cf p' (T_new cf false) (XInit false key iv info :: open_calls 0 ls (outs rs)) = Ok rs' /\ outs rs' = map l_msg ls.
Proof. exact (c67_talk cf c false p p' key iv info ls). Qed.
Print Assumptions C67_round_trip.
Example C67_round_trip_case : Forall (tletter_ok tsx512 false (SProf false 64 64 1) (SProf true 64 128 1)) [Letter [] [1; 2; 3] [0%nat] [0%nat]; Letter [] [] [0%nat] [0%nat]].
Proof. repeat (apply Forall_cons; [unfold tletter_ok; cbn [l_aad l_msg l_ord l_ord']; small; try (cbn; lia)|]); apply Forall_nil. Qed.
(** neither the parallel profile nor the schedule changes any result, for any windows and offsets *)
Theorem C67_schedules cf c p p' auth enc key iv info cs cs' : In (cf, c) tsx_ciphers -> profile_ok (t_B c) p -> profile_ok (t_B c) p' -> bytes key -> bytes iv -> bytes info -> taccepted c key iv info = true ->
  tcalls_ok c p auth enc cs -> tcalls_ok c p' auth enc cs' -> map unscheduled cs = map unscheduled cs' ->
  thistory cf p (T_new cf auth) (XInit enc key iv info :: cs) = thistory cf p' (T_new cf auth) (XInit enc key iv info :: cs').
Proof. exact (c67_schedule cf c p p' auth enc key iv info cs cs'). Qed.
Print Assumptions C67_schedules.
Example C67_schedules_case : profile_ok 32 (SProf true 64 64 2) /\ profile_ok 32 (SProf false 32 32 1) /\
  tcall_ok tsx256 (SProf true 64 64 2) false true (XTransform (zeros 200) 3 (zeros 150) 5 140 [1%nat; 0%nat]) /\ tcall_ok tsx256 (SProf false 32 32 1) false true (XTransform (zeros 200) 3 (zeros 150) 5 140 [0%nat]).
Proof. split; [unfold profile_ok; cbn; repeat split; lia|]. split; [unfold profile_ok; cbn; repeat split; try lia; discriminate|]. cbn [tcall_ok andb negb]. small; try (cbn; lia); cbn; auto; try lia; try apply perm_swap. Qed.
(** pieces of whole blocks give the same as one call *)
Theorem C67_aligned_split cf c p key iv info ls l : In (cf, c) tsx_ciphers -> profile_ok (t_B c) p -> bytes key -> bytes iv -> bytes info -> taccepted c key iv info = true ->
  Forall (tletter_ok c false p p) (ls ++ [l]) -> Forall (fun l => (length (l_msg l) mod t_B c = 0)%nat) ls ->
  exists rs, thistory cf p (T_new cf false) (XInit true key iv info :: seal_calls 0 (ls ++ [l])) = Ok rs /\
    concat (outs rs) = stream_crypt (t_B c) (t_block c (le_words 8 key) (le_words 8 (match info with [] => t_default c | _ => info end))) (value_le iv) (concat (map l_msg (ls ++ [l]))).
Proof. exact (c67_split cf c p key iv info ls l). Qed.
Print Assumptions C67_aligned_split.
Example C67_aligned_split_case : Forall (fun l => (length (l_msg l) mod t_B tsx256 = 0)%nat) [Letter [] (zeros 96) [0%nat] [0%nat]].
Proof. repeat constructor. Qed.
(** when input and output are the same window, the message is overwritten by zeros, whatever the key *)
Theorem C67_in_place_refuted cf c p ord enc key iv info k out len : In (cf, c) tsx_ciphers -> profile_ok (t_B c) p -> bytes key -> bytes iv -> bytes info -> taccepted c key iv info = true ->
  (k + len <= length out)%nat -> (sp_par p = false \/ (len < sp_min p)%nat) ->
  exists o o', T_Initialize cf p (T_new cf false) enc key iv info = Ok o /\ T_Transform cf p ord o None k out k len = Ok (o', splice out k (zeros len), None).
Proof. exact (fun HI => c67_in_place cf c p (all_tmatch cf c HI) ord enc key iv info k out len). Qed.
Print Assumptions C67_in_place_refuted.
Example C67_in_place_case : (1 + 2 <= length [9%Z; 1%Z; 2%Z])%nat /\ splice [9; 1; 2] 1 (zeros 2) = [9; 0; 0] /\ taccepted tsx1024 tkey4 tiv tiv = true.
Proof. split; [cbn; lia|]. split; reflexivity. Qed.
(** an object that was never initialised ciphers with the all-zero key, tweak and counter instead of refusing *)
Theorem C67_uninitialised_refuted cf c p ord m : In (cf, c) tsx_ciphers -> Session_KMAC.short m -> (sp_par p = false \/ (length m < sp_min p)%nat) ->
  exists o', T_Transform cf p ord (T_new cf false) (Some m) 0 (zeros (length m)) 0 (length m) = Ok (o', stream_crypt (t_B c) (t_block c (zeros (t_B c / 8)) (zeros 2)) 0 m, None).
Proof. exact (fun HI => tfresh_plain cf c p (all_tmatch cf c HI) ord m). Qed.
Print Assumptions C67_uninitialised_refuted.
(** a tweak of 1 to 15 bytes is refused by TSX256, but read beyond its end by TSX512 and TSX1024 *)
Theorem C67_short_info_refuted cf c auth p enc key iv info : In (cf, c) tsx_ciphers -> profile_ok (t_B c) p -> length key = t_B c -> length iv = 16%nat -> bytes iv -> (0 < length info < 16)%nat ->
  T_Initialize cf p (T_new cf auth) enc key iv info = if t_exact c then Throw InvalidInfo else UB.
Proof. exact (c67_short cf c auth p enc key iv info). Qed.
Print Assumptions C67_short_info_refuted.
Example C67_short_info_case : t_exact tsx256 = true /\ t_exact tsx512 = false /\ t_exact tsx1024 = false /\ length tkey4 = t_B tsx1024 /\ length tiv = 16%nat /\ (0 < length [1%Z] < 16)%nat.
Proof. repeat split; cbn; lia. Qed.

(** ** C68 with authentication *)
(** any calls after Initialize: each message is followed by, and checked against, KMAC over the associated data, the
    counter, the ciphertext, the running total and the name; a packet with another tag is refused before anything is
    written *)
Theorem C68_every_history cf c p enc key iv info cs : In (cf, c) tsx_ciphers -> profile_ok (t_B c) p -> bytes key -> bytes iv -> bytes info -> taccepted c key iv info = true ->
  tcalls_ok c p true enc cs ->
  exists rs, thistory cf p (T_new cf true) (XInit enc key iv info :: cs) = Ok (XDone :: rs) /\ texpected c true (topened c true enc key iv info) cs rs.
Proof. exact (c67_hist cf c p true enc key iv info cs). Qed.
Print Assumptions C68_every_history.
Example C68_every_history_case : profile_ok 32 (SProf false 32 32 1) /\ taccepted tsx256 tkey1 tiv [] = true /\ tcalls_ok tsx256 (SProf false 32 32 1) true false [XAad [1; 2] 0 2; XTransform (zeros 40) 0 (zeros 8) 0 8 [0%nat]; XTag].
Proof.
  split; [unfold profile_ok; cbn; repeat split; try lia; discriminate|]. split; [reflexivity|].
  cbn [tcalls_ok tcall_ok andb negb]. small; try (cbn; lia); cbn; auto; try lia.
Qed.
(** a conversation: the peer gets every message back, in order, with the same associated data *)
Theorem C68_round_trip cf c p p' key iv info ls : In (cf, c) tsx_ciphers -> profile_ok (t_B c) p -> profile_ok (t_B c) p' -> bytes key -> bytes iv -> bytes info -> taccepted c key iv info = true ->
  Forall (tletter_ok c true p p') ls ->
  exists rs rs', thistory cf p (T_new cf true) (XInit true key iv info :: seal_calls (t_tag c) ls) = Ok rs /\ map (@length Z) (outs rs) = map (fun l => (length (l_msg l) + t_tag c)%nat) ls /\
    thistory cf p' (T_new cf true) (XInit false key iv info :: open_calls (t_tag c) ls (outs rs)) = Ok rs' /\ outs rs' = map l_msg ls.
Proof. exact (c67_talk cf c true p p' key iv info ls). Qed.
Print Assumptions C68_round_trip.
Example C68_round_trip_case : Forall (tletter_ok tsx1024 true (SProf false 128 128 1) (SProf true 128 256 1)) [Letter [[1; 2]; [3]] [1; 2; 3] [0%nat] [0%nat]; Letter [] [] [0%nat] [0%nat]].
Proof. repeat (apply Forall_cons; [unfold tletter_ok; cbn [l_aad l_msg l_ord l_ord']; small; try (cbn; lia)|]); apply Forall_nil. Qed.
(** after any such conversation, the next packet with any other tag is refused and no plaintext is written *)
Theorem C68_tampered_tag cf c p p' key iv info ls l ps ct tg tg' : In (cf, c) tsx_ciphers -> profile_ok (t_B c) p -> profile_ok (t_B c) p' -> bytes key -> bytes iv -> bytes info -> taccepted c key iv info = true ->
  Forall (tletter_ok c true p p') (ls ++ [l]) -> length tg = t_tag c -> length tg' = t_tag c -> bytes tg' -> tg' <> tg ->
  forall rs, thistory cf p (T_new cf true) (XInit true key iv info :: seal_calls (t_tag c) (ls ++ [l])) = Ok rs -> outs rs = ps ++ [ct ++ tg] ->
  exists rs', thistory cf p' (T_new cf true) (XInit false key iv info :: open_calls (t_tag c) (ls ++ [l]) (ps ++ [ct ++ tg'])) = Ok (rs' ++ [XFail AuthenticationFailure (zeros (length (l_msg l)))]) /\ outs rs' = map l_msg ls.
Proof. exact (c68_tamper cf c p p' key iv info ls l ps ct tg tg'). Qed.
Print Assumptions C68_tampered_tag.
(** Tag() after a refused packet tells the tag that would have been accepted: for any ciphertext, whatever tag it came
    with, the receiver's Tag() then makes the same ciphertext pass on a receiver in the same state *)
Theorem C68_refusal_hides_tag_refuted cf c p key iv info ct tg : In (cf, c) tsx_ciphers -> profile_ok (t_B c) p -> bytes key -> bytes iv -> bytes info -> taccepted c key iv info = true ->
  bytes ct -> bytes tg -> length tg = t_tag c -> 8 * (Z.of_nat (length ct) + Z.of_nat (t_tag c)) < 2 ^ 64 -> Z.of_nat (length ct / t_B c) < 2 ^ 64 ->
  let ask x := XTransform (ct ++ x) 0 (zeros (length ct)) 0 (length ct) (seq 0 (sp_deg p)) in
  exists r t pt, thistory cf p (T_new cf true) [XInit false key iv info; ask tg; XTag] = Ok [XDone; r; XOut t] /\ length t = t_tag c /\
    thistory cf p (T_new cf true) [XInit false key iv info; ask t] = Ok [XDone; XOut pt].
Proof. exact (c68_oracle cf c p key iv info ct tg). Qed.
Print Assumptions C68_refusal_hides_tag_refuted.
Example C68_refusal_case : taccepted tsx256 tkey1 tiv [] = true /\ length (zeros 32) = t_tag tsx256 /\ 8 * (Z.of_nat (length [7%Z; 7%Z]) + Z.of_nat (t_tag tsx256)) < 2 ^ 64.
Proof. repeat split; reflexivity. Qed.
(** TSX1024 checks for 64 bytes of room but writes a tag of 128: with less room than that the array is overrun *)
Theorem C68_room_refuted key iv info p ord inp io out oo len : profile_ok (t_B tsx1024) p -> bytes key -> bytes iv -> bytes info -> taccepted tsx1024 key iv info = true -> bytes inp -> bytes out ->
  (io + len <= length inp)%nat -> Session_KMAC.short inp -> Session_KMAC.short out -> Permutation ord (seq 0 (sp_deg p)) -> Z.of_nat (len / t_B tsx1024) < 2 ^ 64 -> (oo + len + 64 <= length out < oo + len + 128)%nat ->
  exists o, T_Initialize tsx1024_conf p (T_new tsx1024_conf true) true key iv info = Ok o /\ T_Transform tsx1024_conf p ord o (Some inp) io out oo len = UB.
Proof. exact (c68_room key iv info p ord inp io out oo len). Qed.
Print Assumptions C68_room_refuted.
Example C68_room_case : taccepted tsx1024 tkey4 tiv [] = true /\ (0 + 3 + 64 <= length (zeros 67) < 0 + 3 + 128)%nat /\ Session_KMAC.short (zeros 67).
Proof. split; [reflexivity|]. split; [cbn; lia|reflexivity]. Qed.
(** Transform on an authenticated object that was not initialised dereferences a null authenticator *)
Theorem C68_uninitialised_refuted cf p ord inp io out oo len : T_Transform cf p ord (T_new cf true) inp io out oo len = UB.
Proof. exact (eq_refl UB). Qed.
Print Assumptions C68_uninitialised_refuted.
