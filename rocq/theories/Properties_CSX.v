(** * Properties of ChaChaP20 and CSX512: C42, C46 *)
From Coq Require Import Permutation.
From Verif Require Import Base Spec_Common Spec_ChaCha Model_ChaCha Spec_Stream Model_CSX Session_CSX Proofs_ChaCha ProofsP_CSX ProofsP_CSX2 ProofsP_CSX3.
Open Scope Z_scope.

(** ** C42 the permutations *)
(** the unrolled permutation writes ten double rounds plus feed-forward, little endian *)
Theorem C42_block st v out oo : length st = 14%nat -> (oo + 64 <= length out)%nat ->
  PermuteR20P512U out oo (counter_words 32 v) st = Ok (splice out oo (chacha_block 10 st v)).
Proof. exact (c42_block st v out oo). Qed.
Print Assumptions C42_block.
(** RFC 8439, 2.3.2 *)
Definition rfc_state : list Z := le_words 4 (b_sigma chacha20 ++ map Z.of_nat (seq 0 32) ++ [0; 0; 0; 0x4a; 0; 0; 0; 0]).
Example C42_block_case : chacha_block 10 rfc_state (1 + 2 ^ 32 * 0x09000000) =
  [0x10; 0xf1; 0xe7; 0xe4; 0xd1; 0x3b; 0x59; 0x15; 0x50; 0x0f; 0xdd; 0x1f; 0xa3; 0x20; 0x71; 0xc4;
   0xc7; 0xd1; 0xf4; 0xc7; 0x33; 0xc0; 0x68; 0x03; 0x04; 0x22; 0xaa; 0x9a; 0xc3; 0xd4; 0x6c; 0x4e;
   0xd2; 0x82; 0x64; 0x46; 0x07; 0x9f; 0xaa; 0x09; 0x14; 0xc2; 0xd7; 0x05; 0xd9; 0x8b; 0x02; 0xa2;
   0xb5; 0x12; 0x9c; 0xd1; 0xde; 0x16; 0x4e; 0xb9; 0xcb; 0xd0; 0x83; 0xe8; 0xa2; 0x50; 0x3c; 0x4e].
Proof. vm_compute. reflexivity. Qed.
(** the compact form, for every even number of rounds *)
Theorem C42_block_compact rounds st v out oo : Nat.even rounds = true -> Forall (is_word 32) st -> length st = 14%nat -> (oo + 64 <= length out)%nat ->
  PermuteP512C out oo (counter_words 32 v) st rounds = Ok (splice out oo (chacha_block (rounds / 2) st v)).
Proof. exact (c42_compact rounds st v out oo). Qed.
Print Assumptions C42_block_compact.
Example C42_block_compact_case : Nat.even 20 = true /\ Forall (is_word 32) rfc_state /\ length rfc_state = 14%nat.
Proof. split; [reflexivity|]. split; [|reflexivity]. repeat (apply Forall_cons; [vm_compute; intuition congruence|]). apply Forall_nil. Qed.
(** CSX-512: the same on 64-bit words with its own rotations *)
Theorem C42_csx_block rounds st v out oo : Nat.even rounds = true -> length st = 14%nat -> (oo + 128 <= length out)%nat ->
  PermuteP1024C out oo (counter_words 64 v) st rounds = Ok (splice out oo (csx_block (rounds / 2) st v)).
Proof. exact (c42_csx_block rounds st v out oo). Qed.
Print Assumptions C42_csx_block.

(** ** C42 the ciphers without authentication *)
(** Initialize on a new object, then any calls with any windows: Transform xors the keystream of the key, nonce and
    code, each call going on at the next whole block *)
Theorem C42_every_history cf c s p enc key iv info cs : In (cf, c) stream_ciphers -> profile_ok (b_B c) p -> bytes key -> bytes iv -> bytes info -> accepted c key iv info = true ->
  xcalls_ok c p false enc cs ->
  exists rs, xhistory cf s p (S_new false) (XInit enc key iv info :: cs) = Ok (XDone :: rs) /\ xexpected c false (opened c false (zeros (b_code c)) enc key iv info) cs rs.
Proof. exact (c42_hist cf c s p false enc key iv info cs). Qed.
Print Assumptions C42_every_history.
Example C42_every_history_case : In (chacha_conf, chacha20) stream_ciphers /\ profile_ok 64 parp /\ accepted chacha20 key1 iv1 [] = true /\
  xcalls_ok chacha20 parp false true [XTransform (zeros 200) 3 (zeros 150) 0 140 [0%nat]; XAad [1] 0 1; XTag; XInit false key1 [1] []; x1 [1; 2]].
Proof.
  split; [cbn; auto|]. split; [unfold profile_ok; cbn; repeat split; lia|]. split; [reflexivity|].
  cbn [xcalls_ok xcall_ok x1 andb negb sp_par parp]. small; try (cbn; lia); cbn; auto; try lia.
Qed.
(** decryption inverts encryption: whatever was sent in however many calls comes back, also when the two sides use
    different vector widths, parallel profiles and schedules *)
Theorem C42_round_trip cf c s p s' p' key iv info ls : In (cf, c) stream_ciphers -> profile_ok (b_B c) p -> profile_ok (b_B c) p' -> bytes key -> bytes iv -> bytes info -> accepted c key iv info = true ->
  Forall (letter_ok c false p p') ls ->
  exists rs rs', xhistory cf s p (S_new false) (XInit true key iv info :: seal_calls 0 ls) = Ok rs /\ map (@length Z) (outs rs) = map (fun l => (length (l_msg l) + 0)%nat) ls /\
    xhistory cf s' p' (S_new false) (XInit false key iv info :: open_calls 0 ls (outs rs)) = Ok rs' /\ outs rs' = map l_msg ls.
Proof. exact (c42_talk cf c false s p s' p' key iv info ls). Qed.
Print Assumptions C42_round_trip.
Example C42_round_trip_case : profile_ok 64 seqp /\ profile_ok 64 parp /\ Forall (letter_ok chacha20 false seqp parp) [Letter [] [1; 2; 3] [0%nat] [0%nat]; Letter [] [] [0%nat] [0%nat]].
Proof. split; [unfold profile_ok; cbn; repeat split; try lia; discriminate|]. split; [unfold profile_ok; cbn; repeat split; lia|]. repeat (apply Forall_cons; [unfold letter_ok; cbn [l_aad l_msg l_ord l_ord']; small; try (cbn; lia)|]); apply Forall_nil. Qed.
(** neither the vector width nor the parallel profile nor the schedule changes any result *)
Theorem C42_schedules cf c s p s' p' auth enc key iv info cs cs' : In (cf, c) stream_ciphers -> profile_ok (b_B c) p -> profile_ok (b_B c) p' -> bytes key -> bytes iv -> bytes info -> accepted c key iv info = true ->
  xcalls_ok c p auth enc cs -> xcalls_ok c p' auth enc cs' -> map unscheduled cs = map unscheduled cs' ->
  xhistory cf s p (S_new auth) (XInit enc key iv info :: cs) = xhistory cf s' p' (S_new auth) (XInit enc key iv info :: cs').
Proof. exact (c42_schedule cf c s p s' p' auth enc key iv info cs cs'). Qed.
Print Assumptions C42_schedules.
(** pieces of whole blocks give the same as one call *)
Theorem C42_aligned_split cf c s p key iv info ls l : In (cf, c) stream_ciphers -> profile_ok (b_B c) p -> bytes key -> bytes iv -> bytes info -> accepted c key iv info = true ->
  Forall (letter_ok c false p p) (ls ++ [l]) -> Forall (fun l => (length (l_msg l) mod b_B c = 0)%nat) ls ->
  exists rs, xhistory cf s p (S_new false) (XInit true key iv info :: seal_calls 0 (ls ++ [l])) = Ok rs /\
    let L := b_layout c key iv (code_of c (zeros (b_code c)) info) in concat (outs rs) = stream_crypt (b_B c) (b_block c (fst L)) (snd L) (concat (map l_msg (ls ++ [l]))).
Proof. exact (c42_split cf c s p key iv info ls l). Qed.
Print Assumptions C42_aligned_split.
Example C42_aligned_split_case : Forall (fun l => (length (l_msg l) mod b_B chacha20 = 0)%nat) [Letter [] (zeros 128) [0%nat] [0%nat]].
Proof. repeat constructor. Qed.
(** other pieces do not *)
Theorem C42_split_refuted : exists a b d, xhistory chacha_conf 0 seqp (S_new false) [XInit true key1 iv1 []; x1 [1]; x1 [2]] = Ok [XDone; XOut a; XOut b] /\
  xhistory chacha_conf 0 seqp (S_new false) [XInit true key1 iv1 []; x1 [1; 2]] = Ok [XDone; XOut d] /\ a ++ b <> d.
Proof. exact c42_unaligned. Qed.
Print Assumptions C42_split_refuted.
(** when input and output are the same window, the message is overwritten by zeros, whatever the key *)
Theorem C42_in_place_refuted cf c s p ord enc key iv info k out len : In (cf, c) stream_ciphers -> profile_ok (b_B c) p -> bytes key -> bytes iv -> bytes info -> accepted c key iv info = true ->
  (k + len <= length out)%nat -> Session_KMAC.short out -> (sp_par p = false \/ (len < sp_min p)%nat) ->
  exists o o', S_Initialize cf p (S_new false) enc key iv info = Ok o /\ S_Transform cf s p ord o None k out k len = Ok (o', splice out k (zeros len), None).
Proof. exact (fun HI => c42_in_place' cf c s p (Proofs_CSX.all_match cf c HI) ord enc key iv info k out len). Qed.
Print Assumptions C42_in_place_refuted.
Example C42_in_place_case : (1 + 2 <= length [9%Z; 1%Z; 2%Z])%nat /\ splice [9; 1; 2] 1 (zeros 2) = [9; 0; 0].
Proof. split; [cbn; lia|reflexivity]. Qed.
(** a parallel call whose length is no multiple of the chunk ignores the output offset for its tail *)
Theorem C42_parallel_tail_refuted : exists o o' out, S_Initialize chacha_conf parp (S_new false) true key1 iv1 [] = Ok o /\
  S_Transform chacha_conf 0 parp [0%nat] o (Some (zeros 65)) 0 (zeros 66) 1 65 = Ok (o', out, None) /\
  exists o2 out2, S_Transform chacha_conf 0 seqp [0%nat] o (Some (zeros 65)) 0 (zeros 66) 1 65 = Ok (o2, out2, None) /\ out <> out2.
Proof. exact c42_tail. Qed.
Print Assumptions C42_parallel_tail_refuted.
(** an object that was never initialised ciphers with the all-zero state instead of refusing *)
Theorem C42_uninitialised_refuted cf c s p ord m : In (cf, c) stream_ciphers -> Session_KMAC.short m -> (sp_par p = false \/ (length m < sp_min p)%nat) ->
  exists o', S_Transform cf s p ord (S_new false) (Some m) 0 (zeros (length m)) 0 (length m) = Ok (o', stream_crypt (b_B c) (b_block c (zeros 14)) 0 m, None).
Proof. exact (fun HI => fresh_plain cf c s p (Proofs_CSX.all_match cf c HI) ord m). Qed.
Print Assumptions C42_uninitialised_refuted.
(** and the counter it used stays behind when ChaChaP20 is initialised afterwards *)
Theorem C42_early_call_refuted : exists a b, last_out (xhistory chacha_conf 0 seqp (S_new false) [XInit true key1 iv1 []; x1 [0]]) = Some a /\
  last_out (xhistory chacha_conf 0 seqp (S_new false) [x1 [0]; XInit true key1 iv1 []; x1 [0]]) = Some b /\ a <> b.
Proof. exact c42_early. Qed.
Print Assumptions C42_early_call_refuted.
(** CSX512 with a code shorter than 48 bytes: the ciphertext depends on the code used before *)
Theorem C42_short_code_refuted : exists a b, last_out (xhistory csx_conf 0 seqp (S_new false) [XInit true key2 iv2 [7]; x1 [0]]) = Some a /\
  last_out (xhistory csx_conf 0 seqp (S_new false) [XInit true key2 iv2 []; XInit true key2 iv2 [7]; x1 [0]]) = Some b /\ a <> b.
Proof. exact c42_short_code. Qed.
Print Assumptions C42_short_code_refuted.

(** ** C46 the ciphers with authentication *)
(** any calls after Initialize: each message is followed by, and checked against, KMAC over the associated data, the
    counter, the ciphertext and the running total; a packet with another tag is refused before anything is written *)
Theorem C46_every_history cf c s p enc key iv info cs : In (cf, c) stream_ciphers -> profile_ok (b_B c) p -> bytes key -> bytes iv -> bytes info -> accepted c key iv info = true ->
  xcalls_ok c p true enc cs ->
  exists rs, xhistory cf s p (S_new true) (XInit enc key iv info :: cs) = Ok (XDone :: rs) /\ xexpected c true (opened c true (zeros (b_code c)) enc key iv info) cs rs.
Proof. exact (c42_hist cf c s p true enc key iv info cs). Qed.
Print Assumptions C46_every_history.
Example C46_every_history_case : profile_ok 64 seqp /\ accepted chacha20 key1 iv1 [] = true /\ xcalls_ok chacha20 seqp true false [XAad [1; 2] 0 2; XTransform (zeros 40) 0 (zeros 8) 0 8 [0%nat]; XTag].
Proof.
  split; [unfold profile_ok; cbn; repeat split; try lia; discriminate|]. split; [reflexivity|].
  cbn [xcalls_ok xcall_ok andb negb]. small; try (cbn; lia); cbn; auto; try lia.
Qed.
(** a conversation: the peer gets every message back, in order, with the same associated data *)
Theorem C46_round_trip cf c s p s' p' key iv info ls : In (cf, c) stream_ciphers -> profile_ok (b_B c) p -> profile_ok (b_B c) p' -> bytes key -> bytes iv -> bytes info -> accepted c key iv info = true ->
  Forall (letter_ok c true p p') ls ->
  exists rs rs', xhistory cf s p (S_new true) (XInit true key iv info :: seal_calls (b_tag c) ls) = Ok rs /\ map (@length Z) (outs rs) = map (fun l => (length (l_msg l) + b_tag c)%nat) ls /\
    xhistory cf s' p' (S_new true) (XInit false key iv info :: open_calls (b_tag c) ls (outs rs)) = Ok rs' /\ outs rs' = map l_msg ls.
Proof. exact (c42_talk cf c true s p s' p' key iv info ls). Qed.
Print Assumptions C46_round_trip.
Example C46_round_trip_case : Forall (letter_ok csx512 true (SProf false 128 128 1) (SProf true 128 256 1)) [Letter [[1; 2]; [3]] [1; 2; 3] [0%nat] [0%nat]; Letter [] [] [0%nat] [0%nat]].
Proof. repeat (apply Forall_cons; [unfold letter_ok; cbn [l_aad l_msg l_ord l_ord']; small; try (cbn; lia)|]); apply Forall_nil. Qed.
(** after any such conversation, the next packet with any other tag is refused and no plaintext is written *)
Theorem C46_tampered_tag cf c s p s' p' key iv info ls l ps ct tg tg' : In (cf, c) stream_ciphers -> profile_ok (b_B c) p -> profile_ok (b_B c) p' -> bytes key -> bytes iv -> bytes info -> accepted c key iv info = true ->
  Forall (letter_ok c true p p') (ls ++ [l]) -> length tg = b_tag c -> length tg' = b_tag c -> bytes tg' -> tg' <> tg ->
  forall rs, xhistory cf s p (S_new true) (XInit true key iv info :: seal_calls (b_tag c) (ls ++ [l])) = Ok rs -> outs rs = ps ++ [ct ++ tg] ->
  exists rs', xhistory cf s' p' (S_new true) (XInit false key iv info :: open_calls (b_tag c) (ls ++ [l]) (ps ++ [ct ++ tg'])) = Ok (rs' ++ [XFail AuthenticationFailure (zeros (length (l_msg l)))]) /\ outs rs' = map l_msg ls.
Proof. exact (c46_tamper cf c s p s' p' key iv info ls l ps ct tg tg'). Qed.
Print Assumptions C46_tampered_tag.
(** an object stored right after Initialize is restored exactly *)
Theorem C46_serialize cf c p enc key iv info o : In (cf, c) stream_ciphers -> profile_ok (b_B c) p -> bytes key -> bytes iv -> bytes info ->
  S_Initialize cf p (S_new true) enc key iv info = Ok o -> S_restore cf (S_Serialize cf o) = Ok o.
Proof. exact (c46_serial_first cf c p enc key iv info o). Qed.
Print Assumptions C46_serialize.
(** later, everything is restored but the authenticator, which is again that of the initialised object: associated
    data given before is forgotten, and so is the state that earlier messages left in KMAC *)
Theorem C46_serialize_later cf c s p enc key iv info o cs : In (cf, c) stream_ciphers -> profile_ok (b_B c) p -> bytes key -> bytes iv -> bytes info ->
  S_Initialize cf p (S_new true) enc key iv info = Ok o -> Forall other_call cs -> xcalls_ok c p true enc cs ->
  exists o', xend cf s p o cs = Ok o' /\ S_restore cf (S_Serialize cf o') = Ok (set_mac o' (s_mac o)).
Proof. exact (c46_serial cf c s p enc key iv info o cs). Qed.
Print Assumptions C46_serialize_later.
(** without authentication a stored object cannot be restored at all *)
Theorem C46_serialize_plain_refuted cf c p enc key iv info o : In (cf, c) stream_ciphers -> profile_ok (b_B c) p -> bytes key -> bytes iv -> bytes info -> accepted c key iv info = true ->
  S_Initialize cf p (S_new false) enc key iv info = Ok o -> S_restore cf (S_Serialize cf o) = Throw InvalidKey.
Proof. exact (c46_serial_plain cf c p enc key iv info o). Qed.
Print Assumptions C46_serialize_plain_refuted.
(** Transform on an authenticated object that was not initialised dereferences a null authenticator *)
Theorem C46_uninitialised_refuted cf s p ord inp io out oo len : S_Transform cf s p ord (S_new true) inp io out oo len = UB.
Proof. exact (fresh_auth cf s p ord inp io out oo len). Qed.
Print Assumptions C46_uninitialised_refuted.
