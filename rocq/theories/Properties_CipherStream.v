(** C44 CipherStream: writing data through a cipher mode with padding.

    A set-up fixes the mode, the padding, the block cipher (any inverse pair of functions on 16-byte blocks),
    the width of the wide path, the parallel profile and the orders in which the workers run. *)
From Verif Require Import BaseLemmas Spec_Common Spec_Modes Spec_File Spec_CipherStream Model_Modes Model_Stream Session_CipherStream ProofsP_CipherStream.
Open Scope Z_scope.

(** a message that is not a whole number of blocks: the output array becomes exactly the encryption of the padded message *)
Theorem C44_encrypt_padded : forall x inp io out st, good_setup x -> counter (s_mode x) = false -> register st -> (io <= length inp)%nat ->
  let msg := skipn io inp in let b := unit_size (s_mode x) in (length msg mod b <> 0)%nat -> (length msg / b * b <= length out)%nat ->
  exists st', write x true inp io out 0 st = Ok (mode_encrypt (s_mode x) (s_E x) st (padded (s_pad x) b msg), st').
Proof. exact c44_encrypt. Qed.
Print Assumptions C44_encrypt_padded.
(** two or more whole blocks: encrypted without padding, at the output offset *)
Theorem C44_encrypt_aligned : forall x inp io out oo st, good_setup x -> counter (s_mode x) = false -> register st -> (io <= length inp)%nat ->
  let msg := skipn io inp in let b := unit_size (s_mode x) in (length msg mod b = 0)%nat -> length msg <> b -> (oo + length msg <= length out)%nat ->
  exists out' st', write x true inp io out oo st = Ok (out', st') /\ written out out' oo (mode_encrypt (s_mode x) (s_E x) st msg).
Proof. exact c44_aligned. Qed.
Print Assumptions C44_encrypt_aligned.
(** the counter modes, in both directions: any length but 16 *)
Theorem C44_counter : forall x enc inp io out oo st, good_setup x -> counter (s_mode x) = true -> register st -> (io <= length inp)%nat ->
  let msg := skipn io inp in length msg <> 16%nat -> (oo + length msg <= length out)%nat ->
  exists out' st', write x enc inp io out oo st = Ok (out', st') /\ written out out' oo (mode_encrypt (s_mode x) (s_E x) st msg).
Proof. exact c44_counter. Qed.
Print Assumptions C44_counter.

(** any number of messages written through one encryptor and then one decryptor come back exactly,
    and both end in the same state *)
Theorem C44_round_trip : forall x y ms o1 st, counterpart x y -> counter (s_mode x) = false -> register st ->
  let b := unit_size (s_mode x) in
  Forall2 (fun msg out => bytes msg /\ (length msg mod b <> 0)%nat /\ (length msg / b * b <= length out)%nat) ms o1 ->
  exists cs st', writes x true (combine ms o1) st = Ok (cs, st') /\
    forall o2, Forall2 (fun msg out => (length msg <= length out)%nat) ms o2 -> writes y false (combine cs o2) st = Ok (ms, st').
Proof. exact c44_round_trip. Qed.
Print Assumptions C44_round_trip.
Theorem C44_counter_round_trip : forall x y ms o1 st, counterpart x y -> counter (s_mode x) = true -> register st ->
  Forall2 (fun msg out => bytes msg /\ length msg <> 16%nat /\ length out = length msg) ms o1 ->
  exists cs st', writes x true (combine ms o1) st = Ok (cs, st') /\
    forall o2, Forall2 (fun msg out => length out = length msg) ms o2 -> writes y false (combine cs o2) st = Ok (ms, st').
Proof. exact c44_counter_round_trip. Qed.
Print Assumptions C44_counter_round_trip.

(** finding: a message of exactly one block is never processed; the output array is left as it was *)
Theorem C44_one_block_refuted : forall x enc inp io out oo st, good_setup x -> (counter (s_mode x) || enc)%bool = true -> register st -> (io <= length inp)%nat ->
  (length inp - io)%nat = unit_size (s_mode x) -> (oo <= length out)%nat -> write x enc inp io out oo st = Ok (out, st).
Proof. exact c44_one_block. Qed.
Print Assumptions C44_one_block_refuted.
(** finding: a whole number of blocks gets no padding, but decryption strips whatever looks like one: such a message loses its tail *)
Theorem C44_padding_like_tail_refuted : forall x y body j o1 o2 st, counterpart x y -> counter (s_mode x) = false -> register st -> bytes body ->
  let b := unit_size (s_mode x) in let msg := body ++ pad_bytes (s_pad x) j in
  (1 <= j <= b)%nat -> (length msg mod b = 0)%nat -> length msg <> b -> length o1 = length msg -> (length body <= length o2)%nat ->
  exists c st', write x true msg 0 o1 0 st = Ok (c, st') /\ write y false c 0 o2 0 st = Ok (body, st').
Proof. exact c44_tail. Qed.
Print Assumptions C44_padding_like_tail_refuted.
(** finding: so two different messages have the same encryption *)
Theorem C44_distinct_messages_refuted : forall x body out1 out2 st, good_setup x -> counter (s_mode x) = false -> register st ->
  let b := unit_size (s_mode x) in (length body mod b <> 0)%nat -> (b < length body)%nat -> (length body / b * b <= length out1)%nat -> length out2 = length (padded (s_pad x) b body) ->
  exists r, write x true body 0 out1 0 st = Ok r /\ write x true (padded (s_pad x) b body) 0 out2 0 st = Ok r.
Proof. exact c44_same_ciphertext. Qed.
Print Assumptions C44_distinct_messages_refuted.
(** finding: the resizing of Output ignores OutOffset: encryption of a partial block at an offset writes outside the array ... *)
Theorem C44_offset_encrypt_refuted : forall x inp io out oo st, good_setup x -> counter (s_mode x) = false -> register st -> (io <= length inp)%nat ->
  let n := (length inp - io)%nat in let b := unit_size (s_mode x) in (n mod b <> 0)%nat -> (0 < oo)%nat -> (oo + n / b * b <= length out)%nat ->
  write x true inp io out oo st = UB.
Proof. exact c44_offset_encrypt. Qed.
Print Assumptions C44_offset_encrypt_refuted.
(** ... and decryption at an offset loses that many bytes of the end of the message *)
Theorem C44_offset_decrypt_refuted : forall x y msg o1 out oo st, counterpart x y -> counter (s_mode x) = false -> register st -> bytes msg ->
  let b := unit_size (s_mode x) in (length msg mod b <> 0)%nat -> (length msg / b * b <= length o1)%nat -> (oo + length msg <= length out)%nat ->
  exists c st', write x true msg 0 o1 0 st = Ok (c, st') /\ write y false c 0 out oo st = Ok (firstn (length msg) (firstn oo out ++ msg), st').
Proof. exact c44_offset_decrypt. Qed.
Print Assumptions C44_offset_decrypt_refuted.

(** streams: the whole rest of the input stream is read, and the encryption is written at the output stream's position *)
Theorem C44_stream_encrypt : forall x d p od op q q' st, good_setup x -> counter (s_mode x) = false -> register st -> (p <= length d)%nat -> (op <= length od)%nat ->
  let msg := skipn p d in let b := unit_size (s_mode x) in length msg <> b ->
  Z.of_nat (length d) < 2 ^ 63 -> Z.of_nat (length od) < 2 ^ 63 -> Z.of_nat (op + length msg + b) < 2 ^ 63 ->
  exists ins outs st', write_stream x true (MStream d (Z.of_nat p) q) (MStream od (Z.of_nat op) q') st = Ok (ins, outs, st') /\
    let c := mode_encrypt (s_mode x) (s_E x) st (padded (s_pad x) b msg) in
    ms_data ins = d /\ ms_pos ins = Z.of_nat (length d) /\ ms_data outs = put_at od op c /\ ms_pos outs = Z.of_nat (op + length c).
Proof. exact c44_stream_encrypt. Qed.
Print Assumptions C44_stream_encrypt.
Theorem C44_stream_counter : forall x enc d p od op q q' st, good_setup x -> counter (s_mode x) = true -> register st -> (p <= length d)%nat -> (op <= length od)%nat ->
  let msg := skipn p d in length msg <> 16%nat ->
  Z.of_nat (length d) < 2 ^ 63 -> Z.of_nat (length od) < 2 ^ 63 -> Z.of_nat (op + length msg) < 2 ^ 63 ->
  exists ins outs st', write_stream x enc (MStream d (Z.of_nat p) q) (MStream od (Z.of_nat op) q') st = Ok (ins, outs, st') /\
    let c := mode_encrypt (s_mode x) (s_E x) st msg in
    ms_data ins = d /\ ms_pos ins = Z.of_nat (length d) /\ ms_data outs = put_at od op c /\ ms_pos outs = Z.of_nat (op + length c).
Proof. exact c44_stream_counter. Qed.
Print Assumptions C44_stream_counter.
Theorem C44_stream_round_trip : forall x y msg q q1 st, counterpart x y -> counter (s_mode x) = false -> register st -> bytes msg ->
  let b := unit_size (s_mode x) in (length msg mod b <> 0)%nat -> Z.of_nat (length msg + b) < 2 ^ 63 ->
  exists i o st', write_stream x true (MStream msg 0 q) MemoryStream_new st = Ok (i, o, st') /\
    exists i2 o2, write_stream y false (MStream (ms_data o) 0 q1) MemoryStream_new st = Ok (i2, o2, st') /\ ms_data o2 = msg /\ ms_pos o2 = Z.of_nat (length msg).
Proof. exact c44_stream_round_trip. Qed.
Print Assumptions C44_stream_round_trip.
Theorem C44_stream_one_block_refuted : forall x enc d p od op q q' st, good_setup x -> (counter (s_mode x) || enc)%bool = true -> register st -> (p <= length d)%nat -> (op <= length od)%nat ->
  (length d - p)%nat = unit_size (s_mode x) -> Z.of_nat (length d) < 2 ^ 63 -> Z.of_nat (length od + 16) < 2 ^ 63 ->
  exists ins outs, write_stream x enc (MStream d (Z.of_nat p) q) (MStream od (Z.of_nat op) q') st = Ok (ins, outs, st) /\ ms_data outs = od /\ ms_pos outs = Z.of_nat op /\ ms_pos ins = Z.of_nat p.
Proof. exact c44_stream_one_block. Qed.
Print Assumptions C44_stream_one_block_refuted.

(** the hypotheses are met: CBC with PKCS7 over a toy cipher, a sequential sender and a receiver with two workers run in reverse;
    37 and 5 byte messages *)
Definition flip7 (b : list Z) : list Z := map (fun v => Z.lxor v 7) b.
Definition toy (m : mode) (k : pad) (p : prof) : setup := Setup m k flip7 flip7 2 p (fun _ _ => [1; 0]%nat).
Definition alone : prof := {| par := false; pblk := 0; deg := 0 |}.
Definition duo : prof := {| par := true; pblk := 32; deg := 2 |}.
Lemma flip7_inverse : inverse_cipher flip7 flip7.
Proof.
  assert (L : block_fun flip7) by (intros b H; unfold flip7; now rewrite map_length). split; [exact L|]. split; [exact L|]. intros b Hb _. split.
  - apply Forall_forall. intros v Hv. apply in_map_iff in Hv. destruct Hv as (w & <- & Hw). eapply Forall_forall in Hb; [|exact Hw]. apply lxor_byte; [exact Hb | unfold is_byte; lia].
  - unfold flip7. rewrite map_map. rewrite <- (map_id b) at 2. apply map_ext. intros v. rewrite Z.lxor_assoc, Z.lxor_nilpotent. apply Z.lxor_0_r.
Qed.
Lemma toy_alone m k : mode_ok m -> good_setup (toy m k alone).
Proof. intros H. split; [exact flip7_inverse|]. split; [exact H|]. discriminate. Qed.
Lemma toy_duo m k : mode_ok m -> (32 mod unit_size m = 0)%nat -> good_setup (toy m k duo).
Proof.
  intros H1 H2. split; [exact flip7_inverse|]. split; [exact H1|]. intros _. split; [exists 1%nat; cbn; lia|]. split; [intros; apply Permutation.perm_swap|].
  split; [exact H2|]. intros _. cbn. lia.
Qed.
Definition m37 : list Z := map Z.of_nat (seq 1 37).
Definition m5 : list Z := [9; 8; 7; 6; 5].
Definition reg0 : list Z := map Z.of_nat (seq 100 16).
Example C44_case :
  counterpart (toy CBC PKCS7 alone) (toy CBC PKCS7 duo) /\ register reg0 /\
  writes (toy CBC PKCS7 duo) true [(m37, zeros 48); (m5, [])] reg0 =
    Ok ([mode_encrypt CBC flip7 reg0 (m37 ++ repeat 11 11);
         mode_encrypt CBC flip7 (skipn 32 (mode_encrypt CBC flip7 reg0 (m37 ++ repeat 11 11))) (m5 ++ repeat 11 11)],
        mode_encrypt CBC flip7 (skipn 32 (mode_encrypt CBC flip7 reg0 (m37 ++ repeat 11 11))) (m5 ++ repeat 11 11)) /\
  write (toy (CFB 8) ESP duo) true m37 0 (zeros 40) 0 reg0 = Ok (mode_encrypt (CFB 8) flip7 reg0 (m37 ++ [1; 2; 3]), skipn 24 (mode_encrypt (CFB 8) flip7 reg0 (m37 ++ [1; 2; 3]))) /\
  write (toy CTR PKCS7 duo) true m37 0 (zeros 40) 2 reg0 = Ok ([0; 0] ++ mode_encrypt CTR flip7 reg0 m37 ++ [0], map Z.of_nat (seq 100 15) ++ [118]).
Proof.
  split; [|split; [|split; [|split]]].
  - split; [now apply toy_alone|]. split; [now apply toy_duo|]. repeat split.
  - split; [reflexivity|]. apply Forall_forall. intros v Hv. apply in_map_iff in Hv. destruct Hv as (w & <- & Hw). apply in_seq in Hw. unfold is_byte. lia.
  - vm_compute. reflexivity.
  - vm_compute. reflexivity.
  - vm_compute. reflexivity.
Qed.
Example C44_findings_case :
  write (toy OFB X923 alone) true (firstn 16 m37) 0 (repeat 170 16) 0 reg0 = Ok (repeat 170 16, reg0) /\
  bind (write (toy OFB X923 alone) true (repeat 5 31 ++ [1]) 0 (zeros 32) 0 reg0) (fun r =>
    bind (write (toy OFB X923 alone) false (fst r) 0 (zeros 32) 0 reg0) (fun r' => Ok (fst r'))) = Ok (repeat 5 31) /\
  write (toy CBC ZeroOne alone) true m5 0 (zeros 16) 3 reg0 = UB /\
  bind (write (toy CBC ZeroOne alone) true m5 0 [] 0 reg0) (fun r =>
    bind (write (toy CBC ZeroOne alone) false (fst r) 0 (zeros 16) 3 reg0) (fun r' => Ok (fst r'))) = Ok [0; 0; 0; 9; 8].
Proof. repeat split; vm_compute; reflexivity. Qed.
