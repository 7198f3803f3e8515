(** Modes of operation: ECB, CBC, CFB, OFB, CTR, ICM (properties C12-C20).

    [E] and [D] are the block functions of the underlying cipher, arbitrary functions on 16-byte
    blocks; [s] is the number of blocks of the wide SIMD path (0 = none, any value allowed);
    [p] is the parallel profile and [ord] the order in which the workers of a batch run. An input
    of [None] means that the caller passed the output array as the input array. *)
From Verif Require Import BaseLemmas Spec_Common Spec_Modes Model_Modes ProofsP_Modes ProofsP_Modes2 ProofsP_Modes3 ProofsP_Modes4.
Open Scope Z_scope.

(** ** C12 ECB *)
Theorem C12_ecb_blockwise f s p ord inp io out oo n : block_fun f -> (inp = None -> io = oo) ->
  (par p = true -> good_profile (deg p) (pblk p) /\ forall i, schedule (deg p) (ord i)) ->
  (oo + n * 16 <= length out)%nat -> (io + n * 16 <= length (src inp out))%nat ->
  exists out', ECB_Transform f s p ord inp io out oo (n * 16) = Ok out' /\
    written out out' oo (concat (map f (chunks 16 (slice (src inp out) io (n * 16))))).
Proof. exact (c12_def f s p ord inp io out oo n). Qed.
Print Assumptions C12_ecb_blockwise.
Theorem C12_ecb_decrypt_inverts E D s p ord s' p' ord' inp io out oo n out2 oo2 :
  inverse_cipher E D -> (inp = None -> io = oo) ->
  (par p = true -> good_profile (deg p) (pblk p) /\ forall i, schedule (deg p) (ord i)) ->
  (par p' = true -> good_profile (deg p') (pblk p') /\ forall i, schedule (deg p') (ord' i)) ->
  (oo + n * 16 <= length out)%nat -> (io + n * 16 <= length (src inp out))%nat -> (oo2 + n * 16 <= length out2)%nat ->
  bytes (src inp out) ->
  exists c r, ECB_Transform E s p ord inp io out oo (n * 16) = Ok c /\
    ECB_Transform D s' p' ord' (Some c) oo out2 oo2 (n * 16) = Ok r /\
    written out2 r oo2 (slice (src inp out) io (n * 16)).
Proof. exact (c12_inverse E D s p ord s' p' ord' inp io out oo n out2 oo2). Qed.
Print Assumptions C12_ecb_decrypt_inverts.
(** the hypotheses hold for a cipher that adds 1 to every byte, 5 blocks, 2 workers run in reverse *)
Definition add1 (b : list Z) := map (fun x => (x + 1) mod 256) b.
Definition sub1 (b : list Z) := map (fun x => (x - 1) mod 256) b.
Definition p2 := {| par := true; pblk := 32; deg := 2 |}.
Definition back (_ : nat) : list nat := [1; 0]%nat.
Lemma add1_inverse : inverse_cipher add1 sub1.
Proof.
  split; [|split].
  - intros b H. unfold add1. now rewrite map_length.
  - intros b H. unfold sub1. now rewrite map_length.
  - intros b Hb _. split.
    + apply Forall_forall. intros x Hx. apply in_map_iff in Hx. destruct Hx as (y & <- & _). unfold is_byte. lia.
    + unfold add1, sub1. rewrite map_map. rewrite <- (map_id b) at 2. apply map_ext_in. intros x Hx.
      eapply Forall_forall in Hb; [|exact Hx]. unfold is_byte in Hb. lia.
Qed.
Lemma p2_ok : par p2 = true -> good_profile (deg p2) (pblk p2) /\ forall i, schedule (deg p2) (back i).
Proof. intros _. split; [exists 1%nat; cbn; repeat split; lia|]. intros i. apply Permutation.perm_swap. Qed.
Definition msg80 : list Z := map Z.of_nat (seq 0 80).
Example C12_case :
  ECB_Transform add1 2 p2 back (Some msg80) 0 (zeros 96) 3 80 = Ok ([0;0;0] ++ map (fun x => x + 1) msg80 ++ zeros 13)
  /\ inverse_cipher add1 sub1 /\ (par p2 = true -> good_profile (deg p2) (pblk p2) /\ forall i, schedule (deg p2) (back i)).
Proof. split; [vm_compute; reflexivity|]. split; [apply add1_inverse|apply p2_ok]. Qed.

(** ** C13 CBC *)
Theorem C13_cbc_encrypt_history E cs iv : block_fun E -> calls_ok 16 cs -> length iv = 16%nat ->
  exists outs ds st, history (fun i io o oo len st => CBC_encrypt E (Some i) io o oo len st) cs iv = Ok (outs, st) /\
    wrote cs outs ds /\ concat ds = concat (cbc_encrypt E iv (chunks 16 (data cs))) /\
    st = last (cbc_encrypt E iv (chunks 16 (data cs))) iv.
Proof. exact (c13_encrypt E cs iv). Qed.
Print Assumptions C13_cbc_encrypt_history.
Theorem C13_cbc_decrypt_history D s p ord cs iv : block_fun D -> calls_ok 16 cs -> length iv = 16%nat ->
  (par p = true -> good_profile (deg p) (pblk p) /\ forall i, schedule (deg p) (ord i)) ->
  exists outs ds st, history (fun i io o oo len st => CBC_decrypt D s p ord (Some i) io o oo len st) cs iv = Ok (outs, st) /\
    wrote cs outs ds /\ concat ds = concat (cbc_decrypt D iv (chunks 16 (data cs))) /\
    st = last (chunks 16 (data cs)) iv.
Proof. exact (c13_decrypt D s p ord cs iv). Qed.
Print Assumptions C13_cbc_decrypt_history.
Theorem C13_cbc_round_trip E D s p ord cs1 cs2 iv : inverse_cipher E D -> calls_ok 16 cs1 -> calls_ok 16 cs2 ->
  length iv = 16%nat -> bytes iv -> bytes (data cs1) ->
  (par p = true -> good_profile (deg p) (pblk p) /\ forall i, schedule (deg p) (ord i)) ->
  exists outs1 ds1 st1, history (fun i io o oo len st => CBC_encrypt E (Some i) io o oo len st) cs1 iv = Ok (outs1, st1) /\ wrote cs1 outs1 ds1 /\
    (data cs2 = concat ds1 ->
     exists outs2 ds2 st2, history (fun i io o oo len st => CBC_decrypt D s p ord (Some i) io o oo len st) cs2 iv = Ok (outs2, st2) /\ wrote cs2 outs2 ds2 /\
       concat ds2 = data cs1).
Proof. exact (c13_round_trip E D s p ord cs1 cs2 iv). Qed.
Print Assumptions C13_cbc_round_trip.
Theorem C13_cbc_in_place_sequential E D s p ord out oo n iv : inverse_cipher E D -> (oo + n * 16 <= length out)%nat -> bytes out -> length iv = 16%nat -> bytes iv ->
  (par p = true -> (n * 16 < pblk p)%nat) ->
  exists c st r st2, CBC_encrypt E None oo out oo (n * 16) iv = Ok (c, st) /\
    written out c oo (concat (cbc_encrypt E iv (chunks 16 (slice out oo (n * 16))))) /\
    CBC_decrypt D s p ord None oo c oo (n * 16) iv = Ok (r, st2) /\ r = out.
Proof. exact (c13_in_place E D s p ord out oo n iv). Qed.
Print Assumptions C13_cbc_in_place_sequential.
(** finding: in place, the parallel decryption depends on the order in which the workers run *)
Theorem C13_cbc_parallel_in_place_refuted : exists D p ord ord' out iv,
  block_fun D /\ good_profile (deg p) (pblk p) /\ (forall i, schedule (deg p) (ord i)) /\ (forall i, schedule (deg p) (ord' i)) /\
  par p = true /\ length iv = 16%nat /\ (pblk p <= length out)%nat /\
  CBC_decrypt D 0 p ord None 0 out 0 (pblk p) iv <> CBC_decrypt D 0 p ord' None 0 out 0 (pblk p) iv.
Proof.
  exists (fun b => b), p2, (fun _ => [0; 1]%nat), back, (repeat 1 16 ++ repeat 2 16), (repeat 7 16).
  split; [intros b H; exact H|]. split; [apply p2_ok; reflexivity|]. split; [intros i; apply Permutation.Permutation_refl|].
  split; [apply p2_ok; reflexivity|]. split; [reflexivity|]. split; [reflexivity|]. split; [cbn; lia|].
  vm_compute. discriminate.
Qed.
Print Assumptions C13_cbc_parallel_in_place_refuted.
Definition three : list call := [Call msg80 0 (zeros 20) 2 16; Call msg80 16 (zeros 48) 0 48; Call msg80 64 (zeros 16) 0 16].
Lemma three_ok : calls_ok 16 three.
Proof. intros c [<-|[<-|[<-|[]]]]; (split; [split; vm_compute; lia|reflexivity]). Qed.
Example C13_case : calls_ok 16 three /\ inverse_cipher add1 sub1 /\ data three = msg80 /\
  (exists outs st, history (fun i io o oo len st => CBC_decrypt sub1 2 p2 back (Some i) io o oo len st)
     [Call (concat (cbc_encrypt add1 (repeat 9 16) (chunks 16 msg80))) 0 (zeros 80) 0 80] (repeat 9 16) = Ok (outs, st) /\ outs = [msg80]).
Proof.
  split; [exact three_ok|]. split; [exact add1_inverse|]. split; [reflexivity|].
  do 2 eexists. split; vm_compute; reflexivity.
Qed.

(** ** C14 CFB *)
Theorem C14_cfb_encrypt_history E r cs iv : block_fun E -> (1 <= r <= 16)%nat -> calls_ok r cs -> length iv = 16%nat ->
  exists outs ds st, history (fun i io o oo len st => CFB_encrypt E r (Some i) io o oo len st) cs iv = Ok (outs, st) /\
    wrote cs outs ds /\ concat ds = concat (cfb_encrypt E r iv (chunks r (data cs))).
Proof. exact (c14_encrypt E r cs iv). Qed.
Print Assumptions C14_cfb_encrypt_history.
Theorem C14_cfb_decrypt_history E r p ord cs iv : block_fun E -> (1 <= r <= 16)%nat -> calls_ok r cs -> length iv = 16%nat ->
  (par p = true -> good_profile (deg p) (pblk p) /\ forall i, schedule (deg p) (ord i)) ->
  exists outs ds st, history (fun i io o oo len st => CFB_decrypt E r p ord (Some i) io o oo len st) cs iv = Ok (outs, st) /\
    wrote cs outs ds /\ concat ds = concat (cfb_decrypt E r iv (chunks r (data cs))).
Proof. exact (c14_decrypt E r p ord cs iv). Qed.
Print Assumptions C14_cfb_decrypt_history.
Theorem C14_cfb_round_trip E r p ord cs1 cs2 iv : block_fun E -> (1 <= r <= 16)%nat -> calls_ok r cs1 -> calls_ok r cs2 ->
  length iv = 16%nat ->
  (par p = true -> good_profile (deg p) (pblk p) /\ forall i, schedule (deg p) (ord i)) ->
  exists outs1 ds1 st1, history (fun i io o oo len st => CFB_encrypt E r (Some i) io o oo len st) cs1 iv = Ok (outs1, st1) /\ wrote cs1 outs1 ds1 /\
    (data cs2 = concat ds1 ->
     exists outs2 ds2 st2, history (fun i io o oo len st => CFB_decrypt E r p ord (Some i) io o oo len st) cs2 iv = Ok (outs2, st2) /\ wrote cs2 outs2 ds2 /\
       concat ds2 = data cs1).
Proof. exact (c14_round_trip E r p ord cs1 cs2 iv). Qed.
Print Assumptions C14_cfb_round_trip.
(** a nonce of 1 to 16 bytes is right-aligned in a zeroed register, whatever the register held *)
Theorem C14_cfb_nonce_loading iv0 nonce : length iv0 = 16%nat -> (1 <= length nonce <= 16)%nat ->
  CFB_init iv0 nonce = Ok (zeros (16 - length nonce) ++ nonce).
Proof. exact (c14_init iv0 nonce). Qed.
Print Assumptions C14_cfb_nonce_loading.
Example C14_case : calls_ok 8 three /\
  CFB_encrypt add1 5 (Some msg80) 0 (zeros 10) 0 10 (repeat 9 16) = Ok (concat (cfb_encrypt add1 5 (repeat 9 16) (chunks 5 (firstn 10 msg80))), repeat 9 6 ++ [10;11;8;9;14;15;12;13;2;3]).
Proof. split; [intros c [<-|[<-|[<-|[]]]]; (split; [split; vm_compute; lia|reflexivity])|vm_compute; reflexivity]. Qed.

(** ** C15 OFB *)
Theorem C15_ofb_history E cs iv : block_fun E -> calls_ok 16 cs -> length iv = 16%nat ->
  exists outs ds st, history (fun i io o oo len st => OFB_Transform E (Some i) io o oo len st) cs iv = Ok (outs, st) /\
    wrote cs outs ds /\ concat ds = concat (ofb_crypt E iv (chunks 16 (data cs))).
Proof. exact (c15_def E cs iv). Qed.
Print Assumptions C15_ofb_history.
Theorem C15_ofb_self_inverse E cs1 cs2 iv : block_fun E -> calls_ok 16 cs1 -> calls_ok 16 cs2 -> length iv = 16%nat ->
  let T := fun i io o oo len st => OFB_Transform E (Some i) io o oo len st in
  exists outs1 ds1 st1, history T cs1 iv = Ok (outs1, st1) /\ wrote cs1 outs1 ds1 /\
    (data cs2 = concat ds1 ->
     exists outs2 ds2 st2, history T cs2 iv = Ok (outs2, st2) /\ wrote cs2 outs2 ds2 /\ concat ds2 = data cs1).
Proof. exact (c15_round_trip E cs1 cs2 iv). Qed.
Print Assumptions C15_ofb_self_inverse.
Theorem C15_ofb_in_place E out oo n iv : block_fun E -> (oo + n * 16 <= length out)%nat -> length iv = 16%nat ->
  exists c st st2, OFB_Transform E None oo out oo (n * 16) iv = Ok (c, st) /\ OFB_Transform E None oo c oo (n * 16) iv = Ok (out, st2).
Proof. exact (c15_in_place E out oo n iv). Qed.
Print Assumptions C15_ofb_in_place.
Theorem C15_ofb_rejects_partial_blocks E inp io out oo len iv : (len mod 16 <> 0)%nat -> OFB_Transform E inp io out oo len iv = Throw InvalidSize.
Proof. exact (c15_throws E inp io out oo len iv). Qed.
Print Assumptions C15_ofb_rejects_partial_blocks.
Example C15_case : calls_ok 16 three /\
  (exists st, OFB_Transform add1 (Some msg80) 0 (zeros 32) 0 32 (repeat 9 16) = Ok (map (Z.lxor 10) (firstn 16 msg80) ++ map (Z.lxor 11) (slice msg80 16 16), st)).
Proof. split; [exact three_ok|]. eexists. vm_compute. reflexivity. Qed.

(** ** C16 CTR and ICM: the byte-level definition, and applying the mode twice.
    The profile bound 1044480 bytes is the largest parallel block size for which worker
    positioning is exact for every nonce (see C18). *)
Definition usable (p : prof) (ord : nat -> list nat) : Prop :=
  par p = true -> good_profile (deg p) (pblk p) /\ (forall i, schedule (deg p) (ord i)) /\ Z.of_nat (pblk p) <= 1044480.
Theorem C16_ctr_definition E s p ord l io out oo len ctr : block_fun E -> usable p ord -> bytes ctr -> length ctr = 16%nat ->
  (oo + len <= length out)%nat -> (io + len <= length l)%nat ->
  exists out', CTR_Transform E s p ord (Some l) io out oo len ctr = Ok (out', be_bytes 16 (value_be ctr + Z.of_nat (blocks_for len))) /\
    written out out' oo (ctr_crypt E (be_bytes 16) (value_be ctr) (slice l io len)).
Proof.
  intros HE HU Hb Hl Ho Hi. pose proof (as_be ctr Hb Hl) as Q. revert Q. generalize (value_be ctr). intros v ->.
  exact (g16_def _ _ (BaseLemmas.length_be_bytes 16) (ctr_counter_mode s p ord HU) E l io out oo len v HE Ho Hi).
Qed.
Print Assumptions C16_ctr_definition.
Theorem C16_icm_definition E s p ord l io out oo len ctr : block_fun E -> usable p ord -> bytes ctr -> length ctr = 16%nat ->
  (oo + len <= length out)%nat -> (io + len <= length l)%nat ->
  exists out', ICM_Transform E s p ord (Some l) io out oo len ctr = Ok (out', le_bytes 16 (value_le ctr + Z.of_nat (blocks_for len))) /\
    written out out' oo (ctr_crypt E (le_bytes 16) (value_le ctr) (slice l io len)).
Proof.
  intros HE HU Hb Hl Ho Hi. pose proof (as_le ctr Hb Hl) as Q. revert Q. generalize (value_le ctr). intros v ->.
  exact (g16_def _ _ (BaseLemmas.length_le_bytes 16) (icm_counter_mode s p ord HU) E l io out oo len v HE Ho Hi).
Qed.
Print Assumptions C16_icm_definition.
Theorem C16_ctr_self_inverse E s p ord l io out oo len out2 oo2 ctr : block_fun E -> usable p ord -> bytes ctr -> length ctr = 16%nat ->
  (oo + len <= length out)%nat -> (io + len <= length l)%nat -> (oo2 + len <= length out2)%nat ->
  exists c st r st2, CTR_Transform E s p ord (Some l) io out oo len ctr = Ok (c, st) /\
    CTR_Transform E s p ord (Some c) oo out2 oo2 len ctr = Ok (r, st2) /\
    written out2 r oo2 (slice l io len) /\ st2 = st.
Proof.
  intros HE HU Hb Hl Ho Hi Ho2. rewrite (as_be ctr) by auto.
  exact (g16_twice _ _ (BaseLemmas.length_be_bytes 16) (ctr_counter_mode s p ord HU) E l io out oo len out2 oo2 (value_be ctr) HE Ho Hi Ho2).
Qed.
Print Assumptions C16_ctr_self_inverse.
Theorem C16_icm_self_inverse E s p ord l io out oo len out2 oo2 ctr : block_fun E -> usable p ord -> bytes ctr -> length ctr = 16%nat ->
  (oo + len <= length out)%nat -> (io + len <= length l)%nat -> (oo2 + len <= length out2)%nat ->
  exists c st r st2, ICM_Transform E s p ord (Some l) io out oo len ctr = Ok (c, st) /\
    ICM_Transform E s p ord (Some c) oo out2 oo2 len ctr = Ok (r, st2) /\
    written out2 r oo2 (slice l io len) /\ st2 = st.
Proof.
  intros HE HU Hb Hl Ho Hi Ho2. rewrite (as_le ctr) by auto.
  exact (g16_twice _ _ (BaseLemmas.length_le_bytes 16) (icm_counter_mode s p ord HU) E l io out oo len out2 oo2 (value_le ctr) HE Ho Hi Ho2).
Qed.
Print Assumptions C16_icm_self_inverse.
Example C16_case : usable p2 back /\
  CTR_Transform (fun b => b) 2 p2 back (Some (zeros 40)) 0 (zeros 40) 0 40 (repeat 0 15 ++ [255])
    = Ok (repeat 0 15 ++ [255] ++ repeat 0 14 ++ [1; 0] ++ repeat 0 8, repeat 0 14 ++ [1; 2]).
Proof. split; [|vm_compute; reflexivity]. intros H. destruct (p2_ok H). repeat split; auto. cbn. lia. Qed.

(** ** C17 counter blocks never repeat *)
Theorem C17_ctr_counters_distinct s p ord cs ctr : usable p ord -> bytes ctr -> length ctr = 16%nat ->
  (forall c, In c cs -> fits c) -> Z.of_nat (total_blocks cs) <= 2 ^ 128 ->
  exists ctrs : list (list (list Z)), NoDup (concat ctrs) /\ length ctrs = length cs /\
    (forall b, In b (concat ctrs) -> length b = 16%nat) /\
    forall E, block_fun E -> exists outs st, history (fun i io o oo len st => CTR_Transform E s p ord (Some i) io o oo len st) cs ctr = Ok (outs, st) /\
      forall k c, nth_error cs k = Some c -> length (nth k ctrs []) = blocks_for (c_len c) /\
        written (c_out c) (nth k outs []) (c_oo c) (xorl (message c) (firstn (c_len c) (concat (map E (nth k ctrs []))))).
Proof.
  intros HU Hb Hl HF HT. rewrite (as_be ctr) by auto.
  exact (g17 _ _ (BaseLemmas.length_be_bytes 16) (ctr_counter_mode s p ord HU) cs (value_be ctr) be_inj HF HT).
Qed.
Print Assumptions C17_ctr_counters_distinct.
Theorem C17_icm_counters_distinct s p ord cs ctr : usable p ord -> bytes ctr -> length ctr = 16%nat ->
  (forall c, In c cs -> fits c) -> Z.of_nat (total_blocks cs) <= 2 ^ 128 ->
  exists ctrs : list (list (list Z)), NoDup (concat ctrs) /\ length ctrs = length cs /\
    (forall b, In b (concat ctrs) -> length b = 16%nat) /\
    forall E, block_fun E -> exists outs st, history (fun i io o oo len st => ICM_Transform E s p ord (Some i) io o oo len st) cs ctr = Ok (outs, st) /\
      forall k c, nth_error cs k = Some c -> length (nth k ctrs []) = blocks_for (c_len c) /\
        written (c_out c) (nth k outs []) (c_oo c) (xorl (message c) (firstn (c_len c) (concat (map E (nth k ctrs []))))).
Proof.
  intros HU Hb Hl HF HT. rewrite (as_le ctr) by auto.
  exact (g17 _ _ (BaseLemmas.length_le_bytes 16) (icm_counter_mode s p ord HU) cs (value_le ctr) le_inj HF HT).
Qed.
Print Assumptions C17_icm_counters_distinct.
(** finding: with a larger parallel block, one message repeats keystream blocks, for every cipher *)
Theorem C17_ctr_parallel_keystream_reuse_refuted : exists p nonce, par p = true /\ good_profile (deg p) (pblk p) /\ bytes nonce /\ length nonce = 16%nat /\
  forall E s ord, block_fun E -> schedule (deg p) (ord 0%nat) ->
  exists out' st a b, CTR_Transform E s p ord (Some (zeros (pblk p))) 0 (zeros (pblk p)) 0 (pblk p) nonce = Ok (out', st) /\
    a <> b /\ (16 * a + 16 <= pblk p)%nat /\ (16 * b + 16 <= pblk p)%nat /\ slice out' (16 * a) 16 = slice out' (16 * b) 16.
Proof. exact c17_reuse_ctr. Qed.
Print Assumptions C17_ctr_parallel_keystream_reuse_refuted.
Theorem C17_icm_parallel_keystream_reuse_refuted : exists p nonce, par p = true /\ good_profile (deg p) (pblk p) /\ bytes nonce /\ length nonce = 16%nat /\
  forall E s ord, block_fun E -> schedule (deg p) (ord 0%nat) ->
  exists out' st a b, ICM_Transform E s p ord (Some (zeros (pblk p))) 0 (zeros (pblk p)) 0 (pblk p) nonce = Ok (out', st) /\
    a <> b /\ (16 * a + 16 <= pblk p)%nat /\ (16 * b + 16 <= pblk p)%nat /\ slice out' (16 * a) 16 = slice out' (16 * b) 16.
Proof. exact c17_reuse_icm. Qed.
Print Assumptions C17_icm_parallel_keystream_reuse_refuted.
Example C17_case : usable p2 back /\ (forall c, In c three -> fits c) /\ total_blocks three = 5%nat /\ Z.of_nat (total_blocks three) <= 2 ^ 128.
Proof. split; [apply C16_case|]. split; [intros c H; now apply three_ok|]. split; [reflexivity|]. vm_compute. discriminate. Qed.

(** ** C18 parallel and sequential processing agree *)
Theorem C18_ctr_parallel_is_sequential E s s' p ord l io out oo len ctr : block_fun E -> bytes ctr -> length ctr = 16%nat ->
  (oo + len <= length out)%nat -> (io + len <= length l)%nat -> good_profile (deg p) (pblk p) -> (forall i, schedule (deg p) (ord i)) ->
  (forall k i, (k < len / pblk p)%nat -> (i < deg p)%nat ->
    let d := Z.of_nat (i * (pblk p / deg p / 16)) in
    d < 2 ^ 32 /\ ~ carry_into_ff (value_be ctr + Z.of_nat (k * (pblk p / 16))) d) ->
  CTR_Transform E s p ord (Some l) io out oo len ctr =
  CTR_Transform E s' {| par := false; pblk := pblk p; deg := deg p |} ord (Some l) io out oo len ctr.
Proof. exact (c18_ctr E s s' p ord l io out oo len ctr). Qed.
Print Assumptions C18_ctr_parallel_is_sequential.
Theorem C18_icm_parallel_is_sequential E s s' p ord l io out oo len ctr : block_fun E -> bytes ctr -> length ctr = 16%nat ->
  (oo + len <= length out)%nat -> (io + len <= length l)%nat -> good_profile (deg p) (pblk p) -> (forall i, schedule (deg p) (ord i)) ->
  (forall k i, (k < len / pblk p)%nat -> (i < deg p)%nat ->
    let d := Z.of_nat (i * (pblk p / deg p / 16)) in
    d < 2 ^ 64 /\ ~ carry_into_ff (value_le ctr + Z.of_nat (k * (pblk p / 16))) d) ->
  ICM_Transform E s p ord (Some l) io out oo len ctr =
  ICM_Transform E s' {| par := false; pblk := pblk p; deg := deg p |} ord (Some l) io out oo len ctr.
Proof. exact (c18_icm E s s' p ord l io out oo len ctr). Qed.
Print Assumptions C18_icm_parallel_is_sequential.
Theorem C18_ctr_parallel_is_sequential_small_blocks E s s' p ord l io out oo len ctr : block_fun E -> bytes ctr -> length ctr = 16%nat ->
  (oo + len <= length out)%nat -> (io + len <= length l)%nat -> good_profile (deg p) (pblk p) -> (forall i, schedule (deg p) (ord i)) ->
  Z.of_nat (pblk p) <= 1044480 ->
  CTR_Transform E s p ord (Some l) io out oo len ctr =
  CTR_Transform E s' {| par := false; pblk := pblk p; deg := deg p |} ord (Some l) io out oo len ctr.
Proof. exact (c18_ctr_small E s s' p ord l io out oo len ctr). Qed.
Print Assumptions C18_ctr_parallel_is_sequential_small_blocks.
Theorem C18_icm_parallel_is_sequential_small_blocks E s s' p ord l io out oo len ctr : block_fun E -> bytes ctr -> length ctr = 16%nat ->
  (oo + len <= length out)%nat -> (io + len <= length l)%nat -> good_profile (deg p) (pblk p) -> (forall i, schedule (deg p) (ord i)) ->
  Z.of_nat (pblk p) <= 1044480 ->
  ICM_Transform E s p ord (Some l) io out oo len ctr =
  ICM_Transform E s' {| par := false; pblk := pblk p; deg := deg p |} ord (Some l) io out oo len ctr.
Proof. exact (c18_icm_small E s s' p ord l io out oo len ctr). Qed.
Print Assumptions C18_icm_parallel_is_sequential_small_blocks.
(** finding: for other block sizes some nonces make the two differ, for every injective cipher *)
Theorem C18_ctr_parallel_differs_refuted : exists p nonce, par p = true /\ good_profile (deg p) (pblk p) /\ bytes nonce /\ length nonce = 16%nat /\
  forall E s ord, block_fun E -> (forall a b, length a = 16%nat -> length b = 16%nat -> E a = E b -> a = b) -> schedule (deg p) (ord 0%nat) ->
  CTR_Transform E s p ord (Some (zeros (pblk p))) 0 (zeros (pblk p)) 0 (pblk p) nonce <>
  CTR_Transform E s {| par := false; pblk := pblk p; deg := deg p |} ord (Some (zeros (pblk p))) 0 (zeros (pblk p)) 0 (pblk p) nonce.
Proof. exact c18_refuted_ctr. Qed.
Print Assumptions C18_ctr_parallel_differs_refuted.
Theorem C18_icm_parallel_differs_refuted : exists p nonce, par p = true /\ good_profile (deg p) (pblk p) /\ bytes nonce /\ length nonce = 16%nat /\
  forall E s ord, block_fun E -> (forall a b, length a = 16%nat -> length b = 16%nat -> E a = E b -> a = b) -> schedule (deg p) (ord 0%nat) ->
  ICM_Transform E s p ord (Some (zeros (pblk p))) 0 (zeros (pblk p)) 0 (pblk p) nonce <>
  ICM_Transform E s {| par := false; pblk := pblk p; deg := deg p |} ord (Some (zeros (pblk p))) 0 (zeros (pblk p)) 0 (pblk p) nonce.
Proof. exact c18_refuted_icm. Qed.
Print Assumptions C18_icm_parallel_differs_refuted.
Example C18_case : CTR_Transform add1 3 p2 back (Some msg80) 0 (zeros 80) 0 75 (repeat 255 16) =
  CTR_Transform add1 0 {| par := false; pblk := 32; deg := 2 |} back (Some msg80) 0 (zeros 80) 0 75 (repeat 255 16) /\ Z.of_nat (pblk p2) <= 1044480.
Proof. split; [vm_compute; reflexivity|cbn; lia]. Qed.

(** ** C19 splitting a message into calls *)
Theorem C19_ctr_aligned_split E s p ord cs ctr : block_fun E -> usable p ord -> bytes ctr -> length ctr = 16%nat -> aligned cs ->
  exists outs ds st, history (fun i io o oo len st => CTR_Transform E s p ord (Some i) io o oo len st) cs ctr = Ok (outs, st) /\ wrote cs outs ds /\
    CTR_Transform E s p ord (Some (data cs)) 0 (zeros (length (data cs))) 0 (length (data cs)) ctr = Ok (concat ds, st).
Proof.
  intros HE HU Hb Hl HA. rewrite (as_be ctr) by auto.
  destruct (g19 _ _ (BaseLemmas.length_be_bytes 16) (ctr_counter_mode s p ord HU) E HE cs (value_be ctr) HA) as (outs & ds & st & H1 & H2 & H3 & H4).
  exists outs, ds, st. split; [exact H1|]. split; [exact H2|].
  assert (LZ := zeros_len (length (data cs))).
  rewrite (ctr_counter_mode s p ord HU) by (auto; lia). rewrite H3, H4, slice_all by reflexivity.
  rewrite splice_all; [reflexivity|]. rewrite LZ. now rewrite (Proofs_Modes4.ctr_crypt_len E _ HE (BaseLemmas.length_be_bytes 16)).
Qed.
Print Assumptions C19_ctr_aligned_split.
Theorem C19_icm_aligned_split E s p ord cs ctr : block_fun E -> usable p ord -> bytes ctr -> length ctr = 16%nat -> aligned cs ->
  exists outs ds st, history (fun i io o oo len st => ICM_Transform E s p ord (Some i) io o oo len st) cs ctr = Ok (outs, st) /\ wrote cs outs ds /\
    ICM_Transform E s p ord (Some (data cs)) 0 (zeros (length (data cs))) 0 (length (data cs)) ctr = Ok (concat ds, st).
Proof.
  intros HE HU Hb Hl HA. rewrite (as_le ctr) by auto.
  destruct (g19 _ _ (BaseLemmas.length_le_bytes 16) (icm_counter_mode s p ord HU) E HE cs (value_le ctr) HA) as (outs & ds & st & H1 & H2 & H3 & H4).
  exists outs, ds, st. split; [exact H1|]. split; [exact H2|].
  assert (LZ := zeros_len (length (data cs))).
  rewrite (icm_counter_mode s p ord HU) by (auto; lia). rewrite H3, H4, slice_all by reflexivity.
  rewrite splice_all; [reflexivity|]. rewrite LZ. now rewrite (Proofs_Modes4.ctr_crypt_len E _ HE (BaseLemmas.length_le_bytes 16)).
Qed.
Print Assumptions C19_icm_aligned_split.
(** finding: a split elsewhere restarts on a fresh block and gives other bytes *)
Theorem C19_ctr_unaligned_split_refuted : exists E ctr a b outs st out st',
  block_fun E /\ bytes ctr /\ length ctr = 16%nat /\ fits a /\ fits b /\
  history (fun i io o oo len st => CTR_Transform E 0 seq_prof (fun _ => []) (Some i) io o oo len st) [a; b] ctr = Ok (outs, st) /\
  CTR_Transform E 0 seq_prof (fun _ => []) (Some (data [a; b])) 0 (zeros 32) 0 32 ctr = Ok (out, st') /\ concat outs <> out.
Proof.
  exists (fun b => b), (zeros 15 ++ [1]), (Call (zeros 1) 0 (zeros 1) 0 1), (Call (zeros 31) 0 (zeros 31) 0 31). do 4 eexists.
  split; [intros b H; exact H|]. split; [apply Forall_forall; intros x Hx; cbn in Hx; unfold is_byte; intuition lia|].
  split; [reflexivity|]. split; [split; cbn; lia|]. split; [split; cbn; lia|].
  split; [vm_compute; reflexivity|]. split; [vm_compute; reflexivity|]. vm_compute. discriminate.
Qed.
Print Assumptions C19_ctr_unaligned_split_refuted.
Theorem C19_icm_unaligned_split_refuted : exists E ctr a b outs st out st',
  block_fun E /\ bytes ctr /\ length ctr = 16%nat /\ fits a /\ fits b /\
  history (fun i io o oo len st => ICM_Transform E 0 seq_prof (fun _ => []) (Some i) io o oo len st) [a; b] ctr = Ok (outs, st) /\
  ICM_Transform E 0 seq_prof (fun _ => []) (Some (data [a; b])) 0 (zeros 32) 0 32 ctr = Ok (out, st') /\ concat outs <> out.
Proof.
  exists (fun b => b), ([1] ++ zeros 15), (Call (zeros 1) 0 (zeros 1) 0 1), (Call (zeros 31) 0 (zeros 31) 0 31). do 4 eexists.
  split; [intros b H; exact H|]. split; [apply Forall_forall; intros x Hx; cbn in Hx; unfold is_byte; intuition lia|].
  split; [reflexivity|]. split; [split; cbn; lia|]. split; [split; cbn; lia|].
  split; [vm_compute; reflexivity|]. split; [vm_compute; reflexivity|]. vm_compute. discriminate.
Qed.
Print Assumptions C19_icm_unaligned_split_refuted.
Example C19_case : aligned (three ++ [Call msg80 0 (zeros 9) 0 7]) /\ usable p2 back.
Proof.
  split; [|apply C16_case]. split.
  - intros c Hc. apply in_app_iff in Hc. destruct Hc as [Hc|[<-|[]]]; [now apply three_ok|split; vm_compute; lia].
  - intros [|[|[|[|k]]]] c Hc Hk; cbn in Hc, Hk; try (injection Hc as <-; reflexivity); lia.
Qed.

(** ** C20 one array as input and output: counter modes and CFB return zeros *)
Theorem C20_ctr_in_place_zero E s p ord out oo len ctr : block_fun E -> bytes ctr -> length ctr = 16%nat -> (oo + len <= length out)%nat ->
  (par p = true -> (pblk p <= len)%nat -> good_profile (deg p) (pblk p) /\ forall i, schedule (deg p) (ord i)) ->
  exists out' st, CTR_Transform E s p ord None oo out oo len ctr = Ok (out', st) /\ written out out' oo (zeros len).
Proof. exact (c20_ctr E s p ord out oo len ctr). Qed.
Print Assumptions C20_ctr_in_place_zero.
Theorem C20_icm_in_place_zero E s p ord out oo len ctr : block_fun E -> bytes ctr -> length ctr = 16%nat -> (oo + len <= length out)%nat ->
  (par p = true -> (pblk p <= len)%nat -> good_profile (deg p) (pblk p) /\ forall i, schedule (deg p) (ord i)) ->
  exists out' st, ICM_Transform E s p ord None oo out oo len ctr = Ok (out', st) /\ written out out' oo (zeros len).
Proof. exact (c20_icm E s p ord out oo len ctr). Qed.
Print Assumptions C20_icm_in_place_zero.
Theorem C20_cfb_encrypt_in_place_zero E r out oo n iv : block_fun E -> (1 <= r <= 16)%nat -> length iv = 16%nat -> (oo + n * r <= length out)%nat ->
  exists out' st, CFB_encrypt E r None oo out oo (n * r) iv = Ok (out', st) /\ written out out' oo (zeros (n * r)).
Proof. exact (c20_cfb_encrypt E r out oo n iv). Qed.
Print Assumptions C20_cfb_encrypt_in_place_zero.
Theorem C20_cfb_decrypt_in_place_zero E r p ord out oo n iv : block_fun E -> (1 <= r <= 16)%nat -> length iv = 16%nat -> (oo + n * r <= length out)%nat ->
  (par p = true -> (n * r < pblk p)%nat) ->
  exists out' st, CFB_decrypt E r p ord None oo out oo (n * r) iv = Ok (out', st) /\ written out out' oo (zeros (n * r)).
Proof. exact (c20_cfb_decrypt E r p ord out oo n iv). Qed.
Print Assumptions C20_cfb_decrypt_in_place_zero.
Example C20_case : exists st, CTR_Transform add1 2 p2 back None 3 msg80 3 70 (repeat 7 16) = Ok ([0;1;2] ++ zeros 70 ++ slice msg80 73 7, st).
Proof. eexists. vm_compute. reflexivity. Qed.
