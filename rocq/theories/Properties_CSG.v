(** C74: the SHAKE based random generator.  Statements only; see Spec_CSG.v for what the calls should compute and
    Session_CSG.v for the call histories. *)
From Verif Require Import Base BaseLemmas Spec_Common Spec_Keccak Spec_CSG Model_CSG Session_KMAC Session_CSG ProofsP_CSG.
Open Scope Z_scope.

(** C74: whatever calls are made, with or without a random provider and for every reseed threshold, each call
    returns what the specification says: Generate the next bytes of the stream of the current state, a new seed
    (from the provider at the threshold, or from Update) absorbed into the state, 10000 reseeds at most. *)
Theorem C74_every_history : forall (rate : nat) prov (thr : Z) (cs : list gcall),
  (0 < rate <= 199)%nat -> provider_ok prov -> Forall (gcall_ok rate) cs ->
  exists rs, ghistory rate prov thr (CSG_new rate) cs = Ok rs /\ gexpected rate prov thr gen_new cs rs.
Proof. exact c74_every_history. Qed.
Print Assumptions C74_every_history.
Example C74_case :
  let p := fun k n => repeat (Z.of_nat k mod 256) n in
  let cs := [GGen (zeros 3) 0 3; GInit (zeros 15) [] []; GInit (zeros 16) (zeros 8) [1; 2; 3]; GGen (zeros 20) 0 10; GUpdate (zeros 16); GGen (zeros 20) 15 10; GGen (zeros 300) 0 300] in
  (0 < 168 <= 199)%nat /\ provider_ok (Some p) /\ Forall (gcall_ok 168) cs.
Proof.
  cbv zeta. split; [lia|]. split.
  - intros k n. split; [apply repeat_length|]. apply Forall_forall. intros x Hx. apply repeat_spec in Hx. subst x. red. apply Z.mod_pos_bound. lia.
  - repeat (apply Forall_cons; [cbn [gcall_ok]; repeat split; try (cbn [length]; lia); try apply bytes_zeros; try (repeat (apply Forall_cons; [red; lia|]); apply Forall_nil); try (unfold short, fits_block; vm_compute; reflexivity || lia)|]). apply Forall_nil.
Qed.

(** without a provider, however the requests are cut, the answers are consecutive bytes of SHAKE, or of cSHAKE
    with the info as function name and the IV as customization *)
Theorem C74_one_stream : forall (rate : nat) (thr : Z) (key iv info : list Z) (ns : list nat),
  (0 < rate <= 198)%nat -> (16 <= length key)%nat -> gcall_ok rate (GInit key iv info) -> Forall (fun n => Z.of_nat n <= 102400000) ns ->
  exists outs, ghistory rate None thr (CSG_new rate) (GInit key iv info :: map (fun n => GGen (zeros n) 0 n) ns) = Ok (GDone :: map GWrote outs) /\
    concat outs = cshake 24 rate key (list_sum ns) info iv.
Proof. exact c74_one_stream. Qed.
Print Assumptions C74_one_stream.
Example C74_one_stream_case : (0 < 168 <= 198)%nat /\ (16 <= length (zeros 16))%nat /\ gcall_ok 168 (GInit (zeros 16) (zeros 8) [1; 2; 3]) /\ Forall (fun n => Z.of_nat n <= 102400000) [3; 200; 0; 7]%nat /\ list_sum [3; 200; 0; 7]%nat = 210%nat.
Proof.
  split; [lia|]. split; [cbn [length zeros repeat]; lia|]. split; [|split; [repeat constructor; lia|reflexivity]].
  cbn [gcall_ok]; repeat split; try (cbn [length]; lia); try apply bytes_zeros; try (repeat (apply Forall_cons; [red; lia|]); apply Forall_nil); try (unfold short, fits_block; vm_compute; reflexivity || lia).
Qed.

(** Refuted: "Update adds entropy to the generator".  Initialize with a key shorter than a block and Update with
    the same key, before any output: the key cancels out, and what follows is the stream of the all-zero state. *)
Theorem C74_update_after_init_refuted : forall (rate : nat) (thr : Z) (key : list Z) (n : nat),
  (0 < rate <= 199)%nat -> bytes key -> (16 <= length key < rate)%nat -> Z.of_nat n <= 102400000 ->
  ghistory rate None thr (CSG_new rate) [GInit key [] []; GUpdate key; GGen (zeros n) 0 n] = Ok [GDone; GDone; GWrote (outputs rate zero_state n)].
Proof. exact c74_update_after_init. Qed.
Print Assumptions C74_update_after_init_refuted.
Example C74_update_after_init_case : bytes (repeat 7 16) /\ (16 <= length (repeat 7 16) < 168)%nat /\ length (outputs 168 zero_state 4) = 4%nat.
Proof. split; [cbn [repeat]; repeat (apply Forall_cons; [red; lia|]); apply Forall_nil|]. split; [cbn [length repeat]; lia|]. vm_compute. reflexivity. Qed.

(** Refuted: "the two constructors make the same generator".  With a provider pointer the SHAKE-512 mode has a rate
    of one byte, so the output is not that of SHAKE-512 (rate 72) but that of a sponge with rate 1 ... *)
Theorem C74_pointer_constructor_refuted : forall prov (thr : Z) (key : list Z), provider_ok prov -> bytes key -> (16 <= length key)%nat ->
  forall n, Z.of_nat n <= 102400000 -> Z.of_nat n < thr ->
  ghistory (CSG_rate_pointer M_SHAKE512) prov thr (CSG_new (CSG_rate_pointer M_SHAKE512)) [GInit key [] []; GGen (zeros n) 0 n] = Ok [GDone; GWrote (shake 24 1 key n)].
Proof. exact c74_pointer_512. Qed.
Print Assumptions C74_pointer_constructor_refuted.
Example C74_pointer_constructor_case : provider_ok (Some (fun _ n => zeros n)) /\ bytes (zeros 16) /\ (16 <= length (zeros 16))%nat /\ Z.of_nat 40 < 102400000 /\ CSG_rate M_SHAKE512 = 72%nat.
Proof. split; [intros k n; split; [apply length_zeros|apply bytes_zeros]|]. split; [apply bytes_zeros|]. split; [cbn [length zeros repeat]; lia|]. split; [lia|reflexivity]. Qed.
(** ... and with the SHAKE-1024 mode Initialize does not terminate *)
Theorem C74_pointer_1024_refuted : forall prov (thr : Z) (key : list Z), (16 <= length key)%nat ->
  ghistory (CSG_rate_pointer M_SHAKE1024) prov thr (CSG_new (CSG_rate_pointer M_SHAKE1024)) [GInit key [] []] = UB.
Proof. exact c74_pointer_1024. Qed.
Print Assumptions C74_pointer_1024_refuted.
