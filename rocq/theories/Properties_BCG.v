(** C77: the block cipher counter generator.  Statements only; see Spec_BCG.v for what the calls should compute and
    Session_BCG.v for the call histories. *)
From Coq Require Import Permutation.
From Verif Require Import Base BaseLemmas Spec_Common Spec_ChaCha Spec_RCS Model_ChaCha Session_CSG Spec_BCG Model_BCG Session_BCG Proofs_BCG ProofsP_BCG.
Open Scope Z_scope.

(** C77: whatever calls are made, with or without a random provider, for every reseed threshold, every parallel profile and
    every order in which the workers run, each call returns what the specification says. *)
Theorem C77_every_history : forall p prov (thr : Z), bprofile p -> provider_ok prov -> forall cs, Forall (bcall_ok p) cs ->
  exists rs, bhistory p prov thr BCG_new cs = Ok rs /\ bexpected p prov thr bgen_new cs rs.
Proof. exact bcg_history. Qed.
Print Assumptions C77_every_history.
Example C77_case :
  let f := fun k n => repeat (Z.of_nat k mod 256) n in
  let cs := [BGenerate (zeros 3) 0 3 [1; 0]%nat; BInit (zeros 31) (zeros 32) []; BInit (repeat 7 64) (repeat 255 32) [1; 2; 3]; BGenerate (zeros 100) 5 90 [1; 0]%nat; BUpdate (zeros 16); BUpdate (zeros 32); BGenerate (zeros 20) 15 10 [0; 1]%nat] in
  bprofile par_profile /\ provider_ok (Some f) /\ Forall (bcall_ok par_profile) cs.
Proof.
  cbv zeta. split; [exact par_ok|]. split.
  - intros k n. split; [apply repeat_length|]. apply Forall_forall. intros x Hx. apply repeat_spec in Hx. subst x. red. apply Z.mod_pos_bound. lia.
  - assert (P01 : Permutation [1; 0]%nat (seq 0 2)) by (apply perm_swap).
    assert (BR : forall x n, 0 <= x < 256 -> bytes (repeat x n)) by (intros x n Hx; apply Forall_forall; intros y Hy; apply repeat_spec in Hy; now subst y).
    repeat (apply Forall_cons; [cbn [bcall_ok]; repeat split; try (intros _; exact P01); try (intros _; apply Permutation_refl); try (rewrite ?length_zeros, ?repeat_length; cbn [length]; lia); try apply bytes_zeros; try (apply BR; lia); try (repeat (apply Forall_cons; [red; lia|]); apply Forall_nil)|]). apply Forall_nil.
Qed.

(** sequential requests for whole blocks: however they are cut, the answers are one stream *)
Theorem C77_whole_blocks : forall (thr : Z) (key iv info : list Z) (ks : list nat), init_ok key iv info -> Forall (fun k => Z.of_nat (k * 32) <= 102400000) ks ->
  exists outs, bhistory seq_profile None thr BCG_new (BInit key iv info :: map (fun k => BGenerate (zeros (k * 32)) 0 (k * 32) []) ks) = Ok (GDone :: map GWrote outs) /\
    concat outs = bstream (bround_keys key (version ++ info)) iv (list_sum ks * 32).
Proof. exact c77_whole_blocks. Qed.
Print Assumptions C77_whole_blocks.
Example C77_init_case : init_ok (zeros 32) (repeat 255 32) [1; 2] /\ Forall (fun k => Z.of_nat (k * 32) <= 102400000) [1; 0; 3]%nat.
Proof.
  split; [|repeat constructor; lia]. split; [apply bytes_zeros|]. split; [apply Forall_forall; intros y Hy; apply repeat_spec in Hy; subst y; red; lia|].
  split; [repeat (constructor; [red; lia|]); constructor|]. cbn [length]. split; [lia|]. split; reflexivity.
Qed.

(** Refuted: "the output does not depend on the parallel profile".  With two workers every key and every nonce give other
    bytes: the workers count in the other byte order. *)
Theorem C77_parallel_refuted : forall (thr : Z) (key iv info : list Z) (ord : list nat), init_ok key iv info -> Permutation ord (seq 0 2) -> exists a b,
  bhistory seq_profile None thr BCG_new [BInit key iv info; BGenerate (zeros 64) 0 64 []] = Ok [GDone; GWrote a] /\
  bhistory par_profile None thr BCG_new [BInit key iv info; BGenerate (zeros 64) 0 64 ord] = Ok [GDone; GWrote b] /\
  firstn 32 a = firstn 32 b /\ skipn 32 a <> skipn 32 b.
Proof. exact c77_parallel. Qed.
Print Assumptions C77_parallel_refuted.
Example C77_parallel_case : Permutation [1; 0]%nat (seq 0 2).
Proof. apply perm_swap. Qed.

(** Refuted: "an initialized generator can be seeded": the 10000 seeds are counted over the life of the object, and
    Initialize does not start the count again. *)
Theorem C77_reseed_limit_refuted : forall p prov (thr : Z) (n : nat) (key iv info : list Z), bprofile p -> provider_ok prov -> init_ok key iv info -> Z.of_nat n = 10000 ->
  bhistory p prov thr BCG_new (BInit key iv info :: repeat (BUpdate key) n ++ [BInit key iv info; BUpdate key]) = Ok (GDone :: repeat GDone n ++ [GDone; GFailed MaxExceeded]).
Proof. exact c77_limit. Qed.
Print Assumptions C77_reseed_limit_refuted.

(** Refuted: "a refused seed has no effect": a seed of 16 to 31 bytes passes the size check, is counted, and is then refused;
    10000 of them use up the generator. *)
Theorem C77_refused_seed_refuted : forall p prov (thr : Z) (n : nat) (bad key iv info : list Z), bprofile p -> provider_ok prov -> init_ok key iv info -> bytes bad -> (16 <= length bad < 32)%nat -> Z.of_nat n = 10000 ->
  bhistory p prov thr BCG_new (BInit key iv info :: repeat (BUpdate bad) n ++ [BUpdate key]) = Ok (GDone :: repeat (GFailed InvalidKey) n ++ [GFailed MaxExceeded]).
Proof. exact c77_bad_size. Qed.
Print Assumptions C77_refused_seed_refuted.

(** Refuted: "the generator seeds itself up to 10000 times": every automatic seed is counted twice, so it is 5000 times. *)
Theorem C77_double_count_refuted : forall p f (thr : Z) (n : nat) (key iv info : list Z), bprofile p -> provider_ok (Some f) -> thr <= 1 -> init_ok key iv info -> Z.of_nat n = 5000 ->
  exists outs last, bhistory p (Some f) thr BCG_new (BInit key iv info :: repeat (BGenerate (zeros 1) 0 1 (seq 0 (sp_deg p))) (S n)) = Ok (GDone :: map GWrote outs ++ [GLate MaxExceeded last]) /\ length outs = n.
Proof. exact c77_double. Qed.
Print Assumptions C77_double_count_refuted.
Example C77_count_case : Z.of_nat (Z.to_nat 10000) = 10000 /\ Z.of_nat (Z.to_nat 5000) = 5000 /\ bytes (zeros 16) /\ (16 <= length (zeros 16) < 32)%nat /\ bprofile seq_profile.
Proof. split; [apply Z2Nat.id; lia|]. split; [apply Z2Nat.id; lia|]. split; [apply bytes_zeros|]. split; [rewrite length_zeros; lia|exact seq_ok]. Qed.

(** Refuted: "a generator that was not initialized refuses Update": Update starts it, with the zero nonce. *)
Theorem C77_uninitialised_update_refuted : forall p (thr : Z) (n : nat) (key : list Z), bprofile p -> bytes key -> blegal key = true -> Z.of_nat n <= 102400000 ->
  bhistory p None thr BCG_new [BUpdate key; BGenerate (zeros n) 0 n (seq 0 (sp_deg p))] = Ok [GDone; GWrote (fst (bnext (par_of p) (bround_keys key version) (zeros 32) n))].
Proof. exact c77_uninitialised. Qed.
Print Assumptions C77_uninitialised_update_refuted.

(** Refuted: "Update with a key is Initialize with that key and the same info": the version string is put in front of the
    customization once more by every Update. *)
Theorem C77_update_customization_refuted : forall p (thr : Z) (n : nat) (key key2 iv info : list Z), bprofile p -> init_ok key iv info -> bytes key2 -> blegal key2 = true -> Z.of_nat (length info) < 2 ^ 32 - 16 -> Z.of_nat n <= 102400000 -> exists a,
  bhistory p None thr BCG_new [BInit key iv info; BUpdate key2; BGenerate (zeros n) 0 n (seq 0 (sp_deg p))] = Ok [GDone; GDone; GWrote a] /\
  bhistory p None thr BCG_new [BInit key2 iv (version ++ info); BGenerate (zeros n) 0 n (seq 0 (sp_deg p))] = Ok [GDone; GWrote a].
Proof. exact c77_custom. Qed.
Print Assumptions C77_update_customization_refuted.
Example C77_update_case : bytes (zeros 64) /\ blegal (zeros 64) = true /\ Z.of_nat 100 <= 102400000.
Proof. split; [apply bytes_zeros|]. split; [reflexivity|lia]. Qed.
