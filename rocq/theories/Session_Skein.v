(** The three Skein digests and their parameters, as the properties talk about them. *)
From Verif Require Import Base Spec_ChaCha Spec_Threefish Spec_Skein Model_Threefish Model_Skein Model_ParallelOptions.
Open Scope Z_scope.

(** Skein256, Skein512, Skein1024: the cipher, its rounds and the permutation of the code *)
Record skv := SkV { sv_F : tfish; sv_rounds : nat; sv_perm : list Z -> list Z -> list Z -> res (list Z) }.
Definition Skein256 : skv := SkV threefish256 72 Skein_PemuteR72P256U.
Definition Skein512 : skv := SkV threefish512 72 Skein_PemuteR72P512U.
Definition Skein1024 : skv := SkV threefish1024 80 Skein_PemuteR80P1024U.
Definition a_skein (v : skv) : Prop := v = Skein256 \/ v = Skein512 \/ v = Skein1024.
(** block and digest bytes *)
Definition sv_rate (v : skv) : nat := nb (sv_F v).
(** the hash functions; positions are counted in [W] *)
Definition skein_hash (v : skv) (W : Z) : list Z -> list Z := skein (sv_F v) (sv_rounds v) W.
Definition skein_hash_cfg (v : skv) (W : Z) : list Z -> list Z -> list Z := skein_cfg (sv_F v) (sv_rounds v) W.
Definition skein_hash_tree (v : skv) (W : Z) : list Z -> nat -> list Z -> list Z := skein_tree (sv_F v) (sv_rounds v) W.

(** SkeinParams whose fields have their C++ types, with the output size of the digest *)
Definition params_ok (v : skv) (p : sparams) : Prop :=
  (bytes (q_schema p) /\ length (q_schema p) = 4%nat) /\ is_word 16 (q_ver p) /\ is_word 16 (q_r1 p) /\ q_out p = Z.of_nat (sv_rate v) /\
  is_byte (q_leaf p) /\ is_byte (q_depth p) /\ is_byte (q_fan p) /\ is_byte (q_r2 p) /\ is_word 32 (q_r3 p) /\
  bytes (q_dst p) /\ length (q_dst p) = (sv_rate v - 24)%nat.
(** the configuration block they stand for *)
Definition cfg_bytes (p : sparams) : list Z :=
  q_schema p ++ le_bytes 2 (q_ver p) ++ le_bytes 2 (q_r1 p) ++ le_bytes 8 (8 * q_out p) ++ [q_leaf p; q_fan p; q_depth p; q_r2 p] ++ le_bytes 4 (q_r3 p) ++ q_dst p.
(** what Skein256(false) uses *)
Definition default_params (v : skv) : sparams := SPar [83; 72; 65; 51] 1 0 (Z.of_nat (sv_rate v)) 0 0 0 0 0 (zeros (sv_rate v - 24)).
(** what Skein256(true) uses: leaf size RATE, fan-out 8 (DEF_PRLDEGREE) *)
Definition tree_params (v : skv) : sparams := SPar [83; 72; 65; 51] 1 0 (Z.of_nat (sv_rate v)) (Z.of_nat (sv_rate v)) 0 8 0 0 (zeros (sv_rate v - 24)).

(** the calls *)
Definition sk_new (v : skv) : nat -> sparams -> res kobj := KNew (f_n (sv_F v)) (sv_perm v).
Definition sk_update (v : skv) := Skein_Update (f_n (sv_F v)) (sv_perm v).
Definition sk_finalize (v : skv) := Skein_Finalize (f_n (sv_F v)) (sv_perm v).
Definition sk_compute (v : skv) := Skein_Compute (f_n (sv_F v)) (sv_perm v).
Definition skp_update (v : skv) (d pblk : nat) := SkeinP_Update (f_n (sv_F v)) (sv_perm v) d pblk.
Definition skp_finalize (v : skv) := SkeinP_Finalize (f_n (sv_F v)) (sv_perm v).
Definition skp_compute (v : skv) (d pblk : nat) := SkeinP_Compute (f_n (sv_F v)) (sv_perm v) d pblk.

(** the processors counted: the virtual ones if there are more, an even number unless one *)
Definition processors (c : cpu) : Z := let n := if phys c <? virt c then virt c else phys c in if (1 <? n) && negb (n mod 2 =? 0) then n - 1 else n.
