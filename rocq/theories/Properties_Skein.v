(** C69, C70, C71: the Skein digests, their tree mode and SkeinParams. *)
From Verif Require Import Base BaseLemmas Spec_Common Spec_Feed Session_Digest Spec_Threefish Spec_Skein Model_Threefish Model_Skein Session_Skein Model_ParallelOptions ProofsP_Skein.
Open Scope Z_scope.

(** ** C69: sequential Skein *)
(** any sequence of Update, Reset, Finalize and Compute calls: Finalize and Compute give the Skein hash, with the plain
    configuration block, of the bytes given since the last reset *)
Theorem C69_history : forall v, a_skein v -> forall cs, Forall dcall_ok cs ->
  exists o rs, sk_new v 1 (default_params v) = Ok o /\ dhistory (sk_update v) (sk_finalize v) (sk_compute v) o o cs = Ok rs /\
    expected (skein_hash v (2 ^ 64)) (sv_rate v) [] cs rs.
Proof. exact c69_history. Qed.
Print Assumptions C69_history.
(** the code counts positions in 64 bits where Skein has 96; the hashes agree for messages of less than 2^64 bytes *)
Theorem C69_standard : forall v m, a_skein v -> Z.of_nat (length m) < 2 ^ 64 -> skein_hash v (2 ^ 64) m = skein_hash v (2 ^ 96) m.
Proof. exact c69_standard. Qed.
Print Assumptions C69_standard.
(** with SkeinParams of fan-out 1: the same with the configuration block they describe *)
Theorem C69_params : forall v p, a_skein v -> params_ok v p -> q_fan p = 1 -> forall cs, Forall dcall_ok cs ->
  exists o rs, KNew_params (f_n (sv_F v)) (sv_perm v) p = Ok o /\ dhistory (sk_update v) (sk_finalize v) (sk_compute v) o o cs = Ok rs /\
    expected (skein_hash_cfg v (2 ^ 64) (cfg_bytes p)) (sv_rate v) [] cs rs.
Proof. exact c69_params. Qed.
Print Assumptions C69_params.
(** any other fan-out outside 1 to 64 is refused *)
Theorem C69_fan_out : forall v p, q_fan p = 0 \/ 64 < q_fan p -> KNew_params (f_n (sv_F v)) (sv_perm v) p = Throw IllegalOperation.
Proof. exact c69_fan. Qed.
Print Assumptions C69_fan_out.
(** Skein-256-256 of the byte FF, as published *)
Example C69_vector : be_val (skein_hash Skein256 (2 ^ 96) [255]) = 0x0B98DCD198EA0E50A7A244C444E25C23DA30C10FC9A1F270A6637F1F34E67ED2.
Proof. vm_compute. reflexivity. Qed.
Example C69_case : Forall dcall_ok [CUpdate (Piece [9; 255] 1 1); CFinal (zeros 32) 0; CReset; CCompute [1; 2] (zeros 32)] /\ params_ok Skein256 (SPar [83; 72; 65; 51] 1 0 32 32 0 1 0 0 (zeros 8)).
Proof. split; [|exact c69_params_case]. repeat constructor; vm_compute; (reflexivity || discriminate). Qed.

(** ** C70: tree Skein *)
(** any sequence of calls, with as many workers as the fan-out and a parallel block of any number of rounds: the tree
    hash of the bytes given since the last reset *)
Theorem C70_history : forall v p, a_skein v -> params_ok v p -> 0 < q_fan p <= 64 -> forall c, (0 < c)%nat -> forall cs, Forall dcall_ok cs ->
  let d := Z.to_nat (q_fan p) in let pblk := (c * (d * sv_rate v))%nat in
  exists o rs, KNew_params (f_n (sv_F v)) (sv_perm v) p = Ok o /\ dhistory (skp_update v d pblk) (skp_finalize v) (skp_compute v d pblk) o o cs = Ok rs /\
    expected (skein_hash_tree v (2 ^ 64) (cfg_bytes p) d) (sv_rate v) [] cs rs.
Proof. exact c70_history. Qed.
Print Assumptions C70_history.
(** the number of workers the constructor sets: the fan-out, or the processors if there are fewer *)
Theorem C70_profile : forall k c v fan, a_skein v -> 1 < fan <= 64 -> 0 < phys c -> 0 < processors c < 2 ^ 32 -> 2048 + 64 * 128 <= l1 c < 2 ^ 63 ->
  let deg := Z.min fan (processors c) in
  exists o, New_flag k c (Z.of_nat (sv_rate v)) true false 2048 false fan = Ok o /\ p_par o = true /\ p_deg o = deg /\ p_min o = deg * Z.of_nat (sv_rate v) /\
    exists m, 0 < m /\ p_pblk o = m * p_min o.
Proof. exact c70_profile. Qed.
Print Assumptions C70_profile.
(** finding: with fewer workers than the fan-out, a message of one block per leaf given in two pieces is hashed only as
    far as the workers reach: any two such messages that agree there have the same hash *)
Theorem C70_few_processors_refuted : forall v p, a_skein v -> params_ok v p -> 0 < q_fan p <= 64 -> forall d pblk a b out, let fan := Z.to_nat (q_fan p) in
  (0 < d < fan)%nat -> (1 < pblk)%nat -> length a = (fan * sv_rate v)%nat -> length b = (fan * sv_rate v)%nat -> (sv_rate v <= length out)%nat ->
  firstn (d * sv_rate v) a = firstn (d * sv_rate v) b ->
  exists o r, KNew_params (f_n (sv_F v)) (sv_perm v) p = Ok o /\
    (o <- skp_update v d pblk o a 0 1 ;; o <- skp_update v d pblk o a 1 (length a - 1) ;; skp_finalize v o out 0) = Ok r /\
    (o <- skp_update v d pblk o b 0 1 ;; o <- skp_update v d pblk o b 1 (length b - 1) ;; skp_finalize v o out 0) = Ok r.
Proof. exact c70_few. Qed.
Print Assumptions C70_few_processors_refuted.
(** finding: the tree hash is not the hash of the leaf states one after the other *)
Theorem C70_root_refuted : exists m, bytes m /\
  let cfg := cfg_bytes (SPar [83; 72; 65; 51] 1 0 32 32 0 2 0 0 (zeros 8)) in
  skein_hash_tree Skein256 (2 ^ 64) cfg 2 m <>
  skein_hash Skein256 (2 ^ 64) (concat (map (fun i => to_bytes (leaf (sv_F Skein256) (sv_rounds Skein256) (2 ^ 64) cfg 2 i m)) (seq 0 2))).
Proof. exact c70_root. Qed.
Print Assumptions C70_root_refuted.
Example C70_case : params_ok Skein256 (tree_params Skein256) /\ 0 < q_fan (tree_params Skein256) <= 64 /\
  Forall dcall_ok [CUpdate (Piece [1] 0 1); CUpdate (Piece (zeros 300) 3 290); CFinal (zeros 32) 0; CCompute (zeros 100) (zeros 40)] /\
  let c := Cpu 4 8 32768 in 0 < phys c /\ processors c = 8 /\ 2048 + 64 * 128 <= l1 c < 2 ^ 63.
Proof. exact c70_case. Qed.

(** ** C71: SkeinParams *)
(** the constructor: the output sizes of the three digests, and a fan-out exactly with a leaf size *)
Theorem C71_new : forall out leaf fan, is_byte leaf -> is_byte fan ->
  let ok := (out = 32 \/ out = 64 \/ out = 128) /\ (fan = 0 <-> leaf = 0) in
  (ok -> SkeinParams_new out leaf fan = Ok (SPar [83; 72; 65; 51] 1 0 out leaf 0 fan 0 0 (zeros (Z.to_nat (out - 24))))) /\
  (~ ok -> SkeinParams_new out leaf fan = Throw IllegalOperation).
Proof. exact c71_new. Qed.
Print Assumptions C71_new.
(** ToBytes, then the constructor from bytes: the same parameters *)
Theorem C71_round_trip : forall v p, a_skein v -> params_ok v p ->
  exists a, SkeinParams_bytes p = Ok a /\ length a = sv_rate v /\ bytes a /\ SkeinParams_from a = Ok p.
Proof. exact c71_round_trip. Qed.
Print Assumptions C71_round_trip.
(** finding: an array shorter than a header is read past its end *)
Theorem C71_short_refuted : forall a, (length a < 24)%nat -> SkeinParams_from a = UB.
Proof. exact c71_short. Qed.
Print Assumptions C71_short_refuted.
(** finding: Equals compares a symmetric sum of the fields *)
Theorem C71_equals_refuted : exists p q, SkeinParams_new 32 32 2 = Ok p /\ SkeinParams_new 32 2 32 = Ok q /\ p <> q /\ SkeinParams_Equals p q = true.
Proof. exact c71_equals. Qed.
Print Assumptions C71_equals_refuted.
(** finding: Skein512 and Skein1024 take parameters with the output size of Skein256 and read past the configuration *)
Theorem C71_output_refuted : forall v p, v = Skein512 \/ v = Skein1024 -> params_ok Skein256 p -> 0 < q_fan p <= 64 -> KNew_params (f_n (sv_F v)) (sv_perm v) p = UB.
Proof. exact c71_output. Qed.
Print Assumptions C71_output_refuted.
Example C71_case : params_ok Skein512 (SPar [83; 72; 65; 51] 1 0 64 64 0 4 0 0 (le_bytes 40 12345)).
Proof. exact c71_case. Qed.
