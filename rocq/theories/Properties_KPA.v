(** C81 the Keccak-based parallel MAC *)
From Verif Require Import Base Spec_Feed Spec_Keccak Spec_KPA Session_Digest Model_KPA Session_KPA ProofsP_KPA.
Open Scope Z_scope.

(** C81: every history of calls on a new object returns what the function of Spec_KPA says, for messages of less than 2^53 bytes *)
Theorem C81_every_history : forall (md : kpa_mode) (o : kpa) (cs : list pcall),
  KPA_new md = Ok o -> Forall pcall_ok cs -> 8 * Z.of_nat (ptotal cs) < 2 ^ 56 ->
  exists rs, phistory md o cs = Ok rs /\ pexpected (kpa_tagsize md) None cs rs.
Proof. exact c81_history. Qed.
Print Assumptions C81_every_history.
Definition C81_calls : list pcall :=
  [PUpdate (Piece [1; 2; 3] 1 2); PInit (repeat 7 32) [9; 9]; PUpdate (Piece [1; 2; 3] 1 2); PFinal (zeros 20) 4; PFinal (zeros 40) 4; PCompute [5] (zeros 32); PFinalS (zeros 33) 1; PReset].
Example C81_history_case : KPA_new KPANone = Throw InvalidParam /\ (exists o, KPA_new KPA256 = Ok o) /\ Forall pcall_ok C81_calls /\ ptotal C81_calls = 5%nat.
Proof.
  split; [reflexivity|]. split; [eexists; reflexivity|]. split.
  { repeat (apply Forall_cons || apply Forall_nil); cbn [pcall_ok]; repeat split; try (apply bytesb; reflexivity); try reflexivity; cbn; lia. }
  reflexivity.
Qed.

(** C81: however the message is split into calls of Update, the tag is the function of key, salt, message and output size of Spec_KPA; the mode of the
    object only sets the least output size *)
Theorem C81_tag : forall (md : kpa_mode) (key salt : list Z) (ps : list piece) (n : nat),
  md <> KPANone -> bytes key -> bytes salt -> short key -> short salt -> (16 <= length key)%nat ->
  Forall p_ok ps -> short (joined ps) -> 8 * Z.of_nat n < 2 ^ 56 -> (kpa_tagsize md <= n)%nat ->
  kpa_run md key salt ps n = Ok (Done :: map (fun _ => Done) ps ++ [Wrote (kpa_mac key salt (joined ps) n)]).
Proof. exact c81_tag. Qed.
Print Assumptions C81_tag.
Example C81_tag_case : Forall p_ok [Piece [1; 2; 3] 0 2; Piece [8; 9] 1 1] /\ joined [Piece [1; 2; 3] 0 2; Piece [8; 9] 1 1] = [1; 2; 9] /\
  kpa_rate (repeat 1 16) = 168%nat /\ kpa_rate (repeat 1 17) = 72%nat /\ leaf_part 2 1 (map Z.of_nat (seq 0 32)) = [2; 3; 18; 19].
Proof. split; [repeat (apply Forall_cons || apply Forall_nil); split; (apply bytesb; reflexivity) || (cbn; lia)|]. repeat split; reflexivity. Qed.

(** C81: a KPA512 object reports a tag size of one byte and gives out tags of one byte, where the other modes refuse less than their 32 and 16 bytes *)
Theorem C81_tag_size_refuted : forall (key salt : list Z) (ps : list piece),
  bytes key -> bytes salt -> short key -> short salt -> (16 <= length key)%nat -> Forall p_ok ps -> short (joined ps) ->
  kpa_run KPA512 key salt ps 1 = Ok (Done :: map (fun _ => Done) ps ++ [Wrote (kpa_mac key salt (joined ps) 1)]) /\
  kpa_run KPA256 key salt ps 31 = Ok (Done :: map (fun _ => Done) ps ++ [Failed InvalidSize]) /\
  kpa_run KPA128 key salt ps 15 = Ok (Done :: map (fun _ => Done) ps ++ [Failed InvalidSize]).
Proof. exact c81_size. Qed.
Print Assumptions C81_tag_size_refuted.
Example C81_tag_size_case : bytes (repeat 3 64) /\ short (repeat 3 64) /\ kpa_rate (repeat 3 64) = 72%nat.
Proof. split; [apply bytesb; reflexivity|]. split; reflexivity. Qed.

(** C81: the Finalize for a SecureVector ignores the offset: it writes a tag of the size of the whole array over the whole array, the one for a vector
    leaves the bytes before the offset and fills the rest *)
Theorem C81_offset_refuted : forall (md : kpa_mode) (key salt : list Z) (ps : list piece) (out : list Z) (oo : nat),
  md <> KPANone -> bytes key -> bytes salt -> short key -> short salt -> (16 <= length key)%nat ->
  Forall p_ok ps -> short (joined ps) -> short out -> (oo <= length out)%nat -> (kpa_tagsize md <= length out - oo)%nat ->
  (o <- KPA_new md ;; phistory md o (PInit key salt :: map PUpdate ps ++ [PFinalS out oo])) =
    Ok (Done :: map (fun _ => Done) ps ++ [Wrote (kpa_mac key salt (joined ps) (length out))]) /\
  (o <- KPA_new md ;; phistory md o (PInit key salt :: map PUpdate ps ++ [PFinal out oo])) =
    Ok (Done :: map (fun _ => Done) ps ++ [Wrote (firstn oo out ++ kpa_mac key salt (joined ps) (length out - oo))]).
Proof. exact c81_offset. Qed.
Print Assumptions C81_offset_refuted.
Example C81_offset_case : (kpa_tagsize KPA128 <= length (zeros 20) - 4)%nat /\ short (zeros 20).
Proof. split; [cbn; lia|reflexivity]. Qed.

(** C81: Finalize does not start the leaves again: the tag of a second message is computed from where the first one ended.  When the first message is a
    whole number of blocks, the leaves have absorbed the two messages joined, and the root the length of the second *)
Theorem C81_second_message_refuted : forall (md : kpa_mode) (key salt m1 m2 : list Z) (n : nat),
  md <> KPANone -> bytes key -> bytes salt -> short key -> short salt -> (16 <= length key)%nat ->
  bytes m1 -> bytes m2 -> 8 * Z.of_nat (length m1 + length m2) < 2 ^ 56 -> 8 * Z.of_nat n < 2 ^ 56 -> (kpa_tagsize md <= n)%nat ->
  let q := kpa_rate key in
  kpa_two md key salt m1 m2 n = Ok [Done; Wrote (kpa_mac key salt m1 n); Wrote (kpa_tag q (kpa_leaves q (kpa_start key salt) m1) m2 n)] /\
  ((length m1 mod (q * 8) = 0)%nat ->
   kpa_tag q (kpa_leaves q (kpa_start key salt) m1) m2 n = kpa_root q (kpa_leaves q (kpa_start key salt) (m1 ++ m2)) (length m2) n).
Proof. exact c81_chained. Qed.
Print Assumptions C81_second_message_refuted.
Example C81_second_message_case : kpa_rate (repeat 3 64) = 72%nat /\ Nat.modulo (length (zeros 576)) (72 * 8) = 0%nat.
Proof. split; reflexivity. Qed.

(** C81: Reset leaves 175 of the 200 bytes of every keyed leaf in memory *)
Theorem C81_reset_refuted : forall (md : kpa_mode) (o : kpa) (key salt : list Z) (o' : kpa),
  KPA_new md = Ok o -> bytes key -> bytes salt -> short key -> short salt -> KPA_Initialize o key salt = Ok o' ->
  map (fun st => skipn 25 (lane_bytes st)) (fst (fst (fst (kp_st (KPA_Reset o'))))) = map (fun st => skipn 25 (lane_bytes st)) (kpa_start key salt).
Proof. exact c81_reset. Qed.
Print Assumptions C81_reset_refuted.
Example C81_reset_case : exists o o', KPA_new KPA128 = Ok o /\ KPA_Initialize o (repeat 1 16) [] = Ok o'.
Proof. eexists. destruct (c81_init_case KPA128 _ (repeat 1 16) eq_refl) as (o' & E); [apply bytesb; reflexivity|reflexivity|cbn; lia|]. exists o'. split; [reflexivity|exact E]. Qed.
