(** C79 the encrypted stream *)
From Verif Require Import Base BaseLemmas Spec_Common Model_Modes Spec_Modes Model_Stream Model_SecureStream Spec_File Spec_SecureStream Session_Stream Session_SecureStream ProofsP_SecureStream.
Open Scope Z_scope.

(** a machine for the examples: constant digest, and a cipher that flips bits *)
Definition toy : system := System (fun salt => repeat ((7 + le_val salt) mod 256) 64) (fun k b => map (Z.lxor 90) b) 0 {| par := false; pblk := 32; deg := 2 |} (fun _ => []).

(** C79: every sequence of calls that is meaningful for a file of bytes with a position: same answers, length, position and bytes (read back by ToArray after each
    call), with gaps filled by the key stream; and what is held in memory is always the shown bytes under the AES256-CTR key stream of the seed *)
Theorem C79_every_history : forall (Y : system) (d : list Z) (salt : Z) (calls : list fcall) t, sys_ok Y -> 0 <= salt < 2 ^ 63 -> Z.of_nat (length d) < 2 ^ 63 ->
  let pad := seed_pad (sy_aes Y) (sy_hash Y (salt_bytes salt)) in
  fill_history pad (File d 0) calls = Some t ->
  exists s0 s', SecureStream_of Y d salt = Ok s0 /\ secure_history Y s0 calls = Ok (s', t) /\ ss_data s' = pad_with pad (shown_last d t).
Proof. exact c79_history. Qed.
Print Assumptions C79_every_history.
(** C79: a history in which no write starts beyond the end is that of an ordinary file *)
Theorem C79_as_a_file : forall (Y : system) (d : list Z) (salt : Z) (calls : list fcall) t, sys_ok Y -> 0 <= salt < 2 ^ 63 -> Z.of_nat (length d) < 2 ^ 63 ->
  no_gap (File d 0) calls = true -> file_history (File d 0) calls = Some t ->
  exists s0 s', SecureStream_of Y d salt = Ok s0 /\ secure_history Y s0 calls = Ok (s', t).
Proof. exact c79_file. Qed.
Print Assumptions C79_as_a_file.
Definition five : list fcall := [FSeek 2 SBegin; FWrite [7; 8; 9] 0 3; FSeek 4 SEnd; FRead [0; 0; 0; 0; 0; 0] 0 6; FWriteByte 6].
Definition five_seen : list (fres * nat * nat * list Z) :=
  [(FDone, 3%nat, 2%nat, [1; 2; 3]); (FDone, 5%nat, 5%nat, [1; 2; 7; 8; 9]); (FDone, 5%nat, 1%nat, [1; 2; 7; 8; 9]); (FGot [2; 7; 8; 9; 0; 0] 4, 5%nat, 5%nat, [1; 2; 7; 8; 9]); (FDone, 6%nat, 6%nat, [1; 2; 7; 8; 9; 6])].
Example C79_case_sys : sys_ok toy.
Proof.
  split; [|split; [|discriminate]].
  - intros x. split; [apply repeat_length|]. apply Forall_forall. intros y I. apply repeat_spec in I. subst y. apply Z.mod_pos_bound. reflexivity.
  - intros k b L. cbn [toy sy_aes]. rewrite map_length. exact L.
Qed.
Example C79_case : file_history (File [1; 2; 3] 0) five = Some five_seen /\ no_gap (File [1; 2; 3] 0) five = true /\
  match SecureStream_of toy [1; 2; 3] 5 with Ok s => match secure_history toy s five with Ok (s', t) => t = five_seen /\ ss_data s' <> shown_last [1; 2; 3] t | _ => False end | _ => False end.
Proof. split; [reflexivity|]. split; [reflexivity|]. vm_compute. split; [reflexivity|discriminate]. Qed.

(** C79: the three other constructors: part of an array, an empty stream with reserved room, and the default *)
Theorem C79_constructors : forall (Y : system) (d : list Z) (off len : nat) (n salt : Z), sys_ok Y -> 0 <= salt < 2 ^ 63 -> (off + len <= length d)%nat -> 0 <= n < 2 ^ 63 ->
  SecureStream_part Y d off len salt = SecureStream_of Y (firstn len (skipn off d)) salt /\ SecureStream_new n salt = SecureStream_of Y [] salt /\
  SecureStream_of Y [] 0 = Ok SecureStream_default.
Proof. exact c79_ctors. Qed.
Print Assumptions C79_constructors.
Example C79_constructors_case : SecureStream_part toy [1; 2; 3; 4] 1 2 9 = SecureStream_of toy [2; 3] 9 /\ SecureStream_of toy [2; 3] 9 <> Ok SecureStream_default.
Proof. split; [reflexivity|]. vm_compute. discriminate. Qed.

(** C79: CopyTo writes the shown bytes at the destination's position and leaves this stream as it was *)
Theorem C79_copy_to : forall (Y : system) (d : list Z) (salt : Z) (g : file), sys_ok Y -> 0 <= salt < 2 ^ 63 -> Z.of_nat (f_pos g + length d) < 2 ^ 63 -> Z.of_nat (length (f_bytes g)) < 2 ^ 63 ->
  exists s0, SecureStream_of Y d salt = Ok s0 /\
    SecureStream_CopyTo Y s0 (MStream (f_bytes g) (Z.of_nat (f_pos g)) false) = Ok (s0, MStream (put_at (f_bytes g) (f_pos g) d) (Z.of_nat (f_pos g + length d)) false).
Proof. exact c79_copy. Qed.
Print Assumptions C79_copy_to.
Example C79_copy_to_case : match SecureStream_of toy [1; 2] 0 with Ok s => match SecureStream_CopyTo toy s (MStream [9; 9; 9; 9] 1 false) with Ok (_, m) => ms_data m = [9; 1; 2; 9] | _ => False end | _ => False end.
Proof. vm_compute. reflexivity. Qed.

(** C79: after Destroy nothing is left to read *)
Theorem C79_destroyed : forall (Y : system) (s : sstream), ss_dead s = false ->
  let s' := SecureStream_Destroy s in ss_data s' = [] /\ ss_pos s' = 0 /\ SecureStream_ToArray Y s' = Ok (s', []) /\ SecureStream_Destroy s' = s'.
Proof. exact c79_destroy. Qed.
Print Assumptions C79_destroyed.
Example C79_destroyed_case : match SecureStream_of toy [1; 2] 3 with Ok s => ss_dead s = false /\ ss_data s <> [] | _ => False end.
Proof. vm_compute. split; [reflexivity|discriminate]. Qed.

(** C79: a gap is not filled with zeros: seeking beyond the end and writing hands out the raw key stream that protects the stored bytes *)
Theorem C79_gap_refuted : forall (Y : system) (d : list Z) (salt : Z) (p : nat) (w : list Z), sys_ok Y -> 0 <= salt < 2 ^ 63 -> (length d < p)%nat -> Z.of_nat (p + length w) < 2 ^ 63 ->
  exists s0 s1 s2, SecureStream_of Y d salt = Ok s0 /\ secure_history Y s0 [FSeek p SBegin; FWrite w 0 (length w)] = Ok (s1, [(FDone, length d, p, d); s2]) /\
    snd s2 = d ++ map (seed_pad (sy_aes Y) (sy_hash Y (salt_bytes salt))) (seq (length d) (p - length d)) ++ w.
Proof. exact c79_gap. Qed.
Print Assumptions C79_gap_refuted.
Example C79_gap_case : match SecureStream_of toy [1] 0 with Ok s => match secure_history toy s [FSeek 3 SBegin; FWrite [5] 0 1] with Ok (_, [_; x]) => snd x = [1; 93; 93; 5] | _ => False end | _ => False end.
Proof. vm_compute. reflexivity. Qed.

(** C79: streams made with the same salt share one pad: their stored bytes give the xor of their contents *)
Theorem C79_same_pad_refuted : forall (Y : system) (a b : list Z) (salt : Z), sys_ok Y -> 0 <= salt < 2 ^ 63 -> length a = length b ->
  exists sa sb, SecureStream_of Y a salt = Ok sa /\ SecureStream_of Y b salt = Ok sb /\ xorl (ss_data sa) (ss_data sb) = xorl a b.
Proof. exact c79_same_pad. Qed.
Print Assumptions C79_same_pad_refuted.
Example C79_same_pad_case : match SecureStream_of toy [1; 2] 77, SecureStream_of toy [3; 4] 77 with Ok a, Ok b => xorl (ss_data a) (ss_data b) = [2; 6] /\ ss_data a <> [1; 2] | _, _ => False end.
Proof. vm_compute. split; [reflexivity|discriminate]. Qed.

(** C79: a 64-bit salt is not accepted in full: the constructors first build a vector of that many bytes, so every salt from 2^63 on throws *)
Theorem C79_salt_refuted : forall (Y : system) (salt : Z), 2 ^ 63 <= salt < 2 ^ 64 ->
  (forall d, SecureStream_of Y d salt = Throw OtherError) /\ (forall n, SecureStream_new n salt = Throw OtherError) /\ (forall d off len, SecureStream_part Y d off len salt = Throw OtherError).
Proof. exact c79_salt. Qed.
Print Assumptions C79_salt_refuted.
Example C79_salt_case : SecureStream_of toy [1] (2 ^ 64 - 1) = Throw OtherError /\ exists s, SecureStream_of toy [1] (2 ^ 63 - 1) = Ok s.
Proof. split; [reflexivity|]. eexists. vm_compute. reflexivity. Qed.
