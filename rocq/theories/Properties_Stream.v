(** C53 the memory stream; C54 the typed writer and reader *)
From Verif Require Import Base Model_Stream Spec_File Session_Stream Proofs_Stream ProofsP_Stream.
Open Scope Z_scope.

(** C53: any sequence of calls that is meaningful for a file of bytes with a position: same answers, length, position and bytes.
    Writing at the end or beyond it grows the stream (a gap is filled with zeros); a read at the end is short *)
Theorem C53_every_history : forall (d : list Z) (calls : list fcall) t, Z.of_nat (length d) < 2 ^ 63 ->
  file_history (File d 0) calls = Some t -> stream_history (MemoryStream_of d) calls = Ok t.
Proof. exact c53_history. Qed.
Print Assumptions C53_every_history.
Example C53_case :
  file_history (File [] 0) [FWrite [1; 2; 3; 4] 1 3; FSeek 1 SBegin; FWriteByte 9; FSeek 5 SBegin; FWrite [7] 0 1; FSeek 6 SEnd; FRead [0; 0; 0; 0; 0; 0; 0; 0] 0 8; FSeek 2 SEnd; FReadByte; FReset] =
  Some [(FDone, 3%nat, 3%nat, [2; 3; 4]); (FDone, 3%nat, 1%nat, [2; 3; 4]); (FDone, 3%nat, 2%nat, [2; 9; 4]); (FDone, 3%nat, 5%nat, [2; 9; 4]); (FDone, 6%nat, 6%nat, [2; 9; 4; 0; 0; 7]);
        (FDone, 6%nat, 0%nat, [2; 9; 4; 0; 0; 7]); (FGot [2; 9; 4; 0; 0; 7; 0; 0] 6, 6%nat, 6%nat, [2; 9; 4; 0; 0; 7]); (FDone, 6%nat, 4%nat, [2; 9; 4; 0; 0; 7]); (FByte 0, 6%nat, 5%nat, [2; 9; 4; 0; 0; 7]); (FDone, 0%nat, 0%nat, [])].
Proof. reflexivity. Qed.

(** C53: Read with an output offset: if offset and length together exceed what is left, everything left is copied, not the length asked for,
    and the copy runs off the end of an output sized for the request *)
Theorem C53_read_offset_refuted : forall (d out : list Z) (off len : nat),
  Z.of_nat (length d) < 2 ^ 63 -> Z.of_nat (off + len) < 2 ^ 64 -> (0 < len < length d)%nat -> (length d < off + len)%nat -> length out = (off + len)%nat ->
  MemoryStream_Read (MemoryStream_of d) out (Z.of_nat off) (Z.of_nat len) = UB /\
  forall more, (length d - len <= length more)%nat -> exists s' out',
    MemoryStream_Read (MemoryStream_of d) (out ++ more) (Z.of_nat off) (Z.of_nat len) = Ok (s', out', Z.of_nat (length d)).
Proof. exact c53_read_offset. Qed.
Print Assumptions C53_read_offset_refuted.
Example C53_read_offset_case : MemoryStream_Read (MemoryStream_of [1; 2; 3; 4]) [0; 0; 0; 0; 0] 3 2 = UB.
Proof. reflexivity. Qed.

(** C53: SetLength never changes the length or anything else *)
Theorem C53_set_length_refuted : forall (s : mstream) (n : Z) (s' : mstream), MemoryStream_SetLength s n = Ok s' -> s' = s.
Proof. exact setlength_nothing. Qed.
Print Assumptions C53_set_length_refuted.
Example C53_set_length_case : MemoryStream_SetLength (MemoryStream_of [1; 2]) 100 = Ok (MemoryStream_of [1; 2]).
Proof. reflexivity. Qed.

(** C53: after Seek past the end, ReadByte, WriteByte and Read touch memory outside the stream *)
Theorem C53_past_end_refuted : forall (d : list Z) (p v : Z), Z.of_nat (length d) < p < 2 ^ 63 ->
  let s := MemoryStream_Seek (MemoryStream_of d) p FromBegin in
  MemoryStream_ReadByte s = UB /\ MemoryStream_WriteByte s v = UB /\
  forall out n, 0 < n -> n + p < 2 ^ 63 -> MemoryStream_Read s out 0 n = UB.
Proof. exact c53_past_end. Qed.
Print Assumptions C53_past_end_refuted.

(** C53: CopyTo appends at the target's position; copying to a fresh stream gives an equal stream *)
Theorem C53_copy_to : forall (d : list Z) (pos : Z) (dead : bool), Z.of_nat (length d) < 2 ^ 63 ->
  exists s, MemoryStream_CopyTo (MStream d pos dead) MemoryStream_new = Ok s /\ ms_data s = d /\ ms_pos s = Z.of_nat (length d).
Proof. exact c53_copy_to. Qed.
Print Assumptions C53_copy_to.

(** C54: any list of typed items written by a StreamWriter of any initial size is read back item by item *)
Theorem C54_round_trip : forall (n : nat) (items : list item), Forall item_ok items -> Z.of_nat (items_size items) < 2 ^ 63 ->
  exists w, write_items (StreamWriter_new n) items = Ok w /\
    read_items (StreamReader_new (StreamWriter_GetStream w)) (map kind_of items) = Ok items.
Proof. exact items_round. Qed.
Print Assumptions C54_round_trip.
Example C54_case : Forall item_ok [IInt 305419896; IArray [1; 2; 3]; IByte 200; ILong 1; IShort 65535; IArray []].
Proof. exact c54_case. Qed.

(** C54: the stream holds exactly the items' bytes; Generate gives those bytes followed by zeros up to the initial size *)
Theorem C54_generate : forall (n : nat) (items : list item), Forall item_ok items ->
  exists w e, write_items (StreamWriter_new n) items = Ok w /\ StreamWriter_Generate w = e ++ zeros (n - items_size items) /\
    ms_data (StreamWriter_GetStream w) = e /\ length e = items_size items.
Proof. exact items_generate. Qed.
Print Assumptions C54_generate.
