(** Model of the in-memory streams: CEX/MemoryStream.cpp, CEX/StreamWriter.h/.cpp, CEX/StreamReader.h/.cpp.
    Positions are size_t values.  Capacity is not represented; growing a vector beyond 2^63 - 1 bytes throws std::length_error. *)
From Verif Require Import Base Model_IntegerTools Model_Modes.
Open Scope Z_scope.

Record mstream := MStream { ms_data : list Z; ms_pos : Z; ms_dead : bool }.
Definition msize (s : mstream) : Z := Z.of_nat (length (ms_data s)).
(** MemoryStream.cpp:13-56 *)
Definition MemoryStream_new : mstream := MStream [] 0 false.
Definition MemoryStream_of (d : list Z) : mstream := MStream d 0 false.
Definition MemoryStream_part (d : list Z) (off len : nat) : res mstream := x <- wcopy d off (zeros len) 0 len ;; Ok (MStream x 0 false).
(** the copy constructor (:21-27) *)
Definition MemoryStream_copy (s : mstream) : mstream := MStream (ms_data s) 0 false.
(** MemoryTools::Copy with size_t positions and length *)
Definition copy_at (inp : list Z) (io : Z) (out : list Z) (oo : Z) (len : Z) : res (list Z) :=
  if (io + len <=? Z.of_nat (length inp)) && (oo + len <=? Z.of_nat (length out)) then wcopy inp (Z.to_nat io) out (Z.to_nat oo) (Z.to_nat len) else UB.
(** std::vector::resize to a larger size *)
Definition grow (d : list Z) (n : Z) : res (list Z) := if 2 ^ 63 <=? n then Throw OtherError else Ok (d ++ zeros (Z.to_nat n - length d)).
(** MemoryStream.cpp:107-111 Close, :154-159 Reset *)
Definition MemoryStream_Close (s : mstream) : mstream := MStream [] 0 (ms_dead s).
Definition MemoryStream_Reset (s : mstream) : mstream := MStream [] 0 (ms_dead s).
(** MemoryStream.cpp:118-126 Destroy: the bytes are zeroed, the size stays (IntegerTools.h:49-56) *)
Definition MemoryStream_Destroy (s : mstream) : mstream := if ms_dead s then s else MStream (zeros (length (ms_data s))) 0 true.
(** MemoryStream.cpp:128-142 Read; the result is the output, the returned length and the stream *)
Definition MemoryStream_Read (s : mstream) (out : list Z) (off len : Z) : res (mstream * list Z * Z) :=
  let avail := (msize s - ms_pos s) mod 2 ^ 64 in
  let len := if avail <? (off + len) mod 2 ^ 64 then avail else len in
  if 0 <? len then
    out <- copy_at (ms_data s) (ms_pos s) out off len ;;
    Ok (MStream (ms_data s) ((ms_pos s + len) mod 2 ^ 64) (ms_dead s), out, len)
  else Ok (s, out, len).
(** MemoryStream.cpp:144-152 ReadByte *)
Definition MemoryStream_ReadByte (s : mstream) : res (mstream * Z) :=
  d <- copy_at (ms_data s) (ms_pos s) (zeros 1) 0 1 ;;
  v <- get d 0 ;;
  Ok (MStream (ms_data s) ((ms_pos s + 1) mod 2 ^ 64) (ms_dead s), v).
Inductive origin := FromBegin | FromEnd | FromCurrent.
(** MemoryStream.cpp:161-175 Seek *)
Definition MemoryStream_Seek (s : mstream) (off : Z) (o : origin) : mstream :=
  MStream (ms_data s) (match o with FromBegin => off | FromEnd => (msize s - off) mod 2 ^ 64 | FromCurrent => (ms_pos s + off) mod 2 ^ 64 end) (ms_dead s).
(** MemoryStream.cpp:177-180 SetLength: reserve *)
Definition MemoryStream_SetLength (s : mstream) (n : Z) : res mstream := if 2 ^ 63 <=? n then Throw OtherError else Ok s.
(** MemoryStream.cpp:182-199 Write *)
Definition MemoryStream_Write (s : mstream) (inp : list Z) (off len : Z) : res mstream :=
  let ttl := (ms_pos s + len) mod 2 ^ 64 in
  d <- (if msize s <? ttl then grow (ms_data s) ttl else Ok (ms_data s)) ;;
  d <- copy_at inp off d (ms_pos s) len ;;
  Ok (MStream d ((ms_pos s + len) mod 2 ^ 64) (ms_dead s)).
(** MemoryStream.cpp:201-210 WriteByte *)
Definition MemoryStream_WriteByte (s : mstream) (v : Z) : res mstream :=
  d <- (if (msize s - ms_pos s) mod 2 ^ 64 <? 1 then grow (ms_data s) (msize s + 1) else Ok (ms_data s)) ;;
  d <- copy_at [v] 0 d (ms_pos s) 1 ;;
  Ok (MStream d ((ms_pos s + 1) mod 2 ^ 64) (ms_dead s)).
(** MemoryStream.cpp:113-116 CopyTo a MemoryStream *)
Definition MemoryStream_CopyTo (s dst : mstream) : res mstream := MemoryStream_Write dst (ms_data s) 0 (msize s).

(** ** StreamWriter *)
Record swriter := SWriter { sw_data : list Z; sw_pos : nat }.
(** StreamWriter.cpp:9-28 (the constructors) *)
Definition StreamWriter_new (len : nat) : swriter := SWriter (zeros len) 0.
Definition StreamWriter_of (d : list Z) : swriter := SWriter d 0.
(** std::vector::resize when the write position would overrun *)
Definition room (w : swriter) (n : nat) : list Z :=
  if (length (sw_data w) <? sw_pos w + n)%nat then sw_data w ++ zeros (sw_pos w + n - length (sw_data w)) else sw_data w.
(** StreamWriter.h:146-180 Write(T) for the unsigned types of 8, 4, 2 bytes and, by CopyFromValue, 1 byte *)
Definition StreamWriter_Write (w : swriter) (n : nat) (v : Z) : res swriter :=
  d <- LeToBytes n v (room w n) (sw_pos w) ;; Ok (SWriter d (sw_pos w + n)).
(** StreamWriter.h:99-111 Write(std::vector<uint8_t>); IntegerTools.h:1234-1254 LeToBlock copies on a little-endian machine *)
Definition StreamWriter_WriteBytes (w : swriter) (inp : list Z) : res swriter :=
  d <- wcopy inp 0 (room w (length inp)) (sw_pos w) (length inp) ;; Ok (SWriter d (sw_pos w + length inp)).
(** StreamWriter.h:120-139 Write(Array, InOffset, Elements) for byte arrays *)
Definition StreamWriter_WriteRange (w : swriter) (inp : list Z) (io n : nat) : res swriter :=
  d <- wcopy inp io (room w n) (sw_pos w) n ;; Ok (SWriter d (sw_pos w + n)).
(** StreamWriter.cpp:50-53 Generate, :55-60 GetStream: the state is cut to the position *)
Definition StreamWriter_Generate (w : swriter) : list Z := sw_data w.
Definition StreamWriter_GetStream (w : swriter) : mstream := MemoryStream_of (firstn (sw_pos w) (sw_data w) ++ zeros (sw_pos w - length (sw_data w))).

(** ** StreamReader: a copy of the stream, positioned at its start (StreamReader.cpp:7-11) *)
Definition StreamReader_new (s : mstream) : mstream := MemoryStream_copy s.
(** StreamReader.cpp:31-38 ReadByte, :40-47 ReadBytes *)
Definition StreamReader_ReadByte (s : mstream) : res (mstream * Z) :=
  r <- MemoryStream_Read s (zeros 1) 0 1 ;; let '(s, d, _) := r in v <- get d 0 ;; Ok (s, v).
Definition StreamReader_ReadBytes (s : mstream) (n : nat) : res (mstream * list Z) :=
  r <- MemoryStream_Read s (zeros n) 0 (Z.of_nat n) ;; let '(s, d, _) := r in Ok (s, d).
(** StreamReader.h:104-140 ReadInt of 8, 4, 2 or 1 bytes.  The position is beyond every array index in the undefined case *)
Definition StreamReader_ReadInt (s : mstream) (n : nat) : res (mstream * Z) :=
  v <- (if ms_pos s <? 2 ^ 63 then LeBytesTo n (ms_data s) (Z.to_nat (ms_pos s)) else UB) ;;
  Ok (MemoryStream_Seek s ((ms_pos s + Z.of_nat n) mod 2 ^ 64) FromBegin, v).
