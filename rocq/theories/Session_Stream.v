(** Sequences of calls on the stream objects, in the vocabulary of Spec_File. *)
From Verif Require Import Base Model_Stream Spec_File.
Open Scope Z_scope.

Definition from_of (o : seek_from) : origin := match o with SBegin => FromBegin | SEnd => FromEnd | SCurrent => FromCurrent end.
Definition stream_step (s : mstream) (c : fcall) : res (mstream * fres) :=
  match c with
  | FWrite inp off len => s <- MemoryStream_Write s inp (Z.of_nat off) (Z.of_nat len) ;; Ok (s, FDone)
  | FWriteByte v => s <- MemoryStream_WriteByte s v ;; Ok (s, FDone)
  | FRead out off len => r <- MemoryStream_Read s out (Z.of_nat off) (Z.of_nat len) ;; let '(s, out, n) := r in Ok (s, FGot out (Z.to_nat n))
  | FReadByte => r <- MemoryStream_ReadByte s ;; let '(s, v) := r in Ok (s, FByte v)
  | FSeek off o => Ok (MemoryStream_Seek s (Z.of_nat off) (from_of o), FDone)
  | FReset => Ok (MemoryStream_Reset s, FDone)
  | FClose => Ok (MemoryStream_Close s, FDone)
  end.
(** Length() and ToArray() are MemoryStream.cpp:64-101, observed after each call *)
Fixpoint stream_history (s : mstream) (cs : list fcall) : res (list (fres * nat * nat * list Z)) :=
  match cs with
  | [] => Ok []
  | c :: r => x <- stream_step s c ;; let '(s, a) := x in
              t <- stream_history s r ;; Ok ((a, length (ms_data s), Z.to_nat (ms_pos s), ms_data s) :: t)
  end.

Definition write_item (w : swriter) (i : item) : res swriter :=
  match i with
  | IByte v => StreamWriter_Write w 1 v
  | IShort v => StreamWriter_Write w 2 v
  | IInt v => StreamWriter_Write w 4 v
  | ILong v => StreamWriter_Write w 8 v
  | IArray l => StreamWriter_WriteBytes w l
  end.
Fixpoint write_items (w : swriter) (l : list item) : res swriter :=
  match l with [] => Ok w | i :: r => w <- write_item w i ;; write_items w r end.
Definition read_item (s : mstream) (k : kind) : res (mstream * item) :=
  match k with
  | KByte => r <- StreamReader_ReadByte s ;; let '(s, v) := r in Ok (s, IByte v)
  | KShort => r <- StreamReader_ReadInt s 2 ;; let '(s, v) := r in Ok (s, IShort v)
  | KInt => r <- StreamReader_ReadInt s 4 ;; let '(s, v) := r in Ok (s, IInt v)
  | KLong => r <- StreamReader_ReadInt s 8 ;; let '(s, v) := r in Ok (s, ILong v)
  | KArray n => r <- StreamReader_ReadBytes s n ;; let '(s, l) := r in Ok (s, IArray l)
  end.
Fixpoint read_items (s : mstream) (ks : list kind) : res (list item) :=
  match ks with [] => Ok [] | k :: r => x <- read_item s k ;; let '(s, i) := x in t <- read_items s r ;; Ok (i :: t) end.
