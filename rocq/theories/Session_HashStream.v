(** Vocabulary for hashing streams and arrays. *)
From Verif Require Import Base Model_Stream Model_HashStream.
Open Scope Z_scope.

(** a readable stream of bytes, not yet at its end *)
Definition stream_ok (s : mstream) : Prop :=
  bytes (ms_data s) /\ 0 <= ms_pos s < Z.of_nat (length (ms_data s)) /\ Z.of_nat (length (ms_data s)) < 2 ^ 63.
(** what is left to read *)
Definition rest (s : mstream) : list Z := skipn (Z.to_nat (ms_pos s)) (ms_data s).
(** the stream was read to its end and not changed otherwise *)
Definition read_through (s s' : mstream) : Prop := ms_data s' = ms_data s /\ ms_pos s' = Z.of_nat (length (ms_data s)).
(** sizes of a digest object: [blk] the block size; when parallel, the parallel block size is a multiple of it *)
Definition sizes (par : bool) (pblk blk : nat) : Prop :=
  (0 < blk)%nat /\ (par = true -> exists q, (0 < q)%nat /\ pblk = (q * blk)%nat) /\ Z.of_nat pblk < 2 ^ 63 /\ Z.of_nat blk < 2 ^ 63.
(** the input of one Compute call *)
Inductive source := Stream (s : mstream) | Window (inp : list Z) (io len : nat).
Definition source_ok (x : source) : Prop :=
  match x with Stream s => stream_ok s | Window inp io len => bytes inp /\ (0 < len)%nat /\ (io + len <= length inp)%nat end.
Definition contents (x : source) : list Z := match x with Stream s => rest s | Window inp io len => slice inp io len end.
Section run.
Context {T : Type} (upd : T -> list Z -> nat -> nat -> res T) (fin : T -> list Z -> nat -> res (T * list Z)) (new : T).
(** DigestStream::Compute and MacStream::Compute; the result is the object and the hash *)
Definition digest_of (par : bool) (pblk blk n : nat) (o : T) (x : source) : res (T * list Z) :=
  match x with
  | Stream s => r <- DigestStream_ComputeStream upd fin new par pblk blk n s o ;; let '(_, o, h) := r in Ok (o, h)
  | Window inp io len => DigestStream_ComputeArray upd fin new par pblk blk n inp io len o
  end.
Definition mac_of (blk n : nat) (o : T) (x : source) : res (T * list Z) :=
  match x with
  | Stream s => r <- MacStream_ComputeStream upd fin blk n s o ;; let '(_, o, h) := r in Ok (o, h)
  | Window inp io len => MacStream_ComputeArray upd fin blk n inp io len o
  end.
(** one after the other with one object *)
Fixpoint all_of (f : T -> source -> res (T * list Z)) (o : T) (xs : list source) : res (list (list Z)) :=
  match xs with [] => Ok [] | x :: t => r <- f o x ;; l <- all_of f (fst r) t ;; Ok (snd r :: l) end.
End run.
