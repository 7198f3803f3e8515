(** Model of CEX/DigestStream.cpp and CEX/MacStream.cpp: hashing what is left of a MemoryStream, or a
    window of an array, with any digest or MAC object.

    The object is an arbitrary type [T] with functions [upd] (Update), [fin] (Finalize) and a state
    [new] that Reset leaves.  The interval counter that CalculateInterval computes is never read and
    is left out; CEXASSERTs are empty in release builds.  A loop that runs out of fuel does not end
    in the code either (a read of nothing repeats for ever). *)
From Verif Require Import Base Model_Stream.
Open Scope Z_scope.

(** std::vector::resize *)
Definition vresize (l : list Z) (n : nat) : list Z := firstn n l ++ zeros (n - length l).
(** DigestStream.cpp:129-168, MacStream.cpp:143-175 CalculateProgress: for an empty input the percentage
    is 0/0; converting a NaN to an integer is undefined.  Otherwise only an event is raised. *)
Definition CalculateProgress (len processed : Z) : res unit :=
  if (processed <=? len) && (len =? 0) then UB else Ok tt.

Section streams.
Context {T : Type} (upd : T -> list Z -> nat -> nat -> res T) (fin : T -> list Z -> nat -> res (T * list Z)) (new : T).
(** DigestStream.cpp:191-197, :203-209 and MacStream.cpp:190-196: while (plen != target) read and update *)
Fixpoint read_loop (fuel : nat) (chunk len target : nat) (s : mstream) (buf : list Z) (o : T) (plen : nat) : res (mstream * list Z * T * nat) :=
  if (plen =? target)%nat then Ok (s, buf, o, plen)
  else match fuel with
  | O => UB
  | S f =>
    r <- MemoryStream_Read s buf 0 (Z.of_nat chunk) ;;
    let '(s, buf, k) := r in
    o <- upd o buf 0 (Z.to_nat k) ;;
    _ <- CalculateProgress (Z.of_nat len) (ms_pos s) ;;
    read_loop f chunk len target s buf o (plen + Z.to_nat k)%nat
  end.
(** DigestStream.cpp:246-252, :256-262: the same on an array; [seen i p] is what the progress call is given
    (the offset in DigestStream, the count in MacStream.cpp:225-231) *)
Fixpoint array_loop (seen : nat -> nat -> nat) (fuel : nat) (chunk len target : nat) (inp : list Z) (io : nat) (o : T) (plen : nat) : res (nat * T * nat) :=
  if (plen =? target)%nat then Ok (io, o, plen)
  else match fuel with
  | O => UB
  | S f =>
    o <- upd o inp io chunk ;;
    _ <- CalculateProgress (Z.of_nat len) (Z.of_nat (seen (io + chunk)%nat (plen + chunk)%nat)) ;;
    array_loop seen f chunk len target inp (io + chunk)%nat o (plen + chunk)%nat
  end.

(** DigestStream.cpp:170-227 Process(InStream, Length); [par] is the Parallel flag, [pblk] the object's
    ParallelBlockSize, [blk] its BlockSize, [n] its DigestSize *)
Definition DigestStream_ProcessStream (par : bool) (pblk blk n : nat) (s : mstream) (len : nat) (o : T) : res (mstream * T * list Z) :=
  _ <- safe (negb (blk =? 0)%nat) ;;
  let aln := (len / blk * blk)%nat in
  r <- (if par && (pblk <? len)%nat then
          _ <- safe (negb (pblk =? 0)%nat) ;;
          read_loop (S len) pblk len (len / pblk * pblk) s (vresize [] pblk) o 0
        else Ok (s, [], o, 0%nat)) ;;
  let '(s, buf, o, plen) := r in
  r <- read_loop (S len) blk len aln s (vresize buf blk) o plen ;;
  let '(s, buf, o, plen) := r in
  r <- (if (plen <? len)%nat then
          r <- MemoryStream_Read s (vresize buf (len - plen)) 0 (Z.of_nat (len - plen)) ;;
          let '(s, buf, k) := r in
          o <- upd o buf 0 (Z.to_nat k) ;;
          Ok (s, o, (plen + Z.to_nat k)%nat)
        else Ok (s, o, plen)) ;;
  let '(s, o, plen) := r in
  q <- fin o (zeros n) 0 ;;
  _ <- CalculateProgress (Z.of_nat len) (Z.of_nat plen) ;;
  Ok (s, fst q, snd q).
(** DigestStream.cpp:84-94 Compute(InStream): everything from the position to the end.  A position
    beyond the end makes the subtraction wrap; the loops then read nothing for ever. *)
Definition DigestStream_ComputeStream (par : bool) (pblk blk n : nat) (s : mstream) (o : T) : res (mstream * T * list Z) :=
  if msize s <? ms_pos s then UB else DigestStream_ProcessStream par pblk blk n s (Z.to_nat (msize s - ms_pos s)) new.
(** DigestStream.cpp:229-278 Process(Input, InOffset, Length) and :96-104 Compute *)
Definition DigestStream_ComputeArray (par : bool) (pblk blk n : nat) (inp : list Z) (io len : nat) (o : T) : res (T * list Z) :=
  _ <- safe (negb (blk =? 0)%nat) ;;
  let o := new in
  let aln := (len / blk * blk)%nat in
  let seen := fun io (plen : nat) => io in
  r <- (if par && (pblk <? len)%nat then
          _ <- safe (negb (pblk =? 0)%nat) ;;
          array_loop seen (S len) pblk len (len / pblk * pblk) inp io o 0
        else Ok (io, o, 0%nat)) ;;
  let '(io, o, plen) := r in
  r <- array_loop seen (S len) blk len aln inp io o plen ;;
  let '(io, o, plen) := r in
  r <- (if negb (plen =? len)%nat then
          o <- upd o inp io (len - plen) ;; Ok (o, len)
        else Ok (o, plen)) ;;
  let '(o, plen) := r in
  q <- fin o (zeros n) 0 ;;
  _ <- CalculateProgress (Z.of_nat len) (Z.of_nat plen) ;;
  Ok q.

(** MacStream.cpp:177-214 Process(InStream, Length) and :75-87 Compute: no Reset first *)
Definition MacStream_ComputeStream (blk n : nat) (s : mstream) (o : T) : res (mstream * T * list Z) :=
  if msize s <? ms_pos s then UB else DigestStream_ProcessStream false 0 blk n s (Z.to_nat (msize s - ms_pos s)) o.
(** MacStream.cpp:216-247 Process(Input, InOffset, Length) and :89-100 Compute *)
Definition MacStream_ComputeArray (blk n : nat) (inp : list Z) (io len : nat) (o : T) : res (T * list Z) :=
  _ <- safe (negb (blk =? 0)%nat) ;;
  let aln := (len / blk * blk)%nat in
  r <- array_loop (fun _ plen => plen) (S len) blk len aln inp io o 0 ;;
  let '(io, o, plen) := r in
  r <- (if (plen <? len)%nat then
          o <- upd o inp io (len - plen) ;; Ok (o, len)
        else Ok (o, plen)) ;;
  let '(o, plen) := r in
  q <- fin o (zeros n) 0 ;;
  _ <- CalculateProgress (Z.of_nat len) (Z.of_nat plen) ;;
  Ok q.
End streams.
