(** Model of CEX/SecureRandom.cpp.  The random engine (IPrng) is an endless sequence of bytes [g] of which every
    m_rngEngine->Generate(Buffer, 0, 1024) takes the next 1024; an engine that throws is not modelled.
    NextDouble (bit pattern of a double) is not modelled. *)
From Verif Require Import Base Model_Modes.
Open Scope Z_scope.

(** SecureRandom.h:62 *)
Definition BUFFER_SIZE : nat := 1024.
(** SecureRandom.cpp:12-36 ScrState; [r_blk]: how often the engine was called *)
Record rnd := Rnd { r_buf : list Z; r_pos : nat; r_blk : nat }.
(** SecureRandom.cpp:19-24, 40-47 *)
Definition SecureRandom_new : rnd := Rnd (zeros BUFFER_SIZE) BUFFER_SIZE 0.
Definition engine_block (g : nat -> Z) (k : nat) : list Z := map g (seq (BUFFER_SIZE * k) BUFFER_SIZE).

(** SecureVector.h:399-440 SecureMove (copies, then clears the source) and 121-128 SecureCopy; the result is (Buffer, Output) *)
Definition buf_move (secure : bool) (buf : list Z) (io : nat) (out : list Z) (oo len : nat) : res (list Z * list Z) :=
  out <- wcopy buf io out oo len ;;
  if secure then Ok (buf, out) else buf <- wr buf io (zeros len) ;; Ok (buf, out).
(** SecureRandom.cpp:137-143, 168-174: [while (Length >= Buffer.size())]; result: Buffer, engine calls, Output, Offset, Length *)
Fixpoint gen_loop (fuel : nat) (g : nat -> Z) (secure : bool) (buf : list Z) (k : nat) (out : list Z) (off len : nat)
    : res (list Z * nat * list Z * nat * nat) :=
  if (length buf <=? len)%nat then
    match fuel with
    | O => UB
    | S f =>
      r <- buf_move secure (engine_block g k) 0 out off (length buf) ;;
      gen_loop f g secure (fst r) (k + 1) (snd r) (off + length buf) (len - length buf)
    end
  else Ok (buf, k, out, off, len).
(** SecureRandom.cpp:124-154 (vectors), 156-186 (SecureVectors) Generate(Output, Offset, Length) *)
Definition Generate (g : nat -> Z) (secure : bool) (s : rnd) (out : list Z) (off len : nat) : res (list Z * rnd) :=
  let buflen := (length (r_buf s) - r_pos s)%nat in
  if (len =? 0)%nat then Ok (out, s) else
  if (buflen <? len)%nat then
    r <- (if (0 <? buflen)%nat then buf_move secure (r_buf s) (r_pos s) out off buflen else Ok (r_buf s, out)) ;;
    r <- gen_loop len g secure (fst r) (r_blk s) (snd r) off len ;;
    let '(buf, k, out, off, len) := r in
    r <- buf_move secure (engine_block g k) 0 out off len ;;
    Ok (snd r, Rnd (fst r) len (k + 1))
  else
    r <- buf_move secure (r_buf s) (r_pos s) out off len ;;
    Ok (snd r, Rnd (fst r) (r_pos s + len) (r_blk s)).
(** SecureRandom.cpp:188-196 Generate(Output), 116-122 Generate(Length) *)
Definition Generate_all (g : nat -> Z) (secure : bool) (s : rnd) (out : list Z) : res (list Z * rnd) := Generate g secure s out 0 (length out).
(** SecureRandom.cpp:70-114 Fill for 2, 4 and 8-byte elements (SecureVector form: 82-92) *)
Definition Fill (g : nat -> Z) (secure : bool) (w : nat) (s : rnd) (out : list Z) (off n : nat) : res (list Z * rnd) :=
  _ <- guard (off + n <=? length out)%nat InvalidParam ;;
  r <- Generate_all g secure s (zeros (n * w)) ;;
  out <- wr out off (map le_val (chunks w (fst r))) ;;
  Ok (out, snd r).

(** conversion to a signed type of [w] bytes *)
Definition to_signed (w : nat) (x : Z) : Z := if x <? 2 ^ (8 * Z.of_nat w - 1) then x else x - 2 ^ (8 * Z.of_nat w).
(** numeric_limits<T>::max() *)
Definition type_max (signed : bool) (w : nat) : Z := if signed then 2 ^ (8 * Z.of_nat w - 1) - 1 else 2 ^ (8 * Z.of_nat w) - 1.
(** SecureRandom.cpp:198-212 NextChar, NextUChar; 222-228, 278-284 NextInt16, NextUInt16; 334-340, 390-396 NextInt32, NextUInt32;
    446-452, 502-508 NextInt64, NextUInt64 (BitConverter.cpp:8-86, little-endian) *)
Definition Next (g : nat -> Z) (signed : bool) (w : nat) (s : rnd) : res (Z * rnd) :=
  r <- Generate_all g false s (zeros w) ;;
  let x := le_val (fst r) in Ok (if signed then to_signed w x else x, snd r).

(** the loops [do { x = Next(); ret = x % m; } while (x >= SMPMAX || ret < 0)]: one pass ... *)
Definition trial (signed : bool) (m smpmax x : Z) : option Z :=
  let ret := Z.rem x m in
  if ((smpmax <=? x) || (signed && (ret <? 0)))%bool then None else Some ret.
(** ... and at most [fuel] passes; [None]: still looping *)
Fixpoint sample (fuel : nat) (g : nat -> Z) (signed : bool) (w : nat) (m smpmax : Z) (s : rnd) : res (option Z * rnd) :=
  match fuel with
  | O => Ok (None, s)
  | S f =>
    r <- Next g signed w s ;;
    match trial signed m smpmax (fst r) with
    | Some v => Ok (Some v, snd r)
    | None => sample f g signed w m smpmax (snd r)
    end
  end.
(** SecureRandom.cpp:230-249, 286-305, 342-361, 398-417, 454-473, 510-529 Next…(Maximum) *)
Definition NextMax (fuel : nat) (g : nat -> Z) (signed : bool) (w : nat) (mx : Z) (s : rnd) : res (option Z * rnd) :=
  _ <- guard (negb (mx <? 1)) IllegalOperation ;;
  let tm := type_max signed w in
  sample fuel g signed w mx (tm - Z.rem tm mx) s.
(** SMPTHR = Maximum - Minimum + 1 in the type of the arguments: unsigned types wrap; int16_t is computed as int and then
    narrowed (SecureRandom.cpp:262); int32_t and int64_t overflow is undefined (SecureRandom.cpp:374, 486) *)
Definition threshold (signed : bool) (w : nat) (mx mn : Z) : res Z :=
  let t := mx - mn + 1 in
  if signed then
    if (w =? 2)%nat then Ok (to_signed w (t mod 2 ^ (8 * Z.of_nat w)))
    else _ <- safe (t <=? type_max true w) ;; Ok t
  else Ok (t mod 2 ^ (8 * Z.of_nat w)).
(** SecureRandom.cpp:251-276, 307-332, 363-388, 419-444, 475-500, 531-556 Next…(Maximum, Minimum); [% 0] is undefined *)
Definition NextRange (fuel : nat) (g : nat -> Z) (signed : bool) (w : nat) (mx mn : Z) (s : rnd) : res (option Z * rnd) :=
  _ <- guard (negb (mx <? 1)) IllegalOperation ;;
  _ <- guard (negb (mx <? mn)) IllegalOperation ;;
  thr <- threshold signed w mx mn ;;
  _ <- safe (negb (thr =? 0)) ;;
  let tm := type_max signed w in
  r <- sample fuel g signed w thr (tm - Z.rem tm thr) s ;;
  Ok (option_map (fun v => mn + v) (fst r), snd r).
