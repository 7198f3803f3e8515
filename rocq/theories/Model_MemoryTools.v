(** Model of CEX/MemoryTools.h for byte arrays (INPLEN = OTPLEN = ELMLEN = 1).
    [w] is SMDBLK, the SIMD block width in bytes of the build: 16 (AVX), 32 (AVX2),
    64 (AVX512); w = 0 stands for a build without SIMD.
    Input and Output are distinct arrays here; aliased calls are modelled where a
    client makes them. *)
From Verif Require Import Base.
Open Scope Z_scope.

(** element-wise combination of two equally long lists *)
Fixpoint zipw (f : Z -> Z -> Z) (a b : list Z) : list Z :=
  match a, b with x :: a', y :: b' => f x y :: zipw f a' b' | _, _ => [] end.

(** number of bytes handled by the vector loop:
    [if (Length >= SMDBLK) ALNLEN = Length - (Length % SMDBLK)] *)
Definition alnlen (w len : nat) : nat :=
  match w with O => 0 | _ => if (w <=? len)%nat then (len - len mod w)%nat else 0 end.

(** one vector block: load both, combine, store; AND128/OR128/XOR128 and wider
    (MemoryTools.h:217-234, 1157-1174, 1463-1550; the intrinsics are the bitwise operations) *)
Definition vec_block (f : Z -> Z -> Z) (w : nat) (inp : list Z) (io : nat) (out : list Z) (oo : nat) : res (list Z) :=
  a <- rd inp io w ;; b <- rd out oo w ;; wr out oo (zipw f a b).

(** the [while (pctr != ALNLEN)] loops; AND :181-200, OR :1121-1140, XOR :1380-1396 *)
Definition vec_loop (f : Z -> Z -> Z) (w : nat) (inp : list Z) (io : nat) (out : list Z) (oo len : nat) : res (list Z) :=
  for_up 0 (alnlen w len / w) (fun i out => vec_block f w inp (io + i * w) out (oo + i * w)) out.

(** MemoryTools.h:1563-1577 XorPartial *)
Definition XorPartial (inp : list Z) (io : nat) (out : list Z) (oo len : nat) : res (list Z) :=
  for_up 0 len (fun i out =>
    a <- get inp (io + i) ;; b <- get out (oo + i) ;; put out (oo + i) (Z.lxor b a)) out.

(** MemoryTools.h:1357-1402 XOR *)
Definition MemXOR (w : nat) (inp : list Z) (io : nat) (out : list Z) (oo len : nat) : res (list Z) :=
  out <- vec_loop Z.lxor w inp io out oo len ;;
  let pctr := alnlen w len in
  if (pctr =? len)%nat then Ok out
  else XorPartial inp (io + pctr) out (oo + pctr) (len - pctr).

(** the remainder loops of AND :202-205 and OR :1142-1145:
    the loop variable i is never used as an index *)
Definition const_tail (f : Z -> Z -> Z) (pctr : nat) (inp : list Z) (io : nat) (out : list Z) (oo len : nat) : res (list Z) :=
  for_up 0 (len - pctr) (fun _ out =>
    a <- get inp (io + pctr) ;; b <- get out (oo + pctr) ;; put out (oo + pctr) (f b a)) out.

(** MemoryTools.h:158-207 AND *)
Definition MemAND (w : nat) (inp : list Z) (io : nat) (out : list Z) (oo len : nat) : res (list Z) :=
  match len with O => Ok out | _ =>
    out <- vec_loop Z.land w inp io out oo len ;; const_tail Z.land (alnlen w len) inp io out oo len end.
(** MemoryTools.h:1098-1147 OR *)
Definition MemOR (w : nat) (inp : list Z) (io : nat) (out : list Z) (oo len : nat) : res (list Z) :=
  match len with O => Ok out | _ =>
    out <- vec_loop Z.lor w inp io out oo len ;; const_tail Z.lor (alnlen w len) inp io out oo len end.

(** MemoryTools.h:1157-1174 OR128, the branch compiled without AVX: uses &= *)
Definition OR128_portable (inp : list Z) (io : nat) (out : list Z) (oo : nat) : res (list Z) :=
  for_up 0 16 (fun i out =>
    a <- get inp (io + i) ;; b <- get out (oo + i) ;; put out (oo + i) (Z.land b a)) out.
(** MemoryTools.h:217-234 AND128, portable branch *)
Definition AND128_portable := OR128_portable.
(** MemoryTools.h:1463-1480 XOR128, portable branch *)
Definition XOR128_portable (inp : list Z) (io : nat) (out : list Z) (oo : nat) : res (list Z) :=
  XorPartial inp io out oo 16.

(** MemoryTools.h:645-690 and 704-750 Copy: vector blocks then memcpy of the rest *)
Definition MemCopy (w : nat) (inp : list Z) (io : nat) (out : list Z) (oo len : nat) : res (list Z) :=
  match len with O => Ok out | _ =>
    out <- vec_loop (fun a _ => a) w inp io out oo len ;;
    let pctr := alnlen w len in
    if (pctr =? len)%nat then Ok out
    else d <- rd inp (io + pctr) (len - pctr) ;; wr out (oo + pctr) d end.

(** MemoryTools.h:1237-1281 SetValue and 299-341 Clear (value 0) *)
Definition MemSet (w : nat) (out : list Z) (o len : nat) (v : Z) : res (list Z) :=
  match len with O => Ok out | _ =>
    out <- for_up 0 (alnlen w len / w) (fun i out => wr out (o + i * w) (repeat v w)) out ;;
    let pctr := alnlen w len in
    if (pctr =? len)%nat then Ok out else wr out (o + pctr) (repeat v (len - pctr)) end.
Definition MemClear (w : nat) (out : list Z) (o len : nat) : res (list Z) := MemSet w out o len 0.

(** MemoryTools.h:1579-1641 XorPad: every byte xored with N; the vector loop and the
    byte loop together cover [0, Output.size()) *)
Definition XorPad (w : nat) (out : list Z) (n : Z) : res (list Z) :=
  let aln := match w with O => 0%nat | _ => (length out / w * w)%nat end in
  out1 <- for_up 0 (aln / w) (fun i out =>
    b <- rd out (i * w) w ;; wr out (i * w) (map (fun x => Z.lxor x n) b)) out ;;
  for_up 0 (length out - aln) (fun i out =>
    b <- get out (aln + i) ;; put out (aln + i) (Z.lxor b n)) out1.
