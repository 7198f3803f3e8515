(** Model of CEX/SHA3256.cpp and CEX/SHA3512.cpp, sequential mode (IsParallel() = false).  The two files differ
    only in the rate (136, 72) and the digest size (32, 64), which are parameters here. *)
From Verif Require Import Base Model_Modes Model_Absorb Model_Keccak.
Open Scope Z_scope.

Section sha3.
Context (rate n : nat).
(** the digest object: m_dgtState[0].H, m_msgBuffer, m_msgLength *)
Definition sha3_obj : Type := list Z * list Z * nat.
(** SHA3256.cpp:37-52 the constructor and :223-241 Reset, sequential *)
Definition SHA3_new : sha3_obj := (zeros 25, zeros rate, 0%nat).
(** SHA3256.cpp:263-355 Update, sequential branch; :359-366 Permute is the unrolled 24 round function *)
Definition SHA3_Update : sha3_obj -> list Z -> nat -> nat -> res sha3_obj := eager_update rate (absorb_step PermuteR24P1600U rate).
(** SHA3256.cpp:368-372 HashFinal *)
Definition SHA3_HashFinal (inp : list Z) (io len : nat) (st : list Z) : res (list Z) :=
  st <- Absorb 24 inp io len rate 6 st ;; Ok (PermuteR24P1600U st).
(** SHA3256.cpp:133-209 Finalize, sequential branch; `Output.size() - OutOffset` is unsigned.
    IntegerTools.h:1466-1481 LeULL256ToBlock, :1492-1511 LeULL512ToBlock copy 32 or 64 bytes of the state *)
Definition SHA3_Finalize (o : sha3_obj) (out : list Z) (oo : nat) : res (sha3_obj * list Z) :=
  let '(st, buf, pos) := o in
  _ <- guard (negb ((oo <=? length out)%nat && (length out - oo <? n)%nat)) InvalidSize ;;
  buf <- (if (pos =? length buf)%nat then Ok buf else clear_from buf pos) ;;
  st <- SHA3_HashFinal buf 0 pos st ;;
  out <- wcopy (u64_bytes st) 0 out oo n ;;
  Ok (SHA3_new, out).
(** SHA3256.cpp:122-131 Compute *)
Definition SHA3_Compute (o : sha3_obj) (inp out : list Z) : res (sha3_obj * list Z) :=
  _ <- guard (negb (length out <? n)%nat) InvalidSize ;;
  o <- SHA3_Update o inp 0 (length inp) ;;
  SHA3_Finalize o out 0.
End sha3.
(** SHA3256.cpp: Keccak.h:150 KECCAK256_RATE_SIZE = 136, digest size 32 *)
Definition SHA3256_new := SHA3_new 136.
Definition SHA3256_Update := SHA3_Update 136.
Definition SHA3256_Finalize := SHA3_Finalize 136 32.
Definition SHA3256_Compute := SHA3_Compute 136 32.
(** SHA3512.cpp: Keccak.h:155 KECCAK512_RATE_SIZE = 72, digest size 64 *)
Definition SHA3512_new := SHA3_new 72.
Definition SHA3512_Update := SHA3_Update 72.
Definition SHA3512_Finalize := SHA3_Finalize 72 64.
Definition SHA3512_Compute := SHA3_Compute 72 64.
