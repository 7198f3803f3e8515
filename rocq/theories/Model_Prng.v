(** Model of CEX/BCR.cpp, CSR.cpp, HCR.cpp and PrngBase.cpp: the buffered generators over BCG, CSG and HCG.  The generator below
    (IDrbg) is an endless sequence of bytes [g] of which every m_rngGenerator->Generate(Buffer, 0, 1024) takes the next 1024;
    what Initialize makes of the new key in Reset is part of [g]; a generator that throws is not modelled (see C74, C76, C77). *)
From Verif Require Import Base Model_Modes Model_SecureRandom.
Open Scope Z_scope.

(** BCR.cpp:109-136, CSR.cpp:110-136, HCR.cpp:113-138 Reset.  [avail]: pvd->IsAvailable();
    ErrorCodes::NoAccess is [OtherError].  Position is left *)
Definition Prng_Reset (g : nat -> Z) (avail : bool) (s : rnd) : res rnd :=
  _ <- guard avail OtherError ;; Ok (Rnd (engine_block g (r_blk s)) (r_pos s) (r_blk s + 1)).
(** the constructors BCR.cpp:45-53, CSR.cpp:48-56, HCR.cpp:49-57 with a legal type and an available provider *)
Definition Prng_new (g : nat -> Z) : rnd := Rnd (engine_block g 0) 0 1.
(** the private Generate, BCR.cpp:140-171, CSR.cpp:140-171, HCR.cpp:142-173, is the text of SecureRandom.cpp:124-154: [Generate g false] *)
(** BCR.cpp:73-79, CSR.cpp:74-80, HCR.cpp:77-83 Generate(std::vector Output) *)
Definition Prng_GenV (g : nat -> Z) (s : rnd) (out : list Z) : res (list Z * rnd) :=
  r <- Generate g false s (zeros (length out)) 0 (length out) ;;
  out <- wcopy (fst r) 0 out 0 (length out) ;; Ok (out, snd r).
(** BCR.cpp:81-92 ([own] true), CSR.cpp:82-93, HCR.cpp:85-96 ([own] false) Generate(std::vector Output, Offset, Length): CSR and HCR
    ask for Output.size() bytes in a temporary of Length bytes.  Output.size() - Offset is a size_t *)
Definition Prng_GenVO (own : bool) (g : nat -> Z) (s : rnd) (out : list Z) (off len : nat) : res (list Z * rnd) :=
  _ <- guard (Z.of_nat len <=? (Z.of_nat (length out) - Z.of_nat off) mod 2 ^ 64) InvalidSize ;;
  r <- Generate g false s (zeros len) 0 (if own then len else length out) ;;
  out <- wcopy (fst r) 0 out off len ;; Ok (out, snd r).
(** BCR.cpp:94-97, CSR.cpp:95-98, HCR.cpp:98-101 Generate(SecureVector Output) *)
Definition Prng_GenS (g : nat -> Z) (s : rnd) (out : list Z) : res (list Z * rnd) := Generate g false s out 0 (length out).
(** BCR.cpp:99-107, CSR.cpp:100-108, HCR.cpp:103-111 Generate(SecureVector Output, Offset, Length) *)
Definition Prng_GenSO (g : nat -> Z) (s : rnd) (out : list Z) (off len : nat) : res (list Z * rnd) :=
  _ <- guard (Z.of_nat len <=? (Z.of_nat (length out) - Z.of_nat off) mod 2 ^ 64) InvalidSize ;; Generate g false s out off len.
(** PrngBase.cpp:37-74 NextUInt16, NextUInt32, NextUInt64 ([w] = 2, 4, 8), little-endian *)
Definition Prng_Next (g : nat -> Z) (w : nat) (s : rnd) : res (Z * rnd) :=
  r <- Prng_GenV g s (zeros w) ;; Ok (le_val (fst r), snd r).
