(** Model of CEX/KPA.cpp: the Keccak-based parallel MAC, the portable little endian branch (no AVX2, no AVX512).
    The key and salt arrays of the ISymmetricKey argument are passed directly; KeySizes() reports their sizes.
    CEX_ENFORCE_LEGALKEY is not defined. *)
From Verif Require Import Base Model_IntegerTools Model_Modes Model_Absorb Model_Keccak.
Open Scope Z_scope.

(** KpaModes.h:12-30 *)
Inductive kpa_mode := KPANone | KPA128 | KPA256 | KPA512.
(** KPA.cpp:118-120, the TagSize given to MacBase: [... : KbaModeType == KpaModes::KPA512], a bool used as a number *)
Definition kpa_tagsize (m : kpa_mode) : nat :=
  match m with KPA128 => 16 | KPA256 => 32 | KPA512 => 1 | KPANone => 0 end%nat.
(** KPA.h:86-90: KPA_PARALLELISM, KPA_128_KEY_SIZE, KPA_256_KEY_SIZE; KPA.cpp:116, the minimum key size *)
Definition KPA_PARALLELISM : nat := 8.
Definition KPA_128_KEY_SIZE : nat := 16.
Definition KPA_256_KEY_SIZE : nat := 32.
Definition KPA_MIN_KEY : nat := 16.
(** KPA.cpp:24-57 KpaState: the eight leaves and Processed, Buffer, Position; Rate; IsInitialized.  MacSize and
    KmacMode are not read by the functions below *)
Record kpa := Kpa { kp_st : list (list Z) * nat * list Z * nat; kp_rate : nat; kp_init : bool }.
(** the constructor, KPA.cpp:104-124; Rate starts as the block size of the mode *)
Definition KPA_new (m : kpa_mode) : res kpa :=
  match m with
  | KPANone => Throw InvalidParam
  | _ => Ok (Kpa (repeat (zeros 25) 8, 0%nat, zeros 1600, 0%nat) (match m with KPA128 => 168 | KPA256 => 136 | _ => 72 end)%nat false)
  end.
(** one result for every element, in order *)
Fixpoint each {A B : Type} (f : A -> res B) (l : list A) : res (list B) :=
  match l with [] => Ok [] | x :: t => y <- f x ;; ys <- each f t ;; Ok (y :: ys) end.
(** KPA.cpp:81-99 and 454-458 Reset: [Clear(State[i], 0, State[i].size())] clears 25 bytes of the 200 *)
Definition KPA_Reset (o : kpa) : kpa :=
  let '(leaves, _, buf, _) := kp_st o in
  Kpa (map (fun st => bytes_u64 (splice (u64_bytes st) 0 (zeros 25))) leaves, 0%nat, zeros (length buf), 0%nat) (kp_rate o) false.
(** KPA.cpp:513-575 FastAbsorbx8 and 647-660 KpaPermutex8 *)
Definition FastAbsorbx8 (rate : nat) (leaves : list (list Z)) (inp : list Z) (io : nat) : res (list (list Z)) :=
  each (fun p => FastAbsorb inp (io + fst p * rate) rate (snd p)) (combine (seq 0 KPA_PARALLELISM) leaves).
Definition KpaPermutex8 (leaves : list (list Z)) : list (list Z) := map (Permute 12) leaves.
(** KPA.cpp:484-486 and 495-497: one block of the Update loops; Processed is kept exact, it wraps only where it is encoded *)
Definition kpa_block (rate : nat) (s : list (list Z) * nat) (inp : list Z) (io : nat) : res (list (list Z) * nat) :=
  l <- FastAbsorbx8 rate (fst s) inp io ;;
  Ok (KpaPermutex8 l, (snd s + rate * KPA_PARALLELISM)%nat).
(** KPA.cpp:327-353 and 357-384: one string of the key schedule; pad and tmps *)
Definition kpa_stage (rate : nat) (s : list Z) (p : list Z * list Z) : res (list Z * list Z) :=
  let '(pad, st) := p in
  r <- LeftEncode pad 0 (Z.of_nat rate) ;;
  let '(pad, off) := r in
  r <- LeftEncode pad off (u64 (8 * Z.of_nat (length s))) ;;
  let '(pad, k) := r in
  r <- absorb_str (Permute 12) rate s pad (off + k) st ;;
  let '(pad, off, st) := r in
  if (off =? 0)%nat then Ok (pad, st) else
  _ <- safe (off <=? rate)%nat ;;
  pad <- wr pad off (zeros (rate - off)) ;;
  st <- FastAbsorb pad 0 rate st ;;
  Ok (pad, Permute 12 st).
(** KPA.cpp:435-445: leaf number i; algb is rebuilt for every leaf, its first two bytes are overwritten each time *)
Definition kpa_leaf (tmps : list Z) (i : nat) : res (list Z) :=
  algb <- Be16ToBytes (Z.of_nat i + 1) [0x00; 0x00; 0x4B; 0x42; 0x41; 0xAD; 0x31; 0x32] 0 ;;
  algn <- BeBytesTo64 algb 0 ;;
  x <- get tmps 0 ;;
  put tmps 0 (Z.lxor x algn).
(** KPA.cpp:274-452 Initialize; the minimum salt size is 0, so the salt check never fails *)
Definition KPA_Initialize (o : kpa) (key iv : list Z) : res kpa :=
  _ <- guard (negb (length key <? KPA_MIN_KEY)%nat) InvalidKey ;;
  let o := if kp_init o then KPA_Reset o else o in
  let '(_, _, buf, _) := kp_st o in
  let rate := (if (length key =? KPA_128_KEY_SIZE) then 168 else if (length key =? KPA_256_KEY_SIZE) then 136 else 72)%nat in
  r <- (if (length iv =? 0)%nat then Ok (zeros 200, zeros 25) else kpa_stage rate iv (zeros 200, zeros 25)) ;;
  let '(pad, tmps) := r in
  r <- (if (length key =? 0)%nat then Ok (pad, tmps) else
          pad <- wr pad 0 (zeros rate) ;; kpa_stage rate key (pad, tmps)) ;;
  let '(pad, tmps) := r in
  leaves <- each (kpa_leaf tmps) (seq 0 KPA_PARALLELISM) ;;
  Ok (Kpa (KpaPermutex8 leaves, 0%nat, buf, 0%nat) rate true).
(** KPA.cpp:460-509 Update *)
Definition KPA_Update (o : kpa) (inp : list Z) (io len : nat) : res kpa :=
  _ <- guard (kp_init o) NotInitialized ;;
  _ <- guard (negb ((io <=? length inp)%nat && (length inp - io <? len)%nat)) InvalidSize ;;
  s <- eager_update (kp_rate o * KPA_PARALLELISM) (kpa_block (kp_rate o)) (kp_st o) inp io len ;;
  Ok (Kpa s (kp_rate o) true).
(** KPA.cpp:577-607 KpaAbsorbLeaves *)
Definition KpaAbsorbLeaves (st : list Z) (rate : nat) (inp : list Z) (io len : nat) : res (list Z) :=
  r <- eager_blocks rate (absorb_step (Permute 12) rate) len st inp io len ;;
  let '(st, io, len) := r in
  if (len =? 0)%nat then Ok st else
  st <- FastAbsorb inp io len st ;; Ok (Permute 12 st).
(** KPA.cpp:223-228: [Copy(State[i], 0, fbuf, i * HASHLEN, HASHLEN)] *)
Fixpoint kpa_collect (h i : nat) (leaves : list (list Z)) (fbuf : list Z) : res (list Z) :=
  match leaves with
  | [] => Ok fbuf
  | st :: t => fbuf <- wcopy (u64_bytes st) 0 fbuf (i * h) h ;; kpa_collect h (S i) t fbuf
  end.
(** KPA.cpp:178-272 Finalize into a SecureVector: the object and Output.  OutOffset is used by the size check only; an
    offset beyond the end makes the check wrap around.  The squeezed blocks are copied from the state, the detour
    through Buffer (250-264, 662-683) is left out: Buffer is cleared afterwards *)
Definition KPA_FinalizeS (m : kpa_mode) (o : kpa) (out : list Z) (oo : nat) : res (kpa * list Z) :=
  _ <- guard (kp_init o) NotInitialized ;;
  _ <- guard (negb ((oo <=? length out)%nat && (length out - oo <? kpa_tagsize m)%nat)) InvalidSize ;;
  let '(leaves, proc, buf, pos) := kp_st o in
  let rate := kp_rate o in
  buf <- (if (pos =? length buf)%nat then Ok buf else clear_from buf pos) ;;
  let h := (if (rate =? 168) then 64 else if (rate =? 136) then 32 else 64)%nat in
  leaves <- (if (pos =? 0)%nat then Ok leaves else
               buf <- clear_from buf pos ;;
               l <- FastAbsorbx8 rate leaves buf 0 ;; Ok (KpaPermutex8 l)) ;;
  let proc := (proc + pos)%nat in
  fbuf <- kpa_collect h 0 leaves (zeros (KPA_PARALLELISM * 64)) ;;
  pst <- KpaAbsorbLeaves (zeros 25) rate fbuf 0 (KPA_PARALLELISM * h) ;;
  let buf := zeros (length buf) in
  r <- RightEncode (zeros 16) 0 (u64 (8 * Z.of_nat (length out))) ;;
  let '(prcb, bitlen) := r in
  r <- RightEncode prcb bitlen (u64 (8 * Z.of_nat proc)) ;;
  let '(prcb, k) := r in
  let bitlen := (bitlen + k)%nat in
  buf <- wcopy prcb 0 buf 0 bitlen ;;
  buf <- put buf bitlen 0x41 ;;
  buf <- set_top rate buf ;;
  pst <- FastAbsorb buf 0 rate pst ;;
  out <- squeeze_loop (length out) 12 pst out 0 (length out) rate ;;
  Ok (Kpa (leaves, 0%nat, zeros (length buf), 0%nat) rate true, out).
(** KPA.cpp:168-176 Finalize into a vector; an offset beyond the end asks for an impossible size *)
Definition KPA_Finalize (m : kpa_mode) (o : kpa) (out : list Z) (oo : nat) : res (kpa * list Z) :=
  _ <- guard (oo <=? length out)%nat OtherError ;;
  r <- KPA_FinalizeS m o (zeros (length out - oo)) 0 ;;
  let '(o, tmph) := r in
  out <- wcopy tmph 0 out oo (length tmph) ;;
  Ok (o, out).
(** KPA.cpp:153-166 Compute *)
Definition KPA_Compute (m : kpa_mode) (o : kpa) (inp out : list Z) : res (kpa * list Z) :=
  _ <- guard (kp_init o) NotInitialized ;;
  _ <- guard (negb (length out <? kpa_tagsize m)%nat) InvalidSize ;;
  o <- KPA_Update o inp 0 (length inp) ;;
  KPA_Finalize m o out 0.
