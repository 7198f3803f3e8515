(** Model of CEX/Keccak.h: the permutations, Absorb, FastAbsorb, Compute, Squeeze, XOFP1600, the string
    encodings, Customize, CXOFP1600 and MACP1600.  Not modelled: Incremental, Finalize (the static one),
    SqueezePartial, XOFR48P1600 (it calls a function that does not exist) and the vector permutations.  State is std::array<uint64_t, 25>: a list of 25 words.  Where the C++
    code copies or xors the bytes of that array, the model goes through the little endian byte view. *)
From Verif Require Import Base Model_IntegerTools Model_Modes Model_Straight Model_KeccakGen Model_Absorb.
Open Scope Z_scope.

(** * Permutations *)
(** Keccak.h:848-3050 PermuteR24P1600U and 3061-7350 PermuteR48P1600U: the generated bodies; the 60 local
    variables start with an arbitrary value (0), all of them are assigned before they are read *)
Definition PermuteR24P1600U (st : list Z) : list Z := slice (exec 64 keccak24_U (zeros 60 ++ st)) 60 25.
Definition PermuteR48P1600U (st : list Z) : list Z := slice (exec 64 keccak48_U (zeros 60 ++ st)) 60 25.
(** Keccak.h:650-838 Permute: [for (i = 0; i < Rounds; i += 2)]; A is copied from and to State, C, D and E
    start with an arbitrary value.  Rounds is one of 12, 24, 36, 48 (enum PermutationRounds, 180-201) *)
Definition Permute_loop (s : list Z) (k : nat) : list Z :=
  firstn 60 (exec 64 keccak_C (s ++ [nth (2 * k) KECCAK_RC48 0; nth (2 * k + 1) KECCAK_RC48 0])).
Definition Permute (rounds : nat) (st : list Z) : list Z :=
  firstn 25 (fold_left Permute_loop (seq 0 ((rounds + 1) / 2)) (st ++ zeros 35)).

(** * Absorbing *)
(** the bytes of a uint64_t array on a little endian machine, and back *)
Definition u64_bytes (st : list Z) : list Z := concat (map (le_bytes 8) st).
Definition bytes_u64 (b : list Z) : list Z := map le_val (chunks 8 b).
(** Keccak.h:460-472 FastAbsorb: MemoryTools::XOR(Input, InOffset, State, 0, InLength), lengths in bytes *)
Definition FastAbsorb (inp : list Z) (io len : nat) (st : list Z) : res (list Z) :=
  b <- wxor inp io (u64_bytes st) 0 len ;; Ok (bytes_u64 b).
(** one iteration of the absorbing loops: FastAbsorb of [rate] bytes, then a permutation *)
Definition absorb_step (perm : list Z -> list Z) (rate : nat) (st inp : list Z) (io : nat) : res (list Z) :=
  st <- FastAbsorb inp io rate st ;; Ok (perm st).
(** [msg[Rate - 1] |= 128]; [Rate - 1] of an empty rate is out of range *)
Definition set_top (rate : nat) (msg : list Z) : res (list Z) :=
  _ <- safe (0 <? rate)%nat ;; x <- get msg (rate - 1) ;; put msg (rate - 1) (Z.lor x 128).
(** Keccak.h:216-241 Absorb; a rate of 0 would not terminate *)
Definition Absorb (rounds : nat) (inp : list Z) (io len rate : nat) (dom : Z) (st : list Z) : res (list Z) :=
  _ <- safe (0 <? rate)%nat ;;
  r <- eager_blocks rate (absorb_step (Permute rounds) rate) len st inp io len ;;
  let '(st, io, len) := r in
  msg <- wcopy inp io (zeros 200) 0 len ;;
  msg <- put msg len dom ;;
  msg <- set_top rate msg ;;
  FastAbsorb msg 0 rate st.
(** Keccak.h:347-357 Compute *)
Definition Compute (rounds : nat) (inp : list Z) (io len : nat) (out : list Z) (oo rate : nat) : res (list Z) :=
  st <- Absorb rounds inp io len rate 6 (zeros 25) ;;
  wcopy (u64_bytes (Permute rounds st)) 0 out oo ((200 - rate) / 2).

(** * Squeezing *)
(** Keccak.h:8433-8452 Squeeze: the new state and the new Output *)
Fixpoint Squeeze (rounds : nat) (st out : list Z) (oo blocks rate : nat) : res (list Z * list Z) :=
  match blocks with
  | O => Ok (st, out)
  | S k =>
    let st := Permute rounds st in
    out <- wcopy (u64_bytes st) 0 out oo rate ;;
    Squeeze rounds st out (oo + rate) k rate
  end.
(** Keccak.h:440-447 and 632-639: [while (Length != 0)]; the fuel is Length *)
Fixpoint squeeze_loop (fuel rounds : nat) (st out : list Z) (oo len rate : nat) : res (list Z) :=
  match fuel with
  | O => Ok out
  | S k =>
    if (len =? 0)%nat then Ok out else
    let diff := Nat.min rate len in
    let st := Permute rounds st in
    out <- wcopy (u64_bytes st) 0 out oo diff ;;
    squeeze_loop k rounds st out (oo + diff) (len - diff) rate
  end.
(** Keccak.h:8484-8531 XOFP1600: [Clear(msg, InLength + 1, Rate - InLength + 1)] clears up to index Rate + 1 *)
Definition XOFP1600 (rounds : nat) (inp : list Z) (io len : nat) (out : list Z) (oo olen rate : nat) : res (list Z) :=
  _ <- safe (0 <? rate)%nat ;;
  r <- eager_blocks rate (absorb_step (Permute rounds) rate) len (zeros 25) inp io len ;;
  let '(st, io, len) := r in
  msg <- wcopy inp io (zeros 200) 0 len ;;
  msg <- put msg len 0x1F ;;
  msg <- wr msg (len + 1) (zeros (rate - len + 1)) ;;
  msg <- set_top rate msg ;;
  st <- FastAbsorb msg 0 rate st ;;
  let blkcnt := (olen / rate)%nat in
  r <- Squeeze rounds st out oo blkcnt rate ;;
  let '(st, out) := r in
  let oo := (oo + blkcnt * rate)%nat in
  let olen := (olen - blkcnt * rate)%nat in
  if (olen =? 0)%nat then Ok out else
  let st := Permute rounds st in
  let fnl := (if (olen mod 8 =? 0)%nat then olen / 8 else olen / 8 + 1)%nat in
  msg <- for_up 0 fnl (fun i msg => x <- get st i ;; Le64ToBytes x msg (8 * i)) msg ;;
  wcopy msg 0 out oo olen.

(** * The SP 800-185 encodings *)
(** the counting loop of LeftEncode and RightEncode *)
Fixpoint enc_count (fuel : nat) (v : Z) : nat :=
  match fuel with O => O | S k => if 0 <? v then S (enc_count k (wshr v 8)) else O end.
Definition enc_n (v : Z) : nat := let n := enc_count 8 v in if (n =? 0)%nat then 1%nat else n.
(** Keccak.h:524-547 LeftEncode: the new Output and the returned length *)
Definition LeftEncode (out : list Z) (oo : nat) (v : Z) : res (list Z * nat) :=
  let n := enc_n v in
  out <- for_up 1 n (fun i out => put out (oo + i) (u8 (wshr v (8 * Z.of_nat (n - i))))) out ;;
  out <- put out oo (Z.of_nat n) ;;
  Ok (out, (n + 1)%nat).
(** Keccak.h:8605-8628 RightEncode *)
Definition RightEncode (out : list Z) (oo : nat) (v : Z) : res (list Z * nat) :=
  let n := enc_n v in
  out <- for_up 1 n (fun i out => put out (oo + (i - 1)) (u8 (wshr v (8 * Z.of_nat (n - i))))) out ;;
  out <- put out (oo + n) (Z.of_nat n) ;;
  Ok (out, (n + 1)%nat).
(** Keccak.h:380-391, 398-409 and 581-592: copy a string byte by byte into pad, absorbing pad when it holds
    exactly Rate bytes; the working state is (pad, offset, State) *)
Definition str_byte (perm : list Z -> list Z) (rate : nat) (s : list Z) (i : nat) (p : list Z * nat * list Z) : res (list Z * nat * list Z) :=
  let '(pad, off, st) := p in
  r <- (if (off =? rate)%nat then st <- FastAbsorb pad 0 rate st ;; Ok (0%nat, perm st) else Ok (off, st)) ;;
  let '(off, st) := r in
  x <- get s i ;;
  pad <- put pad off x ;;
  Ok (pad, (off + 1)%nat, st).
Definition absorb_str (perm : list Z -> list Z) (rate : nat) (s pad : list Z) (off : nat) (st : list Z) : res (list Z * nat * list Z) :=
  for_up 0 (length s) (str_byte perm rate s) (pad, off, st).
(** [Clear(pad, offset, pad.size() - offset)]: beyond the end the length wraps around *)
Definition clear_from (pad : list Z) (off : nat) : res (list Z) :=
  _ <- safe (off <=? length pad)%nat ;; wr pad off (zeros (length pad - off)).
(** round up to a multiple of 8 *)
Definition round8 (off : nat) : nat := if (off mod 8 =? 0)%nat then off else (off + (8 - off mod 8))%nat.
(** Keccak.h:369-417 Customize *)
Definition Customize (rounds : nat) (cust name : list Z) (rate : nat) (st : list Z) : res (list Z) :=
  r <- LeftEncode (zeros 200) 0 (Z.of_nat rate) ;;
  let '(pad, off) := r in
  r <- LeftEncode pad off (u64 (Z.of_nat (length name) * 8)) ;;
  let '(pad, k) := r in
  r <- absorb_str (Permute rounds) rate name pad (off + k) st ;;
  let '(pad, off, st) := r in
  r <- LeftEncode pad off (u64 (Z.of_nat (length cust) * 8)) ;;
  let '(pad, k) := r in
  r <- absorb_str (Permute rounds) rate cust pad (off + k) st ;;
  let '(pad, off, st) := r in
  pad <- clear_from pad off ;;
  st <- FastAbsorb pad 0 (round8 off) st ;;
  Ok (Permute rounds st).
(** Keccak.h:433-448 CXOFP1600 *)
Definition CXOFP1600 (rounds : nat) (key cust name out : list Z) (oo olen rate : nat) : res (list Z) :=
  _ <- safe (0 <? rate)%nat ;;
  st <- Customize rounds cust name rate (zeros 25) ;;
  st <- Absorb rounds key 0 (length key) rate 4 st ;;
  squeeze_loop olen rounds st out oo olen rate.
(** KMAC.cpp:278-313 LoadKey and Keccak.h:575-603: encode the rate and the key, absorb; the last block is xored
    word by word.  The result is (pad, State): MACP1600 goes on to use pad *)
Definition load_key (rounds : nat) (key : list Z) (rate : nat) (st : list Z) : res (list Z * list Z) :=
  r <- LeftEncode (zeros 200) 0 (Z.of_nat rate) ;;
  let '(pad, off) := r in
  r <- LeftEncode pad off (u64 (Z.of_nat (length key) * 8)) ;;
  let '(pad, k) := r in
  r <- absorb_str (Permute rounds) rate key pad (off + k) st ;;
  let '(pad, off, st) := r in
  pad <- clear_from pad off ;;
  st <- for_up 0 (round8 off / 8) (fun k st => w <- LeBytesTo64 pad (8 * k) ;; x <- get st k ;; put st k (Z.lxor x w)) st ;;
  Ok (pad, Permute rounds st).
(** Keccak.h:563-640 MACP1600; the message is Message[Offset .. Offset + Length) *)
Definition MACP1600 (rounds : nat) (key cust msg : list Z) (io len : nat) (out : list Z) (rate : nat) : res (list Z) :=
  _ <- safe (0 <? rate)%nat ;;
  st <- Customize rounds cust [0x4B; 0x4D; 0x41; 0x43] rate (zeros 25) ;;
  r <- load_key rounds key rate st ;;
  let '(pad, st) := r in
  r <- eager_blocks rate (absorb_step (Permute rounds) rate) len st msg io len ;;
  let '(st, io, len) := r in
  pad <- (if (len =? 0)%nat then Ok pad else pad <- wcopy msg io pad 0 len ;; clear_from pad len) ;;
  r <- RightEncode pad len (u64 (Z.of_nat (length out) * 8)) ;;
  let '(pad, blen) := r in
  pad <- put pad (len + blen) 4 ;;
  pad <- set_top rate pad ;;
  st <- FastAbsorb pad 0 rate st ;;
  squeeze_loop (length out) rounds st out 0 (length out) rate.
