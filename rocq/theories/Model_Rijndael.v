(** Model of the Rijndael functions of CEX/Rijndael.h (tables and row shifts: Model_RijndaelGen.v) and of the block
    functions and key schedule of CEX/RHX.cpp without AVX.  The bit-sliced Substitution256 (marked "not working" in
    the source) is not modelled. *)
From Verif Require Import Base Model_IntegerTools Model_Modes Model_Straight Model_RijndaelGen.
Open Scope Z_scope.

(** Rijndael.h:102-109; X is uint32_t *)
Definition Gf256Reduce (x : Z) : Z :=
  let y := wshr x 8 in
  u8 (Z.land (Z.lxor (Z.lxor (Z.lxor (Z.lxor x y) (wshl 32 y 1)) (wshl 32 y 3)) (wshl 32 y 4)) 0xFF).
(** the loop [for (i = 0; i < State.size(); i += 4)] of Rijndael.h:117, 141, 216 *)
Definition columns (f : nat -> list Z -> res (list Z)) (s : list Z) : res (list Z) :=
  for_up 0 ((length s + 3) / 4) (fun c s => f (4 * c)%nat s) s.
(** Rijndael.h:111-126 *)
Definition KeyAddition (s rk : list Z) (off : nat) : res (list Z) :=
  columns (fun i s =>
    k <- get rk (off + i / 4) ;;
    a <- get s i ;; s <- put s i (Z.lxor a (u8 (wshr k 24))) ;;
    a <- get s (i + 1) ;; s <- put s (i + 1) (Z.lxor a (Z.land (u8 (wshr k 16)) 0xFF)) ;;
    a <- get s (i + 2) ;; s <- put s (i + 2) (Z.lxor a (Z.land (u8 (wshr k 8)) 0xFF)) ;;
    a <- get s (i + 3) ;; put s (i + 3) (Z.lxor a (Z.land (u8 k) 0xFF))) s.
(** Rijndael.h:143-146 and 160-163, 218-221 and 228-231: State[i..i+3] is read, and then written with a function of the four values *)
Definition column (f : Z -> Z -> Z -> Z -> Z * Z * Z * Z) (i : nat) (s : list Z) : res (list Z) :=
  s0 <- get s i ;; s1 <- get s (i + 1) ;; s2 <- get s (i + 2) ;; s3 <- get s (i + 3) ;;
  let '(t0, t1, t2, t3) := f s0 s1 s2 s3 in
  s <- put s i t0 ;; s <- put s (i + 1) t1 ;; s <- put s (i + 2) t2 ;; put s (i + 3) t3.
(** a chain of exclusive ors, as in Rijndael.h:148 *)
Definition xs (l : list Z) : Z := fold_left Z.lxor (tl l) (hd 0 l).
(** Rijndael.h:128-165 *)
Definition InvMixColumns (s : list Z) : res (list Z) :=
  columns (column (fun s0 s1 s2 s3 =>
    let l := wshl 32 in
    let t0 := xs [l s0 1; l s0 2; l s0 3; s1; l s1 1; l s1 3; s2; l s2 2; l s2 3; s3; l s3 3] in
    let t1 := xs [s0; l s0 3; l s1 1; l s1 2; l s1 3; s2; l s2 1; l s2 3; s3; l s3 2; l s3 3] in
    let t2 := xs [s0; l s0 2; l s0 3; s1; l s1 3; l s2 1; l s2 2; l s2 3; s3; l s3 1; l s3 3] in
    let t3 := xs [s0; l s0 1; l s0 3; s1; l s1 2; l s1 3; s2; l s2 3; l s3 1; l s3 2; l s3 3] in
    (Gf256Reduce t0, Gf256Reduce t1, Gf256Reduce t2, Gf256Reduce t3))) s.
(** Rijndael.h:167-190, 235-263, 265-302, 304-391: the assignments are executed on an array of exactly [n] bytes *)
Definition shift_with (p : prog) (n : nat) (s : list Z) : res (list Z) :=
  _ <- safe (length s =? n)%nat ;; Ok (firstn n (exec 8 p (s ++ [0]))).
Definition InvShiftRows : list Z -> res (list Z) := shift_with InvShiftRows_prog 16.
Definition ShiftRows128 : list Z -> res (list Z) := shift_with ShiftRows128_prog 16.
Definition ShiftRows256 : list Z -> res (list Z) := shift_with ShiftRows256_prog 32.
Definition ShiftRows512 : list Z -> res (list Z) := shift_with ShiftRows512_prog 64.
(** Rijndael.h:192-201 InvSubBytes, :393-402 Substitution *)
Definition substitute (t s : list Z) : res (list Z) :=
  for_up 0 (length s) (fun i s => a <- get s i ;; b <- get t (Z.to_nat a) ;; put s i b) s.
Definition InvSubBytes : list Z -> res (list Z) := substitute ISBox.
Definition Substitution : list Z -> res (list Z) := substitute SBox.
(** Rijndael.h:203-232; [State[i] = t ^ ((~(t >> 8) + 1) & 0x11B)] is cut to a byte *)
Definition MixColumns (s : list Z) : res (list Z) :=
  columns (column (fun s0 s1 s2 s3 =>
    let l := wshl 32 in
    let t0 := xs [l s0 1; s1; l s1 1; s2; s3] in
    let t1 := xs [s0; l s1 1; s2; l s2 1; s3] in
    let t2 := xs [s0; s1; l s2 1; s3; l s3 1] in
    let t3 := xs [s0; l s0 1; s1; s2; l s3 1] in
    let f t := u8 (Z.lxor t (Z.land (u32 (wnot 32 (wshr t 8) + 1)) 0x11B)) in
    (f t0, f t1, f t2, f t3))) s.
(** Rijndael.h:677-684 SubWord(X, SBox) *)
Definition SubWord (x : Z) : res Z :=
  a <- get SBox (Z.to_nat (wshr x 24)) ;; b <- get SBox (Z.to_nat (Z.land (wshr x 16) 0xFF)) ;;
  c <- get SBox (Z.to_nat (Z.land (wshr x 8) 0xFF)) ;; d <- get SBox (Z.to_nat (Z.land x 0xFF)) ;;
  Ok (Z.lor (Z.lor (Z.lor (wshl 32 a 24) (wshl 32 b 16)) (wshl 32 c 8)) d).

(** ** key schedule *)
(** RHX.cpp:699, 549: RoundKeys[i] = RoundKeys[a] ^ RoundKeys[b] *)
Definition xor_key (rk : list Z) (i a b : nat) : res (list Z) :=
  x <- get rk a ;; y <- get rk b ;; put rk i (Z.lxor x y).
(** RHX.cpp:697-705 and 714-722: the three assignments that end both functions *)
Definition xor_three (rk : list Z) (i off : nat) : res (list Z) :=
  rk <- xor_key rk (i + 1) (i + 1 - off) i ;;
  rk <- xor_key rk (i + 2) (i + 2 - off) (i + 1) ;;
  xor_key rk (i + 3) (i + 3 - off) (i + 2).
(** RHX.cpp:689-706 *)
Definition ExpandRotBlock (rk : list Z) (i off rc : nat) : res (list Z) :=
  x <- get rk (i - off) ;; p <- get rk (i - 1) ;;
  w <- SubWord (Z.lor (wshl 32 p 8) (Z.land (wshr p 24) 0xFF)) ;;
  r <- get Rcon rc ;;
  rk <- put rk i (Z.lxor (Z.lxor x w) r) ;;
  xor_three rk i off.
(** RHX.cpp:708-723 *)
Definition ExpandSubBlock (rk : list Z) (i off : nat) : res (list Z) :=
  p <- get rk (i - 1) ;; w <- SubWord p ;; x <- get rk (i - off) ;;
  rk <- put rk i (Z.lxor w x) ;;
  xor_three rk i off.
(** RHX.cpp:514-521, 540-545, 573-576: RoundKeys[i] = BeBytesTo32(Key, 4 i) for i < n *)
Definition load_key (key rk : list Z) (n : nat) : res (list Z) :=
  for_up 0 n (fun i rk => w <- BeBytesTo32 key (4 * i) ;; put rk i w) rk.
(** RHX.cpp:496-591 StandardExpand: (Rounds, RoundKeys); [old]: RoundKeys before the call *)
Definition StandardExpand (old key : list Z) : res (nat * list Z) :=
  let kw := (length key / 4)%nat in
  let rounds := (kw + 6)%nat in
  let n := (4 * (rounds + 1))%nat in
  let rk := firstn n old ++ zeros (n - length old) in
  rk <- (if (kw =? 8)%nat then
    rk <- load_key key rk 8 ;;
    rk <- ExpandRotBlock rk 8 8 1 ;; rk <- ExpandSubBlock rk 12 8 ;;
    rk <- ExpandRotBlock rk 16 8 2 ;; rk <- ExpandSubBlock rk 20 8 ;;
    rk <- ExpandRotBlock rk 24 8 3 ;; rk <- ExpandSubBlock rk 28 8 ;;
    rk <- ExpandRotBlock rk 32 8 4 ;; rk <- ExpandSubBlock rk 36 8 ;;
    rk <- ExpandRotBlock rk 40 8 5 ;; rk <- ExpandSubBlock rk 44 8 ;;
    rk <- ExpandRotBlock rk 48 8 6 ;; rk <- ExpandSubBlock rk 52 8 ;;
    ExpandRotBlock rk 56 8 7
  else if (kw =? 6)%nat then
    rk <- load_key key rk 6 ;;
    rk <- ExpandRotBlock rk 6 6 1 ;; rk <- xor_key rk 10 4 9 ;; rk <- xor_key rk 11 5 10 ;;
    rk <- ExpandRotBlock rk 12 6 2 ;; rk <- xor_key rk 16 10 15 ;; rk <- xor_key rk 17 11 16 ;;
    rk <- ExpandRotBlock rk 18 6 3 ;; rk <- xor_key rk 22 16 21 ;; rk <- xor_key rk 23 17 22 ;;
    rk <- ExpandRotBlock rk 24 6 4 ;; rk <- xor_key rk 28 22 27 ;; rk <- xor_key rk 29 23 28 ;;
    rk <- ExpandRotBlock rk 30 6 5 ;; rk <- xor_key rk 34 28 33 ;; rk <- xor_key rk 35 29 34 ;;
    rk <- ExpandRotBlock rk 36 6 6 ;; rk <- xor_key rk 40 34 39 ;; rk <- xor_key rk 41 35 40 ;;
    rk <- ExpandRotBlock rk 42 6 7 ;; rk <- xor_key rk 46 40 45 ;; rk <- xor_key rk 47 41 46 ;;
    ExpandRotBlock rk 48 6 8
  else
    rk <- load_key key rk 4 ;;
    rk <- ExpandRotBlock rk 4 4 1 ;; rk <- ExpandRotBlock rk 8 4 2 ;; rk <- ExpandRotBlock rk 12 4 3 ;;
    rk <- ExpandRotBlock rk 16 4 4 ;; rk <- ExpandRotBlock rk 20 4 5 ;; rk <- ExpandRotBlock rk 24 4 6 ;;
    rk <- ExpandRotBlock rk 28 4 7 ;; rk <- ExpandRotBlock rk 32 4 8 ;; rk <- ExpandRotBlock rk 36 4 9 ;;
    ExpandRotBlock rk 40 4 10) ;;
  Ok (rounds, rk).

(** ** blocks; [inp = None]: Input and Output are the same array *)
(** RHX.cpp:753-778 *)
Definition RHX_Encrypt128 (rounds : nat) (rk : list Z) (inp : option (list Z)) (io : nat) (out : list Z) (oo : nat) : res (list Z) :=
  s <- wcopy (src inp out) io (zeros 16) 0 16 ;;
  s <- KeyAddition s rk 0 ;;
  s <- for_up 1 (rounds - 1) (fun i s =>
    s <- Substitution s ;; s <- ShiftRows128 s ;; s <- MixColumns s ;; KeyAddition s rk (4 * i)) s ;;
  s <- Substitution s ;; s <- ShiftRows128 s ;; s <- KeyAddition s rk (4 * rounds) ;;
  wcopy s 0 out oo 16.
(** RHX.cpp:725-751; with no rounds the loop counter wraps *)
Definition RHX_Decrypt128 (rounds : nat) (rk : list Z) (inp : option (list Z)) (io : nat) (out : list Z) (oo : nat) : res (list Z) :=
  s <- wcopy (src inp out) io (zeros 16) 0 16 ;;
  s <- KeyAddition s rk (4 * rounds) ;;
  _ <- safe (negb (rounds =? 0)%nat) ;;
  s <- for_up 0 (rounds - 1) (fun k s =>
    let i := (rounds - 1 - k)%nat in
    s <- InvShiftRows s ;; s <- InvSubBytes s ;; s <- KeyAddition s rk (4 * i) ;; InvMixColumns s) s ;;
  s <- InvShiftRows s ;; s <- InvSubBytes s ;; s <- KeyAddition s rk 0 ;;
  wcopy s 0 out oo 16.
