(** Model of CEX/SHA2.h (block functions), CEX/SHA2256.cpp and CEX/SHA2512.cpp. *)
From Verif Require Import Base Model_IntegerTools Model_Modes Model_Straight Model_SHA2Gen Model_Absorb.
Open Scope Z_scope.

(** * Block functions *)
(** SHA2.h:381-396 / 1321-1336: the word loads, IntegerTools::BeBytesTo32/64(Input, InOffset + size * i) *)
Definition load_be (size n : nat) (inp : list Z) (io : nat) : res (list Z) :=
  for_up 0 n (fun i ws => x <- (if (size =? 4)%nat then BeBytesTo32 inp (io + size * i)%nat else BeBytesTo64 inp (io + size * i)%nat) ;; Ok (ws ++ [x])) [].
(** SHA2.h:343-649 PermuteR64P512U, the generated body run on State and the loaded words; the 25 local
    variables start with an arbitrary value (0), all of them are assigned before they are read *)
Definition PermuteR64P512U (inp : list Z) (io : nat) (h : list Z) : res (list Z) :=
  ws <- load_be 4 16 inp io ;; Ok (slice (exec 32 sha256_U (zeros 25 ++ h ++ ws)) 25 8).
(** SHA2.h:1277-1657 PermuteR80P1024U *)
Definition PermuteR80P1024U (inp : list Z) (io : nat) (h : list Z) : res (list Z) :=
  ws <- load_be 8 16 inp io ;; Ok (slice (exec 64 sha512_U (zeros 25 ++ h ++ ws)) 25 8).

(** SHA2.cpp:7-17 *)
Definition SHA2256_RC64 : list Z := [
  0x428A2F98; 0x71374491; 0xB5C0FBCF; 0xE9B5DBA5; 0x3956C25B; 0x59F111F1; 0x923F82A4; 0xAB1C5ED5;
  0xD807AA98; 0x12835B01; 0x243185BE; 0x550C7DC3; 0x72BE5D74; 0x80DEB1FE; 0x9BDC06A7; 0xC19BF174;
  0xE49B69C1; 0xEFBE4786; 0x0FC19DC6; 0x240CA1CC; 0x2DE92C6F; 0x4A7484AA; 0x5CB0A9DC; 0x76F988DA;
  0x983E5152; 0xA831C66D; 0xB00327C8; 0xBF597FC7; 0xC6E00BF3; 0xD5A79147; 0x06CA6351; 0x14292967;
  0x27B70A85; 0x2E1B2138; 0x4D2C6DFC; 0x53380D13; 0x650A7354; 0x766A0ABB; 0x81C2C92E; 0x92722C85;
  0xA2BFE8A1; 0xA81A664B; 0xC24B8B70; 0xC76C51A3; 0xD192E819; 0xD6990624; 0xF40E3585; 0x106AA070;
  0x19A4C116; 0x1E376C08; 0x2748774C; 0x34B0BCB5; 0x391C0CB3; 0x4ED8AA4A; 0x5B9CCA4F; 0x682E6FF3;
  0x748F82EE; 0x78A5636F; 0x84C87814; 0x8CC70208; 0x90BEFFFA; 0xA4506CEB; 0xBEF9A3F7; 0xC67178F2].
(** SHA2.cpp:19-31 *)
Definition SHA2512_RC80 : list Z := [
  0x428A2F98D728AE22; 0x7137449123EF65CD; 0xB5C0FBCFEC4D3B2F; 0xE9B5DBA58189DBBC;
  0x3956C25BF348B538; 0x59F111F1B605D019; 0x923F82A4AF194F9B; 0xAB1C5ED5DA6D8118;
  0xD807AA98A3030242; 0x12835B0145706FBE; 0x243185BE4EE4B28C; 0x550C7DC3D5FFB4E2;
  0x72BE5D74F27B896F; 0x80DEB1FE3B1696B1; 0x9BDC06A725C71235; 0xC19BF174CF692694;
  0xE49B69C19EF14AD2; 0xEFBE4786384F25E3; 0x0FC19DC68B8CD5B5; 0x240CA1CC77AC9C65;
  0x2DE92C6F592B0275; 0x4A7484AA6EA6E483; 0x5CB0A9DCBD41FBD4; 0x76F988DA831153B5;
  0x983E5152EE66DFAB; 0xA831C66D2DB43210; 0xB00327C898FB213F; 0xBF597FC7BEEF0EE4;
  0xC6E00BF33DA88FC2; 0xD5A79147930AA725; 0x06CA6351E003826F; 0x142929670A0E6E70;
  0x27B70A8546D22FFC; 0x2E1B21385C26C926; 0x4D2C6DFC5AC42AED; 0x53380D139D95B3DF;
  0x650A73548BAF63DE; 0x766A0ABB3C77B2A8; 0x81C2C92E47EDAEE6; 0x92722C851482353B;
  0xA2BFE8A14CF10364; 0xA81A664BBC423001; 0xC24B8B70D0F89791; 0xC76C51A30654BE30;
  0xD192E819D6EF5218; 0xD69906245565A910; 0xF40E35855771202A; 0x106AA07032BBD1B8;
  0x19A4C116B8D2D0C8; 0x1E376C085141AB53; 0x2748774CDF8EEB99; 0x34B0BCB5E19B48A8;
  0x391C0CB3C5C95A63; 0x4ED8AA4AE3418ACB; 0x5B9CCA4F7763E373; 0x682E6FF3D6B2B8A3;
  0x748F82EE5DEFB2FC; 0x78A5636F43172F60; 0x84C87814A1F0AB72; 0x8CC702081A6439EC;
  0x90BEFFFA23631E28; 0xA4506CEBDE82BDE9; 0xBEF9A3F7B2C67915; 0xC67178F2E372532B;
  0xCA273ECEEA26619C; 0xD186B8C721C0C207; 0xEADA7DD6CDE0EB1E; 0xF57D4F7FEE6ED178;
  0x06F067AA72176FBA; 0x0A637DC5A2C898A6; 0x113F9804BEF90DAE; 0x1B710B35131C471B;
  0x28DB77F523047D84; 0x32CAAB7B40C72493; 0x3C9EBE0A15C9BEBC; 0x431D67C49C100D4C;
  0x4CC5D4BECB3E42B6; 0x597F299CFC657E2A; 0x5FCB6FAB3AD6FAEC; 0x6C44198C4A475817].
(** SHA2.cpp:33-43 *)
Definition SHA2256State : list Z :=
  [0x6A09E667; 0xBB67AE85; 0x3C6EF372; 0xA54FF53A; 0x510E527F; 0x9B05688C; 0x1F83D9AB; 0x5BE0CD19].
(** SHA2.cpp:57-67 *)
Definition SHA2512State : list Z :=
  [0x6A09E667F3BCC908; 0xBB67AE8584CAA73B; 0x3C6EF372FE94F82B; 0xA54FF53A5F1D36F1;
   0x510E527FADE682D1; 0x9B05688C2B3E6C1F; 0x1F83D9ABFB41BD6B; 0x5BE0CD19137E2179].

(** SHA2.h:93-103 Theta0, Theta1 *)
Definition Theta0 (x : Z) : Z := Z.lxor (Z.lxor (Z.lor (wshr x 7) (wshl 32 x 25)) (Z.lor (wshr x 18) (wshl 32 x 14))) (wshr x 3).
Definition Theta1 (x : Z) : Z := Z.lxor (Z.lxor (Z.lor (wshr x 17) (wshl 32 x 15)) (Z.lor (wshr x 19) (wshl 32 x 13))) (wshr x 10).
(** SHA2.h:81-91 Sigma0, Sigma1 *)
Definition Sigma0 (x : Z) : Z := Z.lxor (Z.lxor (Z.lor (wshl 64 x 63) (wshr x 1)) (Z.lor (wshl 64 x 56) (wshr x 8))) (wshr x 7).
Definition Sigma1 (x : Z) : Z := Z.lxor (Z.lxor (Z.lor (wshl 64 x 45) (wshr x 19)) (Z.lor (wshl 64 x 3) (wshr x 61))) (wshr x 6).
(** SHA2.h:105-110 Round256: the new values of D and H *)
Definition Round256 (a b c d e f g h m p : Z) : Z * Z :=
  let r := wadd 32 (wadd 32 (wadd 32 (wadd 32 h (Z.lxor (Z.lxor (Z.lor (wshr e 6) (wshl 32 e 26)) (Z.lor (wshr e 11) (wshl 32 e 21))) (Z.lor (wshr e 25) (wshl 32 e 7))))
             (Z.lxor (Z.land e f) (Z.land (wnot 32 e) g))) m) p in
  (wadd 32 d r,
   wadd 32 r (wadd 32 (Z.lxor (Z.lxor (Z.lor (wshr a 2) (wshl 32 a 30)) (Z.lor (wshr a 13) (wshl 32 a 19))) (Z.lor (wshr a 22) (wshl 32 a 10)))
             (Z.lxor (Z.lxor (Z.land a b) (Z.land a c)) (Z.land b c)))).
(** SHA2.h:112-117 Round512 *)
Definition Round512 (a b c d e f g h m p : Z) : Z * Z :=
  let r := wadd 64 (wadd 64 (wadd 64 (wadd 64 h (Z.lxor (Z.lxor (Z.lor (wshl 64 e 50) (wshr e 14)) (Z.lor (wshl 64 e 46) (wshr e 18))) (Z.lor (wshl 64 e 23) (wshr e 41))))
             (Z.lxor (Z.land e f) (Z.land (wnot 64 e) g))) m) p in
  (wadd 64 d r,
   wadd 64 (wadd 64 r (Z.lxor (Z.lxor (Z.lor (wshl 64 a 36) (wshr a 28)) (Z.lor (wshl 64 a 30) (wshr a 34))) (Z.lor (wshl 64 a 25) (wshr a 39))))
             (Z.lxor (Z.lxor (Z.land a b) (Z.land a c)) (Z.land b c))).
(** SHA2.h:300-303 / 1234-1237: W[i] = Theta1(W[i-2]) + W[i-7] + Theta0(W[i-15]) + W[i-16] for i = 16 .. rounds-1 *)
Definition extend_W (w : Z) (s0 s1 : Z -> Z) (rounds : nat) (ws : list Z) : res (list Z) :=
  for_up 16 (rounds - 16) (fun i ws =>
    a <- get ws (i - 2) ;; b <- get ws (i - 7) ;; c <- get ws (i - 15) ;; d <- get ws (i - 16) ;;
    put ws i (wadd w (wadd w (wadd w (s1 a) b) (s0 c)) d)) (ws ++ zeros (rounds - 16)).
(** SHA2.h:307-325 / 1240-1258: eight calls per iteration, the arguments rotate by one position:
    call number j uses A[-j mod 8] as A, A[1-j mod 8] as B, ... *)
Definition c_round (round : Z -> Z -> Z -> Z -> Z -> Z -> Z -> Z -> Z -> Z -> Z * Z) (Ks ws : list Z) (j : nat) (A : list Z) : res (list Z) :=
  let ix k := ((k + 8 - j mod 8) mod 8)%nat in
  k <- get Ks j ;; x <- get ws j ;;
  a <- get A (ix 0%nat) ;; b <- get A (ix 1%nat) ;; c <- get A (ix 2%nat) ;; d <- get A (ix 3%nat) ;;
  e <- get A (ix 4%nat) ;; f <- get A (ix 5%nat) ;; g <- get A (ix 6%nat) ;; h <- get A (ix 7%nat) ;;
  let '(d', h') := round a b c d e f g h k x in
  A <- put A (ix 3%nat) d' ;; put A (ix 7%nat) h'.
(** SHA2.h:278-333 PermuteR64P512C, SHA2.h:1213-1266 PermuteR80P1024C; State[i] += A[i] *)
Definition permute_C (w : Z) (size rounds : nat) (s0 s1 : Z -> Z) round (Ks inp : list Z) (io : nat) (h : list Z) : res (list Z) :=
  ws <- load_be size 16 inp io ;;
  ws <- extend_W w s0 s1 rounds ws ;;
  A <- for_up 0 rounds (c_round round Ks ws) h ;;
  Ok (map (fun p => wadd w (fst p) (snd p)) (combine h A)).
Definition PermuteR64P512C := permute_C 32 4 64 Theta0 Theta1 Round256 SHA2256_RC64.
Definition PermuteR80P1024C := permute_C 64 8 80 Sigma0 Sigma1 Round512 SHA2512_RC80.

(** IntegerTools.h:733-750 BeUL256ToBlock, :761-778 BeULL512ToBlock: eight big-endian words *)
Definition BeWordsToBlock (size : nat) (h out : list Z) (oo : nat) : res (list Z) :=
  for_up 0 8 (fun i out => x <- get h i ;; if (size =? 4)%nat then Be32ToBytes x out (oo + size * i)%nat else Be64ToBytes x out (oo + size * i)%nat) out.

(** * SHA2256, sequential mode (IsParallel() = false) *)
(** SHA2256.cpp:17-44 SHA2256State: (H, T) *)
Definition s256 : Type := list Z * Z.
(** SHA2256.cpp:40-44 Reset of one state *)
Definition s256_init : s256 := (SHA2256State, 0).
(** SHA2256.cpp:399-417 Permute, non-SIMD unrolled branch; T is 64 bits *)
Definition SHA2256_Permute (s : s256) (inp : list Z) (io : nat) : res s256 :=
  h <- PermuteR64P512U inp io (fst s) ;; Ok (h, u64 (snd s + 64)).
(** SHA2256.cpp:367-397 HashFinal; Input is written *)
Definition SHA2256_HashFinal (permute : s256 -> list Z -> nat -> res s256) (inp : list Z) (io len : nat) (s : s256) : res (s256 * list Z) :=
  let t := u64 (snd s + Z.of_nat len) in
  let bitlen := wshl 64 t 3 in
  r <- (if (len =? 64)%nat then s <- permute (fst s, t) inp io ;; Ok (s, 0%nat) else Ok ((fst s, t), len)) ;;
  let '(s, len) := r in
  inp <- put inp (io + len) 128 ;;
  let len := S len in
  inp <- (if (len <? 64)%nat then wr inp (io + len) (zeros (64 - len)) else Ok inp) ;;
  r <- (if (56 <? len)%nat then s <- permute s inp io ;; inp <- wr inp 0 (zeros 64) ;; Ok (s, inp) else Ok (s, inp)) ;;
  let '(s, inp) := r in
  inp <- Be32ToBytes (wshr bitlen 32) inp (io + 56) ;;
  inp <- Be32ToBytes (u32 bitlen) inp (io + 60) ;;
  s <- permute s inp io ;;
  Ok (s, inp).
(** the digest object: state, m_msgBuffer, m_msgLength *)
Definition sha256_obj : Type := s256 * list Z * nat.
(** SHA2256.cpp:231-252 Reset and the constructor :48-65, sequential *)
Definition SHA2256_new : sha256_obj := (s256_init, zeros 64, 0%nat).
(** SHA2256.cpp:275-362 Update, sequential branch *)
Definition SHA2256_Update : sha256_obj -> list Z -> nat -> nat -> res sha256_obj := eager_update 64 SHA2256_Permute.
(** SHA2256.cpp:146-217 Finalize, sequential branch; `Output.size() - OutOffset` is unsigned, so an offset
    beyond the end passes the check and the write is out of range *)
Definition SHA2256_Finalize (o : sha256_obj) (out : list Z) (oo : nat) : res (sha256_obj * list Z) :=
  let '(s, buf, pos) := o in
  _ <- guard (negb ((oo <=? length out)%nat && (length out - oo <? 32)%nat)) InvalidSize ;;
  r <- SHA2256_HashFinal SHA2256_Permute buf 0 pos s ;;
  let '(s, _) := r in
  out <- BeWordsToBlock 4 (fst s) out oo ;;
  Ok (SHA2256_new, out).
(** SHA2256.cpp:135-144 Compute *)
Definition SHA2256_Compute (o : sha256_obj) (inp out : list Z) : res (sha256_obj * list Z) :=
  _ <- guard (negb (length out <? 32)%nat) InvalidSize ;;
  o <- SHA2256_Update o inp 0 (length inp) ;;
  SHA2256_Finalize o out 0.

(** SHA2.h:143-182 Compute256: the stateless form; [while (InLength >= 64)] then padding in a fresh buffer *)
Definition SHA2_Compute256 (inp : list Z) (io len : nat) (out : list Z) (oo : nat) : res (list Z) :=
  r <- eager_blocks 64 (fun (s : s256) inp io => h <- PermuteR64P512U inp io (fst s) ;; Ok (h, u64 (snd s + 64))) len (SHA2256State, 0) inp io len ;;
  let '(s, io, len) := r in
  let t := u64 (snd s + Z.of_nat len) in
  let bitlen := wshl 64 t 3 in
  buf <- wcopy inp io (zeros 64) 0 len ;;
  buf <- put buf len 128 ;;
  let len := S len in
  r <- (if (56 <? len)%nat then h <- PermuteR64P512U buf 0 (fst s) ;; Ok (h, zeros 64) else Ok (fst s, buf)) ;;
  let '(h, buf) := r in
  buf <- Be32ToBytes (wshr bitlen 32) buf 56 ;;
  buf <- Be32ToBytes (u32 bitlen) buf 60 ;;
  h <- PermuteR64P512U buf 0 h ;;
  BeWordsToBlock 4 h out oo.

(** * SHA2512, sequential mode *)
(** SHA2512.cpp:14-47 SHA2512State: (H, (T[0], T[1])) *)
Definition s512 : Type := list Z * (Z * Z).
Definition s512_init : s512 := (SHA2512State, (0, 0)).
(** SHA2512.cpp:31-40 Increase *)
Definition s512_inc (t : Z * Z) (len : Z) : Z * Z :=
  let t0 := u64 (fst t + len) in
  if 0x1FFFFFFFFFFFFFFF <? t0 then (Z.land t0 0x1FFFFFFFFFFFFFFF, u64 (snd t + wshr t0 61)) else (t0, snd t).
(** SHA2512.cpp:399-408 Permute *)
Definition SHA2512_Permute (s : s512) (inp : list Z) (io : nat) : res s512 :=
  h <- PermuteR80P1024U inp io (fst s) ;; Ok (h, s512_inc (snd s) 128).
(** SHA2512.cpp:367-397 HashFinal; T[1] is read after the permutations *)
Definition SHA2512_HashFinal (permute : s512 -> list Z -> nat -> res s512) (inp : list Z) (io len : nat) (s : s512) : res (s512 * list Z) :=
  let t := s512_inc (snd s) (Z.of_nat len) in
  let bitlen := wshl 64 (fst t) 3 in
  r <- (if (len =? 128)%nat then s <- permute (fst s, t) inp io ;; Ok (s, 0%nat) else Ok ((fst s, t), len)) ;;
  let '(s, len) := r in
  inp <- put inp (io + len) 128 ;;
  let len := S len in
  inp <- (if (len <? 128)%nat then wr inp (io + len) (zeros (128 - len)) else Ok inp) ;;
  r <- (if (112 <? len)%nat then s <- permute s inp io ;; inp <- wr inp io (zeros 128) ;; Ok (s, inp) else Ok (s, inp)) ;;
  let '(s, inp) := r in
  inp <- Be64ToBytes (snd (snd s)) inp (io + 112) ;;
  inp <- Be64ToBytes bitlen inp (io + 120) ;;
  s <- permute s inp io ;;
  Ok (s, inp).
Definition sha512_obj : Type := s512 * list Z * nat.
(** SHA2512.cpp:228-252 Reset and the constructor :51-68, sequential *)
Definition SHA2512_new : sha512_obj := (s512_init, zeros 128, 0%nat).
(** SHA2512.cpp:273-359 Update, sequential branch *)
Definition SHA2512_Update : sha512_obj -> list Z -> nat -> nat -> res sha512_obj := eager_update 128 SHA2512_Permute.
(** SHA2512.cpp:147-214 Finalize, sequential branch *)
Definition SHA2512_Finalize (o : sha512_obj) (out : list Z) (oo : nat) : res (sha512_obj * list Z) :=
  let '(s, buf, pos) := o in
  _ <- guard (negb ((oo <=? length out)%nat && (length out - oo <? 64)%nat)) InvalidSize ;;
  r <- SHA2512_HashFinal SHA2512_Permute buf 0 pos s ;;
  let '(s, _) := r in
  out <- BeWordsToBlock 8 (fst s) out oo ;;
  Ok (SHA2512_new, out).
(** SHA2512.cpp:136-145 Compute *)
Definition SHA2512_Compute (o : sha512_obj) (inp out : list Z) : res (sha512_obj * list Z) :=
  _ <- guard (negb (length out <? 64)%nat) InvalidSize ;;
  o <- SHA2512_Update o inp 0 (length inp) ;;
  SHA2512_Finalize o out 0.

(** SHA2.cpp:45-55 *)
Definition SHA2384State : list Z :=
  [0xCBBB9D5DC1059ED8; 0x629A292A367CD507; 0x9159015A3070DD17; 0x152FECD8F70E5939;
   0x67332667FFC00B31; 0x8EB44A8768581511; 0xDB0C2E0D64F98FA7; 0x47B5481DBEFA4FA4].
(** SHA2.h:1023-1066 Compute384 and SHA2.h:1079-1115 Compute512: the same text but for the initial state [iv] and
    the number of output words [nw]; t[1] stays 0 *)
Definition SHA2_Compute1024 (iv : list Z) (nw : nat) (inp : list Z) (io len : nat) (out : list Z) (oo : nat) : res (list Z) :=
  r <- eager_blocks 128 (fun (s : list Z * Z) inp io => h <- PermuteR80P1024U inp io (fst s) ;; Ok (h, u64 (snd s + 128))) len (iv, 0) inp io len ;;
  let '(s, io, len) := r in
  let t := u64 (snd s + Z.of_nat len) in
  let bitlen := wshl 64 t 3 in
  buf <- wcopy inp io (zeros 128) 0 len ;;
  buf <- put buf len 128 ;;
  let len := S len in
  r <- (if (112 <? len)%nat then h <- PermuteR80P1024U buf 0 (fst s) ;; Ok (h, zeros 128) else Ok (fst s, buf)) ;;
  let '(h, buf) := r in
  buf <- Be64ToBytes 0 buf 112 ;;
  buf <- Be64ToBytes bitlen buf 120 ;;
  h <- PermuteR80P1024U buf 0 h ;;
  for_up 0 nw (fun i out => x <- get h i ;; Be64ToBytes x out (oo + 8 * i)) out.
Definition SHA2_Compute384 := SHA2_Compute1024 SHA2384State 6.
Definition SHA2_Compute512 := SHA2_Compute1024 SHA2512State 8.
