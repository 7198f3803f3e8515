(** Model of CEX/KyberBase.cpp and CEX/KyberBase.h (the build without CEX_HAS_AVX2): reductions, number theoretic
    transform, sampling, encodings, IND-CPA encryption and the KEM; and of the KEM calls of CEX/Kyber.cpp.
    A Poly is std::array<int16_t, 256>: a list of 256 integers; a PolyVec is a list of those.  Conversions to int16_t wrap
    (every compiler CEX supports), all int32_t intermediate values are in range because their factors are int16_t.
    Element-wise loops over a whole Poly are written with [map] and [combine]; groups of consecutive stores
    R[o], R[o + 1], ... are one [wr].  The random generator is the list of bytes it returns. *)
From Verif Require Import Base Model_IntegerTools Model_Modes Model_Keccak.
Open Scope Z_scope.

(** conversion to int16_t *)
Definition s16 (x : Z) : Z := (x + 2 ^ 15) mod 2 ^ 16 - 2 ^ 15.

(** KyberBase.h:49-57 *)
Definition KYBER_Q : Z := 3329.
Definition KYBER_QINV : Z := 62209.
Definition KYBER_POLYBYTES : nat := 384.
Definition KYBER_SYMBYTES : nat := 32.
(** KyberBase.cpp:5-23 Zetas *)
Definition Zetas : list Z := [
   64492; 64778; 65177; 64019; 1493; 1422; 287; 202;
   65365; 622; 1577; 182; 962; 64334; 64062; 1468;
   573; 64211; 264; 383; 64707; 1458; 63934; 65406;
   64855; 1017; 732; 608; 63994; 411; 65331; 63965;
   1223; 652; 64984; 1015; 64243; 1491; 65254; 63992;
   516; 65528; 65216; 64870; 63918; 64374; 126; 1469;
   64683; 65446; 65265; 830; 107; 64115; 65289; 64585;
   65138; 961; 64028; 64811; 448; 64471; 677; 64261;
   64433; 430; 555; 843; 64285; 871; 1550; 105;
   422; 587; 177; 65301; 65245; 65076; 1574; 1653;
   65290; 778; 1159; 65389; 64759; 1483; 64934; 1119;
   63946; 644; 64664; 349; 418; 329; 65380; 65461;
   817; 1097; 603; 610; 1322; 64251; 64071; 384;
   64321; 65400; 1218; 64201; 64662; 220; 64349; 63877;
   64351; 64006; 64258; 794; 64026; 64682; 64666; 478;
   65428; 65228; 996; 991; 958; 64076; 1522; 1628].
(** [static_cast<int16_t>(Zetas[k])] *)
Definition zeta_at (k : nat) : res Z := z <- get Zetas k ;; Ok (s16 z).

(** * reduce.c *)
(** KyberBase.cpp:27-38 MontgomeryReduce *)
Definition MontgomeryReduce (a : Z) : Z :=
  let u := s16 (a * KYBER_QINV) in
  let t := u * KYBER_Q in
  let t := a - t in
  s16 (Z.shiftr t 16).
(** KyberBase.cpp:40-49 BarrettReduce *)
Definition BarrettReduce (a : Z) : Z :=
  let V := (2 ^ 26 + KYBER_Q / 2) / KYBER_Q in
  let t := s16 (Z.shiftr (V * a + 2 ^ 25) 26) in
  let t := s16 (t * KYBER_Q) in
  s16 (a - t).

(** * ntt.c *)
(** KyberBase.cpp:53-56 FqMul *)
Definition FqMul (a b : Z) : Z := MontgomeryReduce (a * b).
(** KyberBase.cpp:74-79 the inner loop of Ntt *)
Definition ntt_step (zeta : Z) (len j : nat) (r : list Z) : res (list Z) :=
  y <- get r (j + len) ;;
  let t := FqMul zeta y in
  x <- get r j ;;
  r <- put r (j + len) (s16 (x - t)) ;;
  x <- get r j ;;
  put r j (s16 (x + t)).
(** KyberBase.cpp:69-80 the loop over [start]: it takes the values 0, 2 len, 4 len, ... (after the inner loop j = start + len) *)
Definition ntt_layer (p : nat * list Z) (len : nat) : res (nat * list Z) :=
  for_up 0 (256 / (2 * len)) (fun b p =>
    let '(k, r) := p in
    zeta <- zeta_at k ;;
    r <- for_up (b * (2 * len)) len (ntt_step zeta len) r ;;
    Ok (S k, r)) p.
(** sequencing over a list of values of a loop variable *)
Fixpoint for_in {S A : Type} (l : list A) (f : S -> A -> res S) (s : S) : res S :=
  match l with [] => Ok s | a :: t => s <- f s a ;; for_in t f s end.
(** KyberBase.cpp:58-82 Ntt: len = 128, 64, ..., 2 *)
Definition Ntt (r : list Z) : res (list Z) :=
  p <- for_in [128; 64; 32; 16; 8; 4; 2]%nat ntt_layer (1%nat, r) ;; Ok (snd p).
(** KyberBase.cpp:101-107 the inner loop of InvNtt *)
Definition inv_step (zeta : Z) (len j : nat) (r : list Z) : res (list Z) :=
  t <- get r j ;;
  y <- get r (j + len) ;;
  r <- put r j (BarrettReduce (s16 (t + y))) ;;
  y <- get r (j + len) ;;
  r <- put r (j + len) (s16 (y - t)) ;;
  y <- get r (j + len) ;;
  put r (j + len) (FqMul zeta y).
(** KyberBase.cpp:96-108 the loop over [start] of InvNtt *)
Definition inv_layer (p : nat * list Z) (len : nat) : res (nat * list Z) :=
  for_up 0 (256 / (2 * len)) (fun b p =>
    let '(k, r) := p in
    zeta <- zeta_at k ;;
    r <- for_up (b * (2 * len)) len (inv_step zeta len) r ;;
    Ok ((k - 1)%nat, r)) p.
(** KyberBase.cpp:84-115 InvNtt: len = 2, 4, ..., 128, then every coefficient times F = 1441 *)
Definition InvNtt (r : list Z) : res (list Z) :=
  p <- for_in [2; 4; 8; 16; 32; 64; 128]%nat inv_layer (127%nat, r) ;;
  Ok (map (fun x => FqMul x 1441) (snd p)).
(** KyberBase.cpp:117-124 BaseMul *)
Definition BaseMul (a b : list Z) (zeta : Z) : list Z :=
  let a0 := nth 0 a 0 in let a1 := nth 1 a 0 in let b0 := nth 0 b 0 in let b1 := nth 1 b 0 in
  let r0 := FqMul a1 b1 in
  let r0 := FqMul r0 zeta in
  let r0 := s16 (r0 + FqMul a0 b0) in
  let r1 := FqMul a0 b1 in
  let r1 := s16 (r1 + FqMul a1 b0) in
  [r0; r1].

(** * poly.c *)
(** for each i < cnt: read n elements of [a] at ao + n i, write f of them to [r] at ro + m i *)
Definition groups (cnt n m : nat) (f : list Z -> list Z) (a : list Z) (ao : nat) (r : list Z) (ro : nat) : res (list Z) :=
  for_up 0 cnt (fun i r => x <- rd a (ao + n * i) n ;; wr r (ro + m * i) (f x)) r.
(** KyberBase.cpp:1348-1368 Cbd2: one 32-bit word gives eight coefficients *)
Definition cbd2_group (b : list Z) : list Z :=
  let t := le_val b in
  let d := Z.land t 0x55555555 in
  let d := u32 (d + Z.land (Z.shiftr t 1) 0x55555555) in
  map (fun j => Z.land (Z.shiftr d (4 * j)) 3 - Z.land (Z.shiftr d (4 * j + 2)) 3) [0; 1; 2; 3; 4; 5; 6; 7].
Definition Cbd2 (r buf : list Z) : res (list Z) := groups 32 4 8 cbd2_group buf 0 r 0.
(** KyberBase.cpp:1370-1404 LoadLe24 and Cbd3: three bytes give four coefficients *)
Definition cbd3_group (b : list Z) : list Z :=
  let t := le_val b in
  let d := Z.land t 0x00249249 in
  let d := u32 (d + Z.land (Z.shiftr t 1) 0x00249249) in
  let d := u32 (d + Z.land (Z.shiftr t 2) 0x00249249) in
  map (fun j => Z.land (Z.shiftr d (6 * j + 0)) 7 - Z.land (Z.shiftr d (6 * j + 3)) 7) [0; 1; 2; 3].
Definition Cbd3 (r buf : list Z) : res (list Z) := groups 64 3 4 cbd3_group buf 0 r 0.
(** KyberBase.cpp:128-143 PolyCbdEta1, PolyCbdEta2 *)
Definition PolyCbdEta1 (r buf : list Z) (eta1 : nat) : res (list Z) := if (eta1 =? 2)%nat then Cbd2 r buf else Cbd3 r buf.
Definition PolyCbdEta2 (r buf : list Z) : res (list Z) := Cbd2 r buf.
(** [t = coefficient; t += (static_cast<int16_t>(t) >> 15) & KYBER_Q] on a uint16_t *)
Definition pos16 (x : Z) : Z := u16 (u16 x + Z.land (Z.shiftr (s16 (u16 x)) 15) KYBER_Q).
(** KyberBase.cpp:145-161 PolyToBytes *)
Definition pack12 (c : list Z) : list Z :=
  let t0 := pos16 (nth 0 c 0) in let t1 := pos16 (nth 1 c 0) in
  [u8 (Z.shiftr t0 0); u8 (Z.lor (Z.shiftr t0 8) (Z.shiftl t1 4)); u8 (Z.shiftr t1 4)].
Definition PolyToBytes (r : list Z) (ro : nat) (a : list Z) : res (list Z) := groups 128 2 3 pack12 a 0 r ro.
(** KyberBase.cpp:163-170 PolyFromBytes *)
Definition unpack12 (b : list Z) : list Z :=
  let b0 := nth 0 b 0 in let b1 := nth 1 b 0 in let b2 := nth 2 b 0 in
  [Z.land (Z.lor (Z.shiftr b0 0) (Z.shiftl b1 8)) 0xFFF; Z.land (Z.lor (Z.shiftr b1 4) (Z.shiftl b2 4)) 0xFFF].
Definition PolyFromBytes (r a : list Z) (ao : nat) : res (list Z) := groups 128 3 2 unpack12 a ao r 0.
(** KyberBase.cpp:172-188 PolyToMsg: eight coefficients give one byte *)
Definition msg_bit (x : Z) : Z := Z.land (((Z.shiftl (pos16 x) 1) + KYBER_Q / 2) / KYBER_Q) 1.
Definition to_msg_group (c : list Z) : list Z :=
  [fold_left (fun m j => Z.lor m (u8 (Z.shiftl (msg_bit (nth j c 0)) (Z.of_nat j)))) [0; 1; 2; 3; 4; 5; 6; 7]%nat 0].
Definition PolyToMsg (msg a : list Z) : res (list Z) := groups 32 8 1 to_msg_group a 0 msg 0.
(** KyberBase.cpp:1602-1614 PolyFromMsg *)
Definition from_msg_group (b : list Z) : list Z :=
  map (fun j => let mask := s16 (- Z.land (Z.shiftr (nth 0 b 0) j) 1) in Z.land mask (s16 (KYBER_Q + 1) / 2)) [0; 1; 2; 3; 4; 5; 6; 7].
Definition PolyFromMsg (r msg : list Z) : res (list Z) := groups 32 1 8 from_msg_group msg 0 r 0.
(** KyberBase.cpp:190-211 PolyGetNoiseEta1 and PolyGetNoiseEta2 *)
Definition noise_bytes (seed : list Z) (so : nat) (nonce : Z) (n : nat) : res (list Z) :=
  extkey <- wcopy seed so (zeros (KYBER_SYMBYTES + 1)) 0 KYBER_SYMBYTES ;;
  extkey <- put extkey KYBER_SYMBYTES nonce ;;
  XOFP1600 24 extkey 0 (length extkey) (zeros n) 0 n 136.
Definition PolyGetNoiseEta1 (r seed : list Z) (so : nat) (nonce : Z) (eta1 : nat) : res (list Z) :=
  buf <- noise_bytes seed so nonce (eta1 * 256 / 4) ;; PolyCbdEta1 r buf eta1.
Definition PolyGetNoiseEta2 (r seed : list Z) (so : nat) (nonce : Z) : res (list Z) :=
  buf <- noise_bytes seed so nonce (2 * 256 / 4) ;; PolyCbdEta2 r buf.
(** KyberBase.cpp:213-219 PolyReduce, 221-230 PolyNttv2 and PolyInvNttToMontgomery *)
Definition PolyReduce (r : list Z) : list Z := map BarrettReduce r.
Definition PolyNttv2 (r : list Z) : res (list Z) := r <- Ntt r ;; Ok (PolyReduce r).
Definition PolyInvNttToMontgomery (r : list Z) : res (list Z) := InvNtt r.
(** KyberBase.cpp:232-239 PolyBaseMulMontgomery: four coefficients at a time *)
Definition PolyBaseMulMontgomery (r a b : list Z) : res (list Z) :=
  for_up 0 64 (fun i r =>
    zeta <- zeta_at (64 + i) ;;
    x <- rd a (4 * i) 2 ;; y <- rd b (4 * i) 2 ;;
    r <- wr r (4 * i) (BaseMul x y zeta) ;;
    x <- rd a (4 * i + 2) 2 ;; y <- rd b (4 * i + 2) 2 ;;
    wr r (4 * i + 2) (BaseMul x y (s16 (- zeta)))) r.
(** KyberBase.cpp:241-249 PolyToMont: F = 2^32 mod Q *)
Definition PolyToMont (r : list Z) : list Z := map (fun x => MontgomeryReduce (x * s16 (2 ^ 32 mod KYBER_Q))) r.
(** KyberBase.cpp:1616-1630 PolyAdd, PolySub *)
Definition PolyAdd (a b : list Z) : list Z := map (fun p => s16 (fst p + snd p)) (combine a b).
Definition PolySub (a b : list Z) : list Z := map (fun p => s16 (fst p - snd p)) (combine a b).

(** KyberBase.cpp:1406-1460 PolyCompress: 4 bits (K = 2, 3) or 5 bits per coefficient *)
Definition posi16 (x : Z) : Z := s16 (x + Z.land (Z.shiftr x 15) KYBER_Q).
Definition comp4 (x : Z) : Z := u8 (Z.land (((Z.shiftl (u16 (posi16 x)) 4) + KYBER_Q / 2) / KYBER_Q) 0x000F).
Definition comp5 (x : Z) : Z := u8 (Z.land (u32 (u32 (Z.shiftl (u32 (posi16 x)) 5) + KYBER_Q / 2) / KYBER_Q) 31).
Definition pack4 (c : list Z) : list Z :=
  let t := fun i => comp4 (nth i c 0) in
  [u8 (Z.lor (t 0%nat) (Z.shiftl (t 1%nat) 4)); u8 (Z.lor (t 2%nat) (Z.shiftl (t 3%nat) 4));
   u8 (Z.lor (t 4%nat) (Z.shiftl (t 5%nat) 4)); u8 (Z.lor (t 6%nat) (Z.shiftl (t 7%nat) 4))].
Definition pack5 (c : list Z) : list Z :=
  let t := fun i => comp5 (nth i c 0) in
  [u8 (Z.lor (t 0%nat) (Z.shiftl (t 1%nat) 5));
   u8 (Z.lor (Z.lor (Z.shiftr (t 1%nat) 3) (Z.shiftl (t 2%nat) 2)) (Z.shiftl (t 3%nat) 7));
   u8 (Z.lor (Z.shiftr (t 3%nat) 1) (Z.shiftl (t 4%nat) 4));
   u8 (Z.lor (Z.lor (Z.shiftr (t 4%nat) 4) (Z.shiftl (t 5%nat) 1)) (Z.shiftl (t 6%nat) 6));
   u8 (Z.lor (Z.shiftr (t 6%nat) 2) (Z.shiftl (t 7%nat) 3))].
Definition PolyCompress (r : list Z) (ro : nat) (a : list Z) (K : nat) : res (list Z) :=
  if (K =? 2)%nat || (K =? 3)%nat then groups 32 8 4 pack4 a 0 r ro else groups 32 8 5 pack5 a 0 r ro.
(** KyberBase.cpp:1513-1546 PolyDecompress *)
Definition unpack4 (b : list Z) : list Z :=
  let x := nth 0 b 0 in
  [s16 (Z.shiftr (Z.land x 15 * KYBER_Q + 8) 4); s16 (Z.shiftr (Z.shiftr x 4 * KYBER_Q + 8) 4)].
Definition unpack5 (b : list Z) : list Z :=
  let a := fun i => nth i b 0 in
  let t := [u8 (a 0%nat);
            u8 (Z.lor (Z.shiftr (a 0%nat) 5) (Z.shiftl (a 1%nat) 3));
            u8 (Z.shiftr (a 1%nat) 2);
            u8 (Z.lor (Z.shiftr (a 1%nat) 7) (Z.shiftl (a 2%nat) 1));
            u8 (Z.lor (Z.shiftr (a 2%nat) 4) (Z.shiftl (a 3%nat) 4));
            u8 (Z.shiftr (a 3%nat) 1);
            u8 (Z.lor (Z.shiftr (a 3%nat) 6) (Z.shiftl (a 4%nat) 2));
            u8 (Z.shiftr (a 4%nat) 3)] in
  map (fun x => s16 (u16 (Z.shiftr (Z.land x 31 * KYBER_Q + 16) 5))) t.
Definition PolyDecompress (r a : list Z) (ao K : nat) : res (list Z) :=
  if (K =? 2)%nat || (K =? 3)%nat then groups 128 1 2 unpack4 a ao r 0 else groups 32 5 8 unpack5 a ao r 0.

(** * polyvec.c *)
(** KyberBase.cpp:253-315 PolyVecCompress: 11 bits (4 or 5 polynomials) or 10 bits (2 or 3) per coefficient, consecutive groups *)
Definition comp_d (d : Z) (x : Z) : Z := u16 (Z.land (u32 (u32 (Z.shiftl (pos16 x) d) + KYBER_Q / 2) / KYBER_Q) (2 ^ d - 1)).
Definition pack11 (c : list Z) : list Z :=
  let t := fun i => comp_d 11 (nth i c 0) in
  [u8 (Z.shiftr (t 0%nat) 0);
   u8 (Z.lor (Z.shiftr (t 0%nat) 8) (Z.shiftl (t 1%nat) 3));
   u8 (Z.lor (Z.shiftr (t 1%nat) 5) (Z.shiftl (t 2%nat) 6));
   u8 (Z.shiftr (t 2%nat) 2);
   u8 (Z.lor (Z.shiftr (t 2%nat) 10) (Z.shiftl (t 3%nat) 1));
   u8 (Z.lor (Z.shiftr (t 3%nat) 7) (Z.shiftl (t 4%nat) 4));
   u8 (Z.lor (Z.shiftr (t 4%nat) 4) (Z.shiftl (t 5%nat) 7));
   u8 (Z.shiftr (t 5%nat) 1);
   u8 (Z.lor (Z.shiftr (t 5%nat) 9) (Z.shiftl (t 6%nat) 2));
   u8 (Z.lor (Z.shiftr (t 6%nat) 6) (Z.shiftl (t 7%nat) 5));
   u8 (Z.shiftr (t 7%nat) 3)].
Definition pack10 (c : list Z) : list Z :=
  let t := fun i => comp_d 10 (nth i c 0) in
  [u8 (Z.shiftr (t 0%nat) 0);
   u8 (Z.lor (Z.shiftr (t 0%nat) 8) (Z.shiftl (t 1%nat) 2));
   u8 (Z.lor (Z.shiftr (t 1%nat) 6) (Z.shiftl (t 2%nat) 4));
   u8 (Z.lor (Z.shiftr (t 2%nat) 4) (Z.shiftl (t 3%nat) 6));
   u8 (Z.shiftr (t 3%nat) 2)].
(** a loop over the polynomials of a vector; [i] counts them *)
Fixpoint vec_loop {S : Type} (i : nat) (v : list (list Z)) (f : nat -> list Z -> S -> res S) (s : S) : res S :=
  match v with [] => Ok s | a :: t => s <- f i a s ;; vec_loop (Datatypes.S i) t f s end.
Definition PolyVecCompress (r : list Z) (v : list (list Z)) : res (list Z) :=
  if (length v =? 4)%nat || (length v =? 5)%nat then vec_loop 0 v (fun i a r => groups 32 8 11 pack11 a 0 r (352 * i)) r
  else if (length v =? 2)%nat || (length v =? 3)%nat then vec_loop 0 v (fun i a r => groups 64 4 5 pack10 a 0 r (320 * i)) r
  else Ok r.
(** KyberBase.cpp:1548-1600 PolyVecDecompress *)
Definition unpack11 (b : list Z) : list Z :=
  let a := fun i => nth i b 0 in
  let t := [Z.lor (a 0%nat) (u16 (Z.shiftl (a 1%nat) 8));
            Z.lor (Z.shiftr (a 1%nat) 3) (u16 (Z.shiftl (a 2%nat) 5));
            Z.lor (Z.lor (Z.shiftr (a 2%nat) 6) (u16 (Z.shiftl (a 3%nat) 2))) (u16 (Z.shiftl (a 4%nat) 10));
            Z.lor (Z.shiftr (a 4%nat) 1) (u16 (Z.shiftl (a 5%nat) 7));
            Z.lor (Z.shiftr (a 5%nat) 4) (u16 (Z.shiftl (a 6%nat) 4));
            Z.lor (Z.lor (Z.shiftr (a 6%nat) 7) (u16 (Z.shiftl (a 7%nat) 1))) (u16 (Z.shiftl (a 8%nat) 9));
            Z.lor (Z.shiftr (a 8%nat) 2) (u16 (Z.shiftl (a 9%nat) 6));
            Z.lor (Z.shiftr (a 9%nat) 5) (u16 (Z.shiftl (a 10%nat) 3))] in
  map (fun x => s16 (Z.shiftr (Z.land x 0x7FF * KYBER_Q + 1024) 11)) t.
Definition unpack10 (b : list Z) : list Z :=
  let a := fun i => nth i b 0 in
  let t := [u16 (Z.lor (a 0%nat) (Z.shiftl (a 1%nat) 8));
            u16 (Z.lor (Z.shiftr (a 1%nat) 2) (Z.shiftl (a 2%nat) 6));
            u16 (Z.lor (Z.shiftr (a 2%nat) 4) (Z.shiftl (a 3%nat) 4));
            u16 (Z.lor (Z.shiftr (a 3%nat) 6) (Z.shiftl (a 4%nat) 2))] in
  map (fun x => s16 (Z.shiftr (Z.land x 0x3FF * KYBER_Q + 512) 10)) t.
(** the polynomials of [v] replaced one after the other *)
Fixpoint vec_map (i : nat) (v : list (list Z)) (f : nat -> list Z -> res (list Z)) : res (list (list Z)) :=
  match v with [] => Ok [] | a :: t => a <- f i a ;; t <- vec_map (S i) t f ;; Ok (a :: t) end.
Definition PolyVecDecompress (v : list (list Z)) (a : list Z) : res (list (list Z)) :=
  if (length v =? 4)%nat || (length v =? 5)%nat then vec_map 0 v (fun i r => groups 32 11 8 unpack11 a (352 * i) r 0)
  else if (length v =? 2)%nat || (length v =? 3)%nat then vec_map 0 v (fun i r => groups 64 5 4 unpack10 a (320 * i) r 0)
  else Ok v.
(** KyberBase.cpp:317-331 PolyVecToBytes, PolyVecFromBytes *)
Definition PolyVecToBytes (r : list Z) (v : list (list Z)) : res (list Z) :=
  vec_loop 0 v (fun i a r => PolyToBytes r (i * KYBER_POLYBYTES) a) r.
Definition PolyVecFromBytes (v : list (list Z)) (a : list Z) : res (list (list Z)) :=
  vec_map 0 v (fun i r => PolyFromBytes r a (i * KYBER_POLYBYTES)).
(** KyberBase.cpp:333-347 PolyVecNtt, PolyVecInvNttToMont; 364-378 PolyVecReduce, PolyVecAdd *)
Definition PolyVecNtt (v : list (list Z)) : res (list (list Z)) := vec_map 0 v (fun _ => PolyNttv2).
Definition PolyVecInvNttToMont (v : list (list Z)) : res (list (list Z)) := vec_map 0 v (fun _ => PolyInvNttToMontgomery).
Definition PolyVecReduce (v : list (list Z)) : list (list Z) := map PolyReduce v.
Definition PolyVecAdd (a b : list (list Z)) : list (list Z) := map (fun p => PolyAdd (fst p) (snd p)) (combine a b).
(** KyberBase.cpp:349-362 PolyVecBaseMulAccMontgomery; the temporary t starts with arbitrary contents (zeros) and is fully overwritten *)
Definition PolyVecBaseMulAccMontgomery (r : list Z) (a b : list (list Z)) : res (list Z) :=
  match a, b with
  | a0 :: a, b0 :: b =>
    r <- PolyBaseMulMontgomery r a0 b0 ;;
    r <- for_in (combine a b) (fun r p => t <- PolyBaseMulMontgomery (zeros 256) (fst p) (snd p) ;; Ok (PolyAdd r t)) r ;;
    Ok (PolyReduce r)
  | _, _ => UB
  end.

(** * indcpa.c *)
(** KyberBase.cpp:382-402 PackPk, UnPackPk, PackSk, UnPackSk *)
Definition PackPk (r : list Z) (pk : list (list Z)) (seed : list Z) : res (list Z) :=
  r <- PolyVecToBytes r pk ;; wcopy seed 0 r (length pk * KYBER_POLYBYTES) KYBER_SYMBYTES.
Definition UnPackPk (pk : list (list Z)) (seed packed : list Z) : res (list (list Z) * list Z) :=
  v <- PolyVecFromBytes pk packed ;;
  seed <- wcopy packed (length pk * KYBER_POLYBYTES) seed 0 KYBER_SYMBYTES ;;
  Ok (v, seed).
Definition PackSk (r : list Z) (sk : list (list Z)) : res (list Z) := PolyVecToBytes r sk.
Definition UnPackSk (sk : list (list Z)) (packed : list Z) : res (list (list Z)) := PolyVecFromBytes sk packed.
(** KyberBase.cpp:404-444 PackCiphertext, UnPackCiphertext *)
Definition base_bytes (K : nat) : nat := if (3 <? K)%nat then 352 else 320.
Definition PackCiphertext (r : list Z) (b : list (list Z)) (v : list Z) (K : nat) : res (list Z) :=
  r <- PolyVecCompress r b ;; PolyCompress r (base_bytes K * K) v K.
Definition UnPackCiphertext (b : list (list Z)) (v c : list Z) : res (list (list Z) * list Z) :=
  let K := length b in
  b <- PolyVecDecompress b c ;;
  v <- PolyDecompress v c (base_bytes K * K) K ;;
  Ok (b, v).

(** KyberBase.cpp:446-476 RejUniform: the new R and the number of values found; the fuel is BufLen (pos grows by 3) *)
Fixpoint rej_loop (fuel : nat) (r : list Z) (ro rlen : nat) (buf : list Z) (blen ctr pos : nat) : res (list Z * nat) :=
  match fuel with
  | O => UB
  | S k =>
    if (ctr <? rlen)%nat && (pos + 3 <=? blen)%nat then
      b <- rd buf pos 3 ;;
      let val0 := nth 0 (unpack12 b) 0 in
      let val1 := nth 1 (unpack12 b) 0 in
      p <- (if val0 <? KYBER_Q then r <- put r (ro + ctr) val0 ;; Ok (r, S ctr) else Ok (r, ctr)) ;;
      let '(r, ctr) := p in
      p <- (if (ctr <? rlen)%nat && (val1 <? KYBER_Q) then r <- put r (ro + ctr) val1 ;; Ok (r, S ctr) else Ok (r, ctr)) ;;
      let '(r, ctr) := p in
      rej_loop k r ro rlen buf blen ctr (pos + 3)
    else Ok (r, ctr)
  end.
Definition RejUniform (r : list Z) (ro rlen : nat) (buf : list Z) (blen : nat) : res (list Z * nat) :=
  rej_loop (S blen) r ro rlen buf blen 0 0.
(** KyberBase.cpp:1492-1504 the loop [while (ctr < KYBER_N)] of GenMatrix.  It squeezes KECCAK1024_RATE_SIZE = 32 new bytes but
    reads off + 168 bytes of the buffer.  [F] bounds the number of iterations that are followed: beyond it the outcome is UB
    ("does not return") *)
Fixpoint gen_more (F : nat) (st buf r : list Z) (blen ctr : nat) : res (list Z * list Z) :=
  if (ctr <? 256)%nat then
    match F with
    | O => UB
    | S k =>
      let off := (blen mod 3)%nat in
      buf <- for_up 0 off (fun i buf => x <- get buf (blen - off + i) ;; put buf i x) buf ;;
      p <- Squeeze 24 st buf off 1 32 ;;
      let '(st, buf) := p in
      let blen := (off + 168)%nat in
      p <- RejUniform r ctr (256 - ctr) buf blen ;;
      let '(r, c) := p in
      gen_more k st buf r blen (ctr + c)
    end
  else Ok (r, buf).
(** KyberBase.cpp:1471-1507 one matrix entry; the state is cleared after each one, the buffer is shared.
    extseed ends in the two index bytes [x], [y] *)
Definition gen_entry (F : nat) (seed : list Z) (x y : Z) (buf : list Z) : res (list Z * list Z) :=
  ext <- wcopy seed 0 (zeros (KYBER_SYMBYTES + 2)) 0 KYBER_SYMBYTES ;;
  ext <- put ext KYBER_SYMBYTES x ;;
  ext <- put ext (KYBER_SYMBYTES + 1) y ;;
  st <- Absorb 24 ext 0 (length ext) 168 31 (zeros 25) ;;
  p <- Squeeze 24 st buf 0 3 168 ;;
  let '(st, buf) := p in
  p <- RejUniform (zeros 256) 0 256 buf 504 ;;
  let '(r, ctr) := p in
  gen_more F st buf r 504 ctr.
(** KyberBase.cpp:1462-1511 GenMatrix: row i, column j from (i, j) if Transposed, else (j, i); A starts as zeros *)
Fixpoint gen_row (F : nat) (seed : list Z) (tr : bool) (i j n : nat) (buf : list Z) : res (list (list Z) * list Z) :=
  match n with
  | O => Ok ([], buf)
  | S k =>
    p <- (if tr then gen_entry F seed (u8 (Z.of_nat i)) (u8 (Z.of_nat j)) buf else gen_entry F seed (u8 (Z.of_nat j)) (u8 (Z.of_nat i)) buf) ;;
    let '(a, buf) := p in
    p <- gen_row F seed tr i (S j) k buf ;;
    let '(t, buf) := p in
    Ok (a :: t, buf)
  end.
Fixpoint gen_rows (F : nat) (seed : list Z) (tr : bool) (K i n : nat) (buf : list Z) : res (list (list (list Z))) :=
  match n with
  | O => Ok []
  | S k =>
    p <- gen_row F seed tr i 0 K buf ;;
    let '(a, buf) := p in
    t <- gen_rows F seed tr K (S i) k buf ;;
    Ok (a :: t)
  end.
Definition GenMatrix (F : nat) (seed : list Z) (tr : bool) (K : nat) : res (list (list (list Z))) :=
  gen_rows F seed tr K 0 K (zeros (3 * 168 + 2)).

(** KyberBase.h:76-138 the parameter sets *)
Record kparams := KP { kK : nat; kEta1 : nat; kPk : nat; kSk : nat; kCt : nat }.
Definition Params1632 := KP 2 3 800 1632 768.
Definition Params2400 := KP 3 2 1184 2400 1088.
Definition Params3168 := KP 4 2 1568 3168 1568.
Definition Params3936 := KP 5 2 1952 3936 1920.

(** the loops [for (i = 0; i < K; ++i) { PolyGetNoise...(vec[i], ..., nonce); ++nonce; }] *)
Definition noise_vec (K : nat) (f : Z -> res (list Z)) (nonce : nat) : res (list (list Z)) :=
  vec_map nonce (repeat (zeros 256) K) (fun i _ => f (u8 (Z.of_nat i))).
(** KyberBase.h:180-184 the public polynomials: t = A s + e, in the transformed domain *)
Fixpoint mul_rows (A : list (list (list Z))) (v : list (list Z)) (f : list Z -> list Z) : res (list (list Z)) :=
  match A with
  | [] => Ok []
  | a :: A => r <- PolyVecBaseMulAccMontgomery (zeros 256) a v ;; t <- mul_rows A v f ;; Ok (f r :: t)
  end.
(** KyberBase.h:177-187 IndCpaKeyPair after the sampling: the transformed secret and public vectors *)
Definition keypair_core (A : list (list (list Z))) (s e : list (list Z)) : res (list (list Z) * list (list Z)) :=
  skpv <- PolyVecNtt s ;;
  e <- PolyVecNtt e ;;
  pkpv <- mul_rows A skpv PolyToMont ;;
  Ok (skpv, PolyVecReduce (PolyVecAdd pkpv e)).
(** KyberBase.h:140-190 IndCpaKeyPair; [d]: the 32 bytes of the random generator; Pk and Sk have the sizes of the parameter set *)
Definition IndCpaKeyPair (F : nat) (p : kparams) (pk sk d : list Z) : res (list Z * list Z) :=
  let K := kK p in
  buf <- wr (zeros (2 * KYBER_SYMBYTES)) 0 d ;;
  buf <- Compute 24 buf 0 KYBER_SYMBYTES buf 0 72 ;;
  A <- GenMatrix F buf false K ;;
  s <- noise_vec K (fun n => PolyGetNoiseEta1 (zeros 256) buf KYBER_SYMBYTES n (kEta1 p)) 0 ;;
  e <- noise_vec K (fun n => PolyGetNoiseEta1 (zeros 256) buf KYBER_SYMBYTES n (kEta1 p)) K ;;
  q <- keypair_core A s e ;;
  let '(skpv, pkpv) := q in
  sk <- PackSk sk skpv ;;
  pk <- PackPk pk pkpv buf ;;
  Ok (pk, sk).
(** KyberBase.h:234-251 IndCpaEnc after the sampling: the polynomials u and v of the ciphertext *)
Definition enc_core (At : list (list (list Z))) (pkpv sp ep : list (list Z)) (epp k : list Z) : res (list (list Z) * list Z) :=
  sp <- PolyVecNtt sp ;;
  b <- mul_rows At sp (fun r => r) ;;
  v <- PolyVecBaseMulAccMontgomery (zeros 256) pkpv sp ;;
  b <- PolyVecInvNttToMont b ;;
  v <- PolyInvNttToMontgomery v ;;
  let b := PolyVecAdd b ep in
  let v := PolyAdd v epp in
  let v := PolyAdd v k in
  Ok (PolyVecReduce b, PolyReduce v).
(** KyberBase.h:192-252 IndCpaEnc *)
Definition IndCpaEnc (F : nat) (p : kparams) (c m pk coins : list Z) (co : nat) : res (list Z) :=
  let K := kK p in
  q <- UnPackPk (repeat (zeros 256) K) (zeros KYBER_SYMBYTES) pk ;;
  let '(pkpv, seed) := q in
  k <- PolyFromMsg (zeros 256) m ;;
  At <- GenMatrix F seed true K ;;
  sp <- noise_vec K (fun n => PolyGetNoiseEta1 (zeros 256) coins co n (kEta1 p)) 0 ;;
  ep <- noise_vec K (fun n => PolyGetNoiseEta2 (zeros 256) coins co n) K ;;
  epp <- PolyGetNoiseEta2 (zeros 256) coins co (u8 (Z.of_nat (2 * K))) ;;
  q <- enc_core At pkpv sp ep epp k ;;
  let '(b, v) := q in
  PackCiphertext c b v K.
(** KyberBase.h:267-272 IndCpaDec after the unpacking: the polynomial the message is read from *)
Definition dec_core (skpv b : list (list Z)) (v : list Z) : res (list Z) :=
  b <- PolyVecNtt b ;;
  mp <- PolyVecBaseMulAccMontgomery (zeros 256) skpv b ;;
  mp <- PolyInvNttToMontgomery mp ;;
  Ok (PolyReduce (PolySub v mp)).
(** KyberBase.h:254-274 IndCpaDec *)
Definition IndCpaDec (p : kparams) (m c sk : list Z) : res (list Z) :=
  let K := kK p in
  q <- UnPackCiphertext (repeat (zeros 256) K) (zeros 256) c ;;
  let '(b, v) := q in
  skpv <- UnPackSk (repeat (zeros 256) K) sk ;;
  mp <- dec_core skpv b v ;;
  PolyToMsg m mp.

(** * kem.c *)
(** KyberBase.h:373-384 Generate; [d], [z]: the two outputs of the random generator *)
Definition kem_generate (F : nat) (p : kparams) (pk sk d z : list Z) : res (list Z * list Z) :=
  let SKILEN := (kK p * KYBER_POLYBYTES)%nat in
  let PKILEN := (kK p * KYBER_POLYBYTES + KYBER_SYMBYTES)%nat in
  let SKPLEN := (SKILEN + PKILEN + 2 * KYBER_SYMBYTES)%nat in
  q <- IndCpaKeyPair F p pk sk d ;;
  let '(pk, sk) := q in
  sk <- wcopy pk 0 sk SKILEN (length pk) ;;
  sk <- Compute 24 pk 0 (length pk) sk (PKILEN + SKILEN) 136 ;;
  sk <- wr sk (SKPLEN - KYBER_SYMBYTES) z ;;
  Ok (pk, sk).
(** KyberBase.h:340-361 Encapsulate; [m]: the 32 bytes of the random generator *)
Definition kem_encapsulate (F : nat) (p : kparams) (pk ct ss m : list Z) : res (list Z * list Z) :=
  buf <- wr (zeros (2 * KYBER_SYMBYTES)) 0 m ;;
  let kr := zeros (2 * KYBER_SYMBYTES) in
  buf <- Compute 24 buf 0 KYBER_SYMBYTES buf 0 136 ;;
  buf <- Compute 24 pk 0 (length pk) buf KYBER_SYMBYTES 136 ;;
  kr <- Compute 24 buf 0 (2 * KYBER_SYMBYTES) kr 0 72 ;;
  ct <- IndCpaEnc F p ct buf pk kr KYBER_SYMBYTES ;;
  kr <- Compute 24 ct 0 (length ct) kr KYBER_SYMBYTES 136 ;;
  ss <- XOFP1600 24 kr 0 (2 * KYBER_SYMBYTES) ss 0 (length ss) 136 ;;
  Ok (ct, ss).
(** KyberBase.h:288-329 Decapsulate: the shared secret and [fail == 0]; PrivateKey.size() - SKILEN wraps for a short key: UB *)
Definition kem_decapsulate (F : nat) (p : kparams) (sk ct ss : list Z) : res (list Z * bool) :=
  let SKILEN := (kK p * KYBER_POLYBYTES)%nat in
  let PKILEN := (kK p * KYBER_POLYBYTES + KYBER_SYMBYTES)%nat in
  let SKPLEN := (SKILEN + PKILEN + 2 * KYBER_SYMBYTES)%nat in
  let buf := zeros (2 * KYBER_SYMBYTES) in
  let cmp := zeros (length ct) in
  let kr := zeros (2 * KYBER_SYMBYTES) in
  _ <- safe (SKILEN <=? length sk)%nat ;;
  let pk := zeros (length sk - SKILEN) in
  pk <- wcopy sk SKILEN pk 0 (length pk) ;;
  buf <- IndCpaDec p buf ct sk ;;
  buf <- wcopy sk (SKPLEN - 2 * KYBER_SYMBYTES) buf KYBER_SYMBYTES KYBER_SYMBYTES ;;
  kr <- Compute 24 buf 0 (2 * KYBER_SYMBYTES) kr 0 72 ;;
  cmp <- IndCpaEnc F p cmp buf pk kr KYBER_SYMBYTES ;;
  fail <- Verify ct 0 cmp 0 (length ct) ;;
  kr <- Compute 24 ct 0 (length ct) kr KYBER_SYMBYTES 136 ;;
  kr <- CMov sk (SKPLEN - KYBER_SYMBYTES) kr 0 KYBER_SYMBYTES (u8 fail) ;;
  ss <- XOFP1600 24 kr 0 (2 * KYBER_SYMBYTES) ss 0 (length ss) 136 ;;
  Ok (ss, fail =? 0).

(** * Kyber.cpp *)
(** Kyber.cpp:444-448 CXOF: the conditioning with a domain key; [name]: the bytes of Name() *)
Definition Kyber_CXOF (domain key name secret : list Z) : res (list Z) :=
  CXOFP1600 24 key domain name secret 0 (length secret) 72.
(** Kyber.cpp:293-305 and 354-362 the secret handed to the caller; [ss]: the caller's vector *)
Definition Kyber_secret (domain name sec ss : list Z) : res (list Z) :=
  if negb (length domain =? 0)%nat then Kyber_CXOF domain sec name ss else wcopy sec 0 (zeros (length sec)) 0 (length sec).
(** Kyber.cpp:365-412 Generate *)
Definition Kyber_Generate (F : nat) (p : kparams) (d z : list Z) : res (list Z * list Z) :=
  kem_generate F p (zeros (kPk p)) (zeros (kSk p)) d z.
(** Kyber.cpp:310-363 Encapsulate with the public key [pk]: the ciphertext and SharedSecret *)
Definition Kyber_Encapsulate (F : nat) (p : kparams) (domain name pk ss m : list Z) : res (list Z * list Z) :=
  q <- kem_encapsulate F p pk (zeros (kCt p)) (zeros 32) m ;;
  let '(ct, sec) := q in
  ss <- Kyber_secret domain name sec ss ;;
  Ok (ct, ss).
(** Kyber.cpp:256-308 Decapsulate with the private key [sk]: SharedSecret (left alone on failure) and the result *)
Definition Kyber_Decapsulate (F : nat) (p : kparams) (domain name sk ct ss : list Z) : res (list Z * bool) :=
  q <- kem_decapsulate F p sk ct (zeros 32) ;;
  let '(sec, ok) := q in
  if ok then ss <- Kyber_secret domain name sec ss ;; Ok (ss, true) else Ok (ss, false).
