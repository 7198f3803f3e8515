(** Model of CEX/IntegerTools.h (little-endian build, CEXASSERT is a no-op). *)
From Verif Require Import Base.
Open Scope Z_scope.

(** ** Big-endian conversions *)

(** IntegerTools.h:556-567 Be16ToBytes(Value, Output, OutOffset) *)
Definition Be16ToBytes (v : Z) (out : list Z) (o : nat) : res (list Z) :=
  out <- put out (o + 1) (u8 v) ;;
  put out o (u8 (wshr v 8)).

(** IntegerTools.h:609-622 Be32ToBytes *)
Definition Be32ToBytes (v : Z) (out : list Z) (o : nat) : res (list Z) :=
  out <- put out (o + 3) (u8 v) ;;
  out <- put out (o + 2) (u8 (wshr v 8)) ;;
  out <- put out (o + 1) (u8 (wshr v 16)) ;;
  put out o (u8 (wshr v 24)).

(** IntegerTools.h:666-683 Be64ToBytes *)
Definition Be64ToBytes (v : Z) (out : list Z) (o : nat) : res (list Z) :=
  out <- put out (o + 7) (u8 v) ;;
  out <- put out (o + 6) (u8 (wshr v 8)) ;;
  out <- put out (o + 5) (u8 (wshr v 16)) ;;
  out <- put out (o + 4) (u8 (wshr v 24)) ;;
  out <- put out (o + 3) (u8 (wshr v 32)) ;;
  out <- put out (o + 2) (u8 (wshr v 40)) ;;
  out <- put out (o + 1) (u8 (wshr v 48)) ;;
  put out o (u8 (wshr v 56)).

(** IntegerTools.h:788-802 BeBytesTo16: (b0 << 8) | b1 *)
Definition BeBytesTo16 (inp : list Z) (o : nat) : res Z :=
  b0 <- get inp o ;; b1 <- get inp (o + 1) ;;
  Ok (u16 (Z.lor (Z.shiftl b0 8) b1)).

(** IntegerTools.h:832-849 BeBytesTo32 *)
Definition BeBytesTo32 (inp : list Z) (o : nat) : res Z :=
  b0 <- get inp o ;; b1 <- get inp (o + 1) ;;
  b2 <- get inp (o + 2) ;; b3 <- get inp (o + 3) ;;
  Ok (Z.lor (Z.lor (Z.lor (wshl 32 b0 24) (wshl 32 b1 16)) (wshl 32 b2 8)) b3).

(** IntegerTools.h:881-901 BeBytesTo64 *)
Definition BeBytesTo64 (inp : list Z) (o : nat) : res Z :=
  b0 <- get inp o ;; b1 <- get inp (o + 1) ;;
  b2 <- get inp (o + 2) ;; b3 <- get inp (o + 3) ;;
  b4 <- get inp (o + 4) ;; b5 <- get inp (o + 5) ;;
  b6 <- get inp (o + 6) ;; b7 <- get inp (o + 7) ;;
  Ok (Z.lor (Z.lor (Z.lor (Z.lor (Z.lor (Z.lor (Z.lor
        (wshl 64 b0 56) (wshl 64 b1 48)) (wshl 64 b2 40)) (wshl 64 b3 32))
        (wshl 64 b4 24)) (wshl 64 b5 16)) (wshl 64 b6 8)) b7).

(** IntegerTools.h:526-547 BeToBlock: words of [vl] bytes to bytes, big endian.
    Input is a word array; loops i over words, j over bytes of a word. *)
Definition BeToBlock (vl : nat) (inp : list Z) (io : nat) (out : list Z) (oo len : nat) : res (list Z) :=
  for_up 0 (len / vl) (fun i out =>
    w <- get inp (io + i) ;;
    (* j = vl .. 1, here jj = vl - j counts up *)
    for_up 0 vl (fun jj out =>
      put out (oo + i * vl + (vl - jj - 1)) (u8 (wshr w (Z.of_nat jj * 8)))) out) out.

(** ** Little-endian conversions: on the modelled target these are memcpy of the
    object representation (IntegerTools.h:1263-1390, 1546-1751), i.e. the positional
    little-endian value. *)
(** IntegerTools.h:1263-1274, 1316-1329, 1373-1390 Le16/32/64ToBytes; [n] = 2, 4, 8 *)
Definition LeToBytes (n : nat) (v : Z) (out : list Z) (o : nat) : res (list Z) :=
  wr out o (le_bytes n v).
Definition Le16ToBytes := LeToBytes 2.
Definition Le32ToBytes := LeToBytes 4.
Definition Le64ToBytes := LeToBytes 8.
(** IntegerTools.h:1546-1563, 1596-1615, 1675-1698 LeBytesTo16/32/64 *)
Definition LeBytesTo (n : nat) (inp : list Z) (o : nat) : res Z :=
  d <- rd inp o n ;; Ok (le_val d).
Definition LeBytesTo16 := LeBytesTo 2.
Definition LeBytesTo32 := LeBytesTo 4.
Definition LeBytesTo64 := LeBytesTo 8.

(** IntegerTools.h:1709-1723 LeBytesTo64(Input, InOffset, Length) (and :1651-1665 for 32):
    a shift by 8*i at or beyond the word width is undefined. *)
Definition LeBytesToLen (w : Z) (inp : list Z) (o len : nat) : res Z :=
  b0 <- get inp o ;;
  for_up 1 (len - 1) (fun i r =>
    b <- get inp (o + i) ;;
    _ <- safe (8 * Z.of_nat i <? w) ;;
    Ok (Z.lor r (wshl w b (8 * Z.of_nat i)))) b0.

(** ** Counters *)

(** IntegerTools.h:964-986 BeIncrement8(Output, Offset, Length), the do/while loop;
    [k] = i - Offset before the decrement. *)
Fixpoint be_inc_loop (k : nat) (out : list Z) (o : nat) : res (list Z) :=
  match k with
  | O => Ok out
  | S m =>
    v <- get out (o + m) ;;
    let v' := u8 (v + 1) in
    out <- put out (o + m) v' ;;
    if v' =? 0 then be_inc_loop m out o else Ok out
  end.
(** with Length = 0 the first [--i] leaves the counter range (or wraps): UB *)
Definition BeIncrement8_range (out : list Z) (o len : nat) : res (list Z) :=
  match len with O => UB | _ => be_inc_loop len out o end.
(** IntegerTools.h:934-955 BeIncrement8(Output) *)
Definition BeIncrement8 (out : list Z) : res (list Z) :=
  BeIncrement8_range out 0 (length out).

(** IntegerTools.h:1903-1925 LeIncrement(Output, Length); [k] = Length - i *)
Fixpoint le_inc_loop (k : nat) (i : nat) (out : list Z) : res (list Z) :=
  match k with
  | O => Ok out
  | S m =>
    v <- get out i ;;
    let v' := u8 (v + 1) in
    out <- put out i v' ;;
    if v' =? 0 then le_inc_loop m (S i) out else Ok out
  end.
Definition LeIncrement_len (out : list Z) (len : nat) : res (list Z) := le_inc_loop len 0 out.
(** IntegerTools.h:1873-1895 LeIncrement(Output) *)
Definition LeIncrement (out : list Z) : res (list Z) := LeIncrement_len out (length out).

(** cinc[j] = uint8_t(Value >> (j * 8)), j < sizeof(T); 0 beyond.
    IntegerTools.h:1058-1062, 1072 *)
Definition cinc (tsize : nat) (v : Z) (j : nat) : Z :=
  if (j <? tsize)%nat then u8 (wshr v (8 * Z.of_nat j)) else 0.

(** one step of the increase loops, IntegerTools.h:1071-1075:
    ndst = uint8_t(odst + osrc + carry); carry = ndst < odst ? 1 : 0 *)
Definition inc8_digit (odst osrc carry : Z) : Z * Z :=
  let ndst := u8 (odst + osrc + carry) in
  (ndst, if ndst <? odst then 1 else 0).

(** IntegerTools.h:1038-1077 BeIncrease8(Input, Output, Value); [tsize] = sizeof(T);
    lctr runs from Input.size()-1 to 0, here j = MAXPOS - lctr. *)
Definition BeIncrease8 (tsize : nat) (inp out : list Z) (v : Z) : res (list Z) :=
  match length inp with
  | O => Ok out
  | S _ =>
    out <- wr out 0 inp ;;
    st <- for_up 0 (length inp) (fun j st =>
      let '(out, carry) := st in
      odst <- get out (length inp - 1 - j) ;;
      let '(ndst, carry') := inc8_digit odst (cinc tsize v j) carry in
      out <- put out (length inp - 1 - j) ndst ;;
      Ok (out, carry')) (out, 0) ;;
    Ok (fst st)
  end.

(** IntegerTools.h:1977-2015 LeIncrease8(Input, Output, Value) *)
Definition LeIncrease8 (tsize : nat) (inp out : list Z) (v : Z) : res (list Z) :=
  match length inp with
  | O => Ok out
  | S _ =>
    out <- wr out 0 inp ;;
    st <- for_up 0 (length inp) (fun j st =>
      let '(out, carry) := st in
      odst <- get out j ;;
      let '(ndst, carry') := inc8_digit odst (cinc tsize v j) carry in
      out <- put out j ndst ;;
      Ok (out, carry')) (out, 0) ;;
    Ok (fst st)
  end.

(** IntegerTools.h:2117-2129 LeIncrementW; words of [w] bits *)
Definition LeIncrementW (w : Z) (out : list Z) : res (list Z) :=
  v0 <- get out 0 ;;
  let v0' := (v0 + 1) mod 2 ^ w in
  out <- put out 0 v0' ;;
  if v0' =? 0 then
    v1 <- get out 1 ;; put out 1 ((v1 + 1) mod 2 ^ w)
  else Ok out.

(** IntegerTools.h:2160-2174 LeIncreaseW(Input, Output, Length); Length is cast to the
    word type, so only its low [w] bits count *)
Definition LeIncreaseW (w : Z) (inp out : list Z) (len : Z) : res (list Z) :=
  out <- wr out 0 inp ;;
  o0 <- get out 0 ;;
  let o0' := (o0 + len mod 2 ^ w) mod 2 ^ w in
  out <- put out 0 o0' ;;
  i0 <- get inp 0 ;;
  if o0' <? i0 then
    o1 <- get out 1 ;; put out 1 ((o1 + 1) mod 2 ^ w)
  else Ok out.

(** ** Constant-time helpers, on unsigned [w]-bit words *)

(** IntegerTools.h:2360-2378 ExpandMask: fold with i = 1, 2, 4, .. w/2, then ~(r-1).
    [k] = log2 w gives the number of folds. *)
Fixpoint expand_fold (k : nat) (r : Z) : Z :=
  match k with
  | O => r
  | S m => let r' := expand_fold m r in Z.lor r' (wshr r' (2 ^ Z.of_nat m))
  end.
Definition ExpandMask (k : nat) (x : Z) : Z :=
  let r := Z.land (expand_fold k x) 1 in
  wnot (2 ^ Z.of_nat k) ((r - 1) mod 2 ^ (2 ^ Z.of_nat k)).

(** IntegerTools.h:2387-2391 ExpandTopBit *)
Definition ExpandTopBit (k : nat) (a : Z) : Z := ExpandMask k (wshr a (2 ^ Z.of_nat k - 1)).
(** IntegerTools.h:2442-2446 IsZero *)
Definition IsZero (k : nat) (x : Z) : Z := wnot (2 ^ Z.of_nat k) (ExpandMask k x).
(** IntegerTools.h:2401-2405 IsEqual *)
Definition IsEqual (k : nat) (x y : Z) : Z := IsZero k (Z.lxor x y).
(** IntegerTools.h:2415-2419 IsLess, :2429-2433 IsLte *)
Definition IsLess (k : nat) (x y : Z) : Z := ExpandMask k (Z.b2z (x <? y)).
Definition IsLte (k : nat) (x y : Z) : Z := ExpandMask k (Z.b2z (x <=? y)).
(** IntegerTools.h:2457-2461 Select *)
Definition Select (k : nat) (mask a b : Z) : Z :=
  Z.lor (Z.land a mask) (Z.land b (wnot (2 ^ Z.of_nat k) mask)).
(** IntegerTools.h:2186-2190 CMax, :2247-2252 CMin ("TODO: test this..") *)
Definition CMax (k : nat) (a b : Z) : Z := Select k (ExpandTopBit k a) a b.
Definition CMin (k : nat) (a b : Z) : Z := Select k (ExpandTopBit k b) b a.
(** IntegerTools.h:2506-2510 ValueOrZero *)
Definition ValueOrZero (k : nat) (p v : Z) : Z := Select k (ExpandMask k p) v 0.
(** IntegerTools.h:2295-2305 ConditionalCopy with Length = 1 *)
Definition ConditionalCopy1 (k : nat) (c from0 from1 : Z) : Z := Select k (ExpandMask k c) from0 from1.

(** IntegerTools.h:2266-2284 Compare; delta has the element type, elements are bytes here *)
Definition Compare (a : list Z) (ao : nat) (b : list Z) (bo len : nat) : res bool :=
  d <- for_up 0 len (fun i d =>
    x <- get a (ao + i) ;; y <- get b (bo + i) ;;
    Ok (Z.lor d (Z.lxor x y))) 0 ;;
  Ok (d =? 0).

(** IntegerTools.h:2554-2572 Verify (0 = equal) *)
Definition Verify (a : list Z) (ao : nat) (b : list Z) (bo len : nat) : res Z :=
  for_up 0 len (fun i d =>
    x <- get a (ao + i) ;; y <- get b (bo + i) ;;
    Ok (Z.lor d (Z.lxor x y))) 0.

(** IntegerTools.h:2202-2217 CMov on byte arrays: Condition = ~Condition + 1 (uint8_t) *)
Definition CMov (inp : list Z) (io : nat) (out : list Z) (oo len : nat) (cond : Z) : res (list Z) :=
  let c := u8 (wnot 8 cond + 1) in
  for_up 0 len (fun i out =>
    x <- get inp (io + i) ;; y <- get out (oo + i) ;;
    put out (oo + i) (Z.lxor y (Z.land c (Z.lxor x y)))) out.

(** IntegerTools.h:2336-2351 DiffMask on arrays of bytes or 16-bit words:
    diff is uint16_t, diff - 1 is an int (arithmetic shift) *)
Definition DiffMask (a b : list Z) (len : nat) : res Z :=
  d <- for_up 0 len (fun i d =>
    x <- get a i ;; y <- get b i ;; Ok (Z.lor d (Z.lxor x y))) 0 ;;
  Ok (Z.land 1 (Z.shiftr (d - 1) 8) - 1).

(** IntegerTools.h:2471-2496 ShiftLeft: whole array shifted left by one bit, big endian;
    returns the bit shifted out. ctr counts down from Input.size(); here [k] = ctr. *)
Fixpoint shift_left_loop (k : nat) (inp out : list Z) (bit : Z) : res (list Z * Z) :=
  match k with
  | O => Ok (out, bit)
  | S m =>
    b <- get inp m ;;
    out <- put out m (u8 (Z.lor (wshl 32 b 1) bit)) ;;
    shift_left_loop m inp out (Z.land (wshr b 7) 1)
  end.
Definition ShiftLeft (inp out : list Z) : res (list Z * Z) :=
  match length inp with O => UB | n => shift_left_loop n inp out 0 end.

(** ** Miscellaneous *)
(** IntegerTools.h:136-140 GetByte: Value >> (((~Index) & (sizeof(T)-1)) << 3), n = sizeof(T) *)
Definition GetByte (n : nat) (v : Z) (i : Z) : Z :=
  u8 (wshr v (Z.shiftl (Z.land (wnot 64 i) (Z.of_nat n - 1)) 3)).
(** IntegerTools.h:164-178 Crop *)
Definition Crop (v : Z) (len : Z) : Z :=
  if len <? 64 then Z.land v (Z.shiftl 1 len - 1) else v.
(** IntegerTools.h:255-259 IsPowerOf2 *)
Definition IsPowerOf2 (v : Z) : bool := (0 <? v) && (Z.land v (v - 1) =? 0).
(** IntegerTools.h:269-275 ModPowerOf2 *)
Definition ModPowerOf2 (a b : Z) : Z := Z.land a (b - 1).
(** IntegerTools.h:312-322 Parity: i = 32, 16, 8, 4, 2, 1 *)
Definition parity_fold (v : Z) : Z :=
  fold_left (fun v i => Z.lxor v (wshr v i)) [32; 16; 8; 4; 2; 1] v.
Definition Parity (v : Z) : Z := Z.land (parity_fold v) 1.

(** ** Rotations. IntegerTools.h:2734-2844 (no-intrinsics branch): a shift by the full
    width (Shift = 0 or Shift = width) is undefined. *)
Definition RotL (w v s : Z) : res Z :=
  _ <- safe ((s <? w) && (0 <? s)) ;;
  Ok (Z.lor (wshl w v s) (wshr v (w - s))).
Definition RotR (w v s : Z) : res Z :=
  _ <- safe ((s <? w) && (0 <? s)) ;;
  Ok (Z.lor (wshr v s) (wshl w v (w - s))).

(** ** Hex text, characters as code points *)
Definition hexdigit (d : Z) : Z := if d <? 10 then 48 + d else 55 + d.
(** IntegerTools.h:339-355 ToHex(Input, Offset, Length): two upper-case digits a byte *)
Definition ToHex (inp : list Z) (o len : nat) : res (list Z) :=
  for_up 0 len (fun i s =>
    b <- get inp (o + i) ;;
    Ok (s ++ [hexdigit (b / 16); hexdigit (b mod 16)])) [].
Definition unhexdigit (c : Z) : option Z :=
  if (48 <=? c) && (c <=? 57) then Some (c - 48)
  else if (65 <=? c) && (c <=? 70) then Some (c - 55)
  else if (97 <=? c) && (c <=? 102) then Some (c - 87)
  else None.
(** strtol(s, NULL, 16) on a string of at most two characters that are hex digits;
    it stops at the first other character. Leading blanks, signs and 0x are not modelled. *)
Fixpoint strtol16 (acc : Z) (s : list Z) : Z :=
  match s with
  | [] => acc
  | c :: t => match unhexdigit c with Some d => strtol16 (acc * 16 + d) t | None => acc end
  end.
(** IntegerTools.h:229-246 FromHex(Input, Length); substr(i, 2) throws when i > size *)
Fixpoint from_hex_loop (k : nat) (inp : list Z) (i : nat) (otp : list Z) : res (list Z) :=
  match k with
  | O => Ok otp
  | S m =>
    if (length inp <? i)%nat then Throw OtherError
    else from_hex_loop m inp (i + 2) (otp ++ [u8 (strtol16 0 (slice inp i 2))])
  end.
Definition FromHex (inp : list Z) (len : nat) : res (list Z) :=
  from_hex_loop ((len + 1) / 2) inp 0 [].
