(** Model of CEX/Donna128.h and CEX/Poly1305.cpp. *)
From Verif Require Import Base Model_IntegerTools Model_Modes Model_Absorb.
Open Scope Z_scope.

(** * Donna128.h: a 128-bit integer (low, high) *)
Record donna := Donna { d_low : Z; d_high : Z }.
(** Donna128.h:79-91 operator >>: [Donna128 z(high, low)] calls the constructor (Low, High) of :39-44, the halves
    are exchanged first.  A shift of more than 64 bits is undefined *)
Definition donna_shr (x : donna) (n : Z) : res donna :=
  let z := Donna (d_high x) (d_low x) in
  if n =? 0 then Ok z
  else
    _ <- safe ((0 <? 64 - n) && (64 - n <? 64)) ;;
    let carry := wshl 64 (d_high z) (64 - n) in
    Ok (Donna (Z.lor (wshr (d_low z) n) carry) (wshr (d_high z) n)).
(** Donna128.h:100-112 operator << *)
Definition donna_shl (x : donna) (n : Z) : res donna :=
  let z := Donna (d_high x) (d_low x) in
  if n =? 0 then Ok z
  else
    _ <- safe ((0 <? 64 - n) && (64 - n <? 64)) ;;
    let carry := wshr (d_low z) (64 - n) in
    Ok (Donna (wshl 64 (d_low z) n) (Z.lor (wshl 64 (d_high z) n) carry)).
(** Donna128.h:121-124 operator & *)
Definition donna_and (x : donna) (m : Z) : Z := Z.land (d_low x) m.
(** Donna128.h:182-191 operator += and :148-156 operator + *)
Definition donna_add (x y : donna) : donna :=
  let low := u64 (d_low x + d_low y) in
  let high := u64 (d_high x + d_high y) in
  Donna low (u64 (high + if low <? d_low y then 1 else 0)).
(** Donna128.h:200-207 and :165-173, adding a 64-bit integer *)
Definition donna_addw (x : donna) (y : Z) : donna :=
  let low := u64 (d_low x + y) in
  Donna low (u64 (d_high x + if low <? y then 1 else 0)).
(** Donna128.h:328-360 Mul64x64To128, the portable branch *)
Definition Mul64x64To128 (x y : Z) : donna :=
  let ah := u32 (wshr x 32) in
  let al := u32 (Z.land x 0xFFFFFFFF) in
  let bh := u32 (wshr y 32) in
  let bl := u32 (Z.land y 0xFFFFFFFF) in
  let x0 := u64 (ah * bh) in
  let x1 := u64 (al * bh) in
  let x2 := u64 (ah * bl) in
  let x3 := u64 (al * bl) in
  let x2 := u64 (x2 + wshr x3 32) in
  let x2 := u64 (x2 + x1) in
  let x0 := u64 (x0 + wshl 64 (if x2 <? x1 then 1 else 0) 32) in
  Donna (u64 (wshl 64 (Z.land x2 0xFFFFFFFF) 32 + Z.land x3 0xFFFFFFFF)) (u64 (x0 + wshr x2 32)).
(** Donna128.h:216-227 operator * *)
Definition donna_mul (x : donna) (y : Z) : donna := Mul64x64To128 (d_low x) y.
(** Donna128.h:249-254 CarryShift: exchanges the halves, and so does operator >> *)
Definition donna_carry (x : donna) (n : Z) : res Z :=
  z <- donna_shr (Donna (d_high x) (d_low x)) n ;; Ok (d_low z).
(** Donna128.h:236-239 operator |, :279-286 CombineLow *)
Definition CombineLow (x : donna) (s1 : Z) (y : donna) (s2 : Z) : res Z :=
  a <- donna_shr x s1 ;; b <- donna_shl y s2 ;; Ok (Z.lor (d_low a) (d_low b)).

(** * Poly1305.cpp *)
(** the 128-bit arithmetic Absorb is compiled with: [CEX_NATIVE_UINT128], or Donna128 *)
Record wide (W : Type) := {
  w_of : Z -> W;                 (* uint128_t(x) *)
  w_mul : W -> Z -> W;
  w_add : W -> W -> W;
  w_addw : W -> Z -> W;
  w_and : W -> Z -> Z;
  w_carry : W -> Z -> res Z }.
Arguments w_of {W}. Arguments w_mul {W}. Arguments w_add {W}. Arguments w_addw {W}. Arguments w_and {W}. Arguments w_carry {W}.
(** the compiler's unsigned __int128; Donna128.h:298-301 CarryShift *)
Definition native : wide Z :=
  {| w_of := fun x => x; w_mul := fun x y => (x * y) mod 2 ^ 128; w_add := fun x y => (x + y) mod 2 ^ 128; w_addw := fun x y => (x + y) mod 2 ^ 128;
     w_and := fun x m => u64 (Z.land x m); w_carry := fun x n => Ok (u64 (wshr x n)) |}.
Definition donna128 : wide donna :=
  {| w_of := fun x => Donna x 0; w_mul := donna_mul; w_add := donna_add; w_addw := donna_addw; w_and := donna_and; w_carry := donna_carry |}.

Section poly.
Context {W : Type} (X : wide W).
(** Poly1305.cpp:272-331 Absorb, one iteration on the block at InOffset; the accumulator is (h0, h1, h2) *)
Definition poly_block (r0 r1 r2 hibit : Z) (h : Z * Z * Z) (inp : list Z) (io : nat) : res (Z * Z * Z) :=
  let '(h0, h1, h2) := h in
  let s1 := u64 (r1 * 20) in
  let s2 := u64 (r2 * 20) in
  t0 <- LeBytesTo64 inp io ;;
  t1 <- LeBytesTo64 inp (io + 8) ;;
  let h0 := u64 (h0 + Z.land t0 0xFFFFFFFFFFF) in
  let h1 := u64 (h1 + Z.land (Z.lor (wshr t0 44) (wshl 64 t1 20)) 0xFFFFFFFFFFF) in
  let h2 := u64 (h2 + Z.lor (Z.land (wshr t1 24) 0x3FFFFFFFFFF) hibit) in
  let d0 := w_add X (w_add X (w_mul X (w_of X h0) r0) (w_mul X (w_of X h1) s2)) (w_mul X (w_of X h2) s1) in
  let d1 := w_add X (w_add X (w_mul X (w_of X h0) r1) (w_mul X (w_of X h1) r0)) (w_mul X (w_of X h2) s2) in
  let d2 := w_add X (w_add X (w_mul X (w_of X h0) r2) (w_mul X (w_of X h1) r1)) (w_mul X (w_of X h2) r0) in
  c <- w_carry X d0 44 ;;
  let h0 := w_and X d0 0xFFFFFFFFFFF in
  let d1 := w_addw X d1 c in
  c <- w_carry X d1 44 ;;
  let h1 := w_and X d1 0xFFFFFFFFFFF in
  let d2 := w_addw X d2 c in
  c <- w_carry X d2 42 ;;
  let h2 := w_and X d2 0x3FFFFFFFFFF in
  let h0 := u64 (h0 + u64 (c * 5)) in
  let c := wshr h0 44 in
  let h0 := Z.land h0 0xFFFFFFFFFFF in
  let h1 := u64 (h1 + c) in
  Ok (h0, h1, h2).

(** Poly1305.cpp:12-41 Poly1305State: State[0..2], State[3..5], State[6..7], Buffer, Position, IsInitialized *)
Record poly_obj := Poly { p_r : Z * Z * Z; p_h : Z * Z * Z; p_pad : Z * Z; p_buf : list Z; p_pos : nat; p_init : bool }.
(** Poly1305.cpp:34-40 Reset, :45-58 constructor (the constructor leaves State unset; nothing reads it before Initialize) *)
Definition Poly_new : poly_obj := Poly (0, 0, 0) (0, 0, 0) (0, 0) (zeros 16) 0 false.
(** Poly1305.cpp:195-222 Initialize; MinimumKeySize() = 32 *)
Definition Poly_Initialize (o : poly_obj) (key : list Z) : res (poly_obj * option err) :=
  if (length key <? 32)%nat then Ok (o, Some InvalidKey)
  else
    t0 <- LeBytesTo64 key 0 ;;
    t1 <- LeBytesTo64 key 8 ;;
    let o := if p_init o then Poly_new else o in
    let r0 := Z.land t0 0xFFC0FFFFFFF in
    let r1 := Z.land (Z.lor (wshr t0 44) (wshl 64 t1 20)) 0xFFFFFC0FFFF in
    let r2 := Z.land (wshr t1 24) 0x00FFFFFFC0F in
    q0 <- LeBytesTo64 key 16 ;;
    q1 <- LeBytesTo64 key 24 ;;
    Ok (Poly (r0, r1, r2) (0, 0, 0) (q0, q1) (p_buf o) (p_pos o) true, None).
(** Absorb with IsFinal = false, on the State of an object *)
Definition poly_step (r : Z * Z * Z) : Z * Z * Z -> list Z -> nat -> res (Z * Z * Z) :=
  let '(r0, r1, r2) := r in poly_block r0 r1 r2 (2 ^ 40).
(** Poly1305.cpp:230-268 Update *)
Definition Poly_Update (o : poly_obj) (inp : list Z) (io len : nat) : res poly_obj :=
  _ <- guard (p_init o) NotInitialized ;;
  _ <- guard (negb ((io <=? length inp)%nat && (length inp - io <? len)%nat)) InvalidSize ;;
  s <- eager_update 16 (poly_step (p_r o)) (p_h o, p_buf o, p_pos o) inp io len ;;
  let '(h, buf, pos) := s in
  Ok (Poly (p_r o) h (p_pad o) buf pos true).
(** Poly1305.cpp:124-177: the final reduction and addition of the pad; the two output words *)
Definition poly_finish (h : Z * Z * Z) (pad : Z * Z) : Z * Z :=
  let '(h0, h1, h2) := h in
  let c := wshr h1 44 in
  let h1 := Z.land h1 0xFFFFFFFFFFF in
  let h2 := u64 (h2 + c) in
  let c := wshr h2 42 in
  let h2 := Z.land h2 0x3FFFFFFFFFF in
  let h0 := u64 (h0 + u64 (c * 5)) in
  let c := wshr h0 44 in
  let h0 := Z.land h0 0xFFFFFFFFFFF in
  let h1 := u64 (h1 + c) in
  let c := wshr h1 44 in
  let h1 := Z.land h1 0xFFFFFFFFFFF in
  let h2 := u64 (h2 + c) in
  let c := wshr h2 42 in
  let h2 := Z.land h2 0x3FFFFFFFFFF in
  let h0 := u64 (h0 + u64 (c * 5)) in
  let c := wshr h0 44 in
  let h0 := Z.land h0 0xFFFFFFFFFFF in
  let h1 := u64 (h1 + c) in
  let g0 := u64 (h0 + 5) in
  let c := wshr g0 44 in
  let g0 := Z.land g0 0xFFFFFFFFFFF in
  let g1 := u64 (h1 + c) in
  let c := wshr g1 44 in
  let g1 := Z.land g1 0xFFFFFFFFFFF in
  let g2 := u64 (h2 + u64 (c - 2 ^ 42)) in
  let c := u64 (wshr g2 63 - 1) in
  let g0 := Z.land g0 c in
  let g1 := Z.land g1 c in
  let g2 := Z.land g2 c in
  let c := u64 (-1 - c) in
  let h0 := Z.lor (Z.land h0 c) g0 in
  let h1 := Z.lor (Z.land h1 c) g1 in
  let h2 := Z.lor (Z.land h2 c) g2 in
  let '(t0, t1) := pad in
  let h0 := u64 (h0 + Z.land t0 0xFFFFFFFFFFF) in
  let c := wshr h0 44 in
  let h0 := Z.land h0 0xFFFFFFFFFFF in
  let h1 := u64 (h1 + u64 (Z.land (Z.lor (wshr t0 44) (wshl 64 t1 20)) 0xFFFFFFFFFFF + c)) in
  let c := wshr h1 44 in
  let h1 := Z.land h1 0xFFFFFFFFFFF in
  let h2 := u64 (h2 + u64 (Z.land (wshr t1 24) 0x3FFFFFFFFFF + c)) in
  let h2 := Z.land h2 0x3FFFFFFFFFF in
  (Z.lor h0 (wshl 64 h1 44), Z.lor (wshr h1 20) (wshl 64 h2 24)).
(** Poly1305.cpp:92-183 Finalize(std::vector); Position and the buffer are not reset *)
Definition Poly_Finalize (o : poly_obj) (out : list Z) (oo : nat) : res (poly_obj * list Z) :=
  _ <- guard (p_init o) NotInitialized ;;
  _ <- guard (negb ((oo <=? length out)%nat && (length out - oo <? 16)%nat)) InvalidSize ;;
  r <- (if negb (p_pos o =? 0)%nat then
          buf <- put (p_buf o) (p_pos o) 1 ;;
          let rmd := (length buf - p_pos o - 1)%nat in
          buf <- wr buf (p_pos o + 1) (zeros rmd) ;;
          h <- (let '(r0, r1, r2) := p_r o in poly_block r0 r1 r2 0 (p_h o) buf 0) ;;
          Ok (buf, h)
        else Ok (p_buf o, p_h o)) ;;
  let '(buf, h) := r in
  let '(w0, w1) := poly_finish h (p_pad o) in
  out <- Le64ToBytes w0 out oo ;;
  out <- Le64ToBytes w1 out (oo + 8) ;;
  Ok (Poly (p_r o) h (p_pad o) buf (p_pos o) true, out).
(** Poly1305.cpp:185-193 Finalize(SecureVector): SecureMove does not check the output array, SecureVector.h:396-403 *)
Definition Poly_FinalizeS (o : poly_obj) (out : list Z) (oo : nat) : res (poly_obj * list Z) :=
  r <- Poly_Finalize o (zeros 16) 0 ;;
  let '(o, tag) := r in
  out <- wcopy tag 0 out oo 16 ;;
  Ok (o, out).
(** Poly1305.cpp:77-90 Compute *)
Definition Poly_Compute (o : poly_obj) (inp out : list Z) : res (poly_obj * list Z) :=
  _ <- guard (p_init o) NotInitialized ;;
  _ <- guard (negb (length out <? 16)%nat) InvalidSize ;;
  o <- Poly_Update o inp 0 (length inp) ;;
  Poly_Finalize o out 0.
(** Poly1305.cpp:224-228 Reset *)
Definition Poly_Reset (o : poly_obj) : res poly_obj := Ok Poly_new.
End poly.
