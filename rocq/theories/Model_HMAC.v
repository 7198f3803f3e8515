(** Model of CEX/HMAC.cpp over an arbitrary digest object (IDigest): block size [rate], digest size [n],
    Update [dupd], Finalize [dfin], and the state [dnew] that Reset and the constructor establish.
    Also the stateless HMACs of CEX/SHA2.h. *)
From Verif Require Import Base Model_IntegerTools Model_Modes Model_SHA2 Model_Absorb.
Open Scope Z_scope.

(** MemoryTools.h:1579-1641 XorPad: every byte xor N *)
Definition XorPad (out : list Z) (n : Z) : list Z := map (fun x => Z.lxor x n) out.

Section hmac.
Context {D : Type} (rate n : nat) (dupd : D -> list Z -> nat -> nat -> res D) (dfin : D -> list Z -> nat -> res (D * list Z)) (dnew : D).
(** HMAC.cpp:15-53 HmacState and the generator *)
Record hmac_obj := { h_gen : D; h_ipad : list Z; h_opad : list Z; h_init : bool }.
(** HMAC.cpp:57-110 constructors; a digest instance passed in is taken to be fresh *)
Definition HMAC_new : hmac_obj := {| h_gen := dnew; h_ipad := zeros rate; h_opad := zeros rate; h_init := false |}.
(** HMAC.cpp:247-252 Reset *)
Definition HMAC_Reset (o : hmac_obj) : res hmac_obj :=
  Ok {| h_gen := dnew; h_ipad := zeros (length (h_ipad o)); h_opad := zeros (length (h_opad o)); h_init := false |}.
(** HMAC.cpp:200-245 Initialize; MinimumKeySize() is 8 (HMAC.h MINKEY_LENGTH) *)
Definition HMAC_Initialize (o : hmac_obj) (key : list Z) : res (hmac_obj * option err) :=
  if (length key <? 8)%nat then Ok (o, Some InvalidKey)
  else
    o <- (if h_init o then HMAC_Reset o else Ok o) ;;
    let klen := length key in
    r <- (if (rate <? klen)%nat then
            g <- dupd (h_gen o) key 0 klen ;;
            r <- dfin g (h_ipad o) 0 ;;
            Ok (fst r, snd r, n)
          else ip <- wcopy key 0 (h_ipad o) 0 klen ;; Ok (h_gen o, ip, klen)) ;;
    let '(g, ip, klen) := r in
    ip <- (if (klen <? rate)%nat then wr ip klen (zeros (rate - klen)) else Ok ip) ;;
    op <- wcopy ip 0 (h_opad o) 0 (length ip) ;;
    let ip := XorPad ip 0x36 in
    let op := XorPad op 0x5C in
    g <- dupd g ip 0 (length ip) ;;
    Ok ({| h_gen := g; h_ipad := ip; h_opad := op; h_init := true |}, None).
(** HMAC.cpp:254-266 Update *)
Definition HMAC_Update (o : hmac_obj) (inp : list Z) (io len : nat) : res hmac_obj :=
  _ <- guard (h_init o) NotInitialized ;;
  _ <- guard (negb ((io <=? length inp)%nat && (length inp - io <? len)%nat)) InvalidSize ;;
  g <- dupd (h_gen o) inp io len ;;
  Ok {| h_gen := g; h_ipad := h_ipad o; h_opad := h_opad o; h_init := true |}.
(** HMAC.cpp:168-188 Finalize(std::vector) *)
Definition HMAC_Finalize (o : hmac_obj) (out : list Z) (oo : nat) : res (hmac_obj * list Z) :=
  _ <- guard (h_init o) NotInitialized ;;
  _ <- guard (negb ((oo <=? length out)%nat && (length out - oo <? n)%nat)) InvalidSize ;;
  r <- dfin (h_gen o) (zeros n) 0 ;;
  let '(g, tmpv) := r in
  g <- dupd g (h_opad o) 0 (length (h_opad o)) ;;
  g <- dupd g tmpv 0 (length tmpv) ;;
  r <- dfin g out oo ;;
  let '(g, out) := r in
  g <- dupd g (h_ipad o) 0 (length (h_ipad o)) ;;
  Ok ({| h_gen := g; h_ipad := h_ipad o; h_opad := h_opad o; h_init := true |}, out).
(** HMAC.cpp:190-198 Finalize(SecureVector) *)
Definition HMAC_FinalizeS (o : hmac_obj) (out : list Z) (oo : nat) : res (hmac_obj * list Z) :=
  r <- HMAC_Finalize o (zeros n) 0 ;;
  let '(o, tag) := r in
  out <- wcopy tag 0 out oo n ;;
  Ok (o, out).
(** HMAC.cpp:153-166 Compute *)
Definition HMAC_Compute (o : hmac_obj) (inp out : list Z) : res (hmac_obj * list Z) :=
  _ <- guard (h_init o) NotInitialized ;;
  _ <- guard (negb (length out <? n)%nat) InvalidSize ;;
  o <- HMAC_Update o inp 0 (length inp) ;;
  HMAC_Finalize o out 0.
End hmac.
Arguments hmac_obj : clear implicits.

(** ** The stateless forms SHA2.h:195-266 MACR64P512 and SHA2.h:1130-1199 MACR80P1024.
    The two functions have the same text up to the block size [R], the digest size [n], the length field
    (at R - L), the permutation, the initial state, and how the length and the words are stored.
    The key is copied without a size check (only a CEXASSERT). *)
Section stateless.
Context (R L n : nat) (perm : list Z -> nat -> list Z -> res (list Z)) (iv : list Z)
  (put_len : Z -> list Z -> res (list Z)) (put_words : list Z -> list Z -> nat -> res (list Z)).
Definition stateless_mac (key inp : list Z) (io len : nat) (out : list Z) (oo : nat) : res (list Z) :=
  ipad <- wcopy key 0 (zeros R) 0 (length key) ;;
  let opad := XorPad ipad 0x5C in
  let ipad := XorPad ipad 0x36 in
  h <- perm ipad 0 iv ;;
  r <- eager_blocks R (fun (s : list Z * Z) inp io => h <- perm inp io (fst s) ;; Ok (h, u64 (snd s + Z.of_nat R))) len (h, Z.of_nat R) inp io len ;;
  let '(s, io, len) := r in
  let t := u64 (snd s + Z.of_nat len) in
  let bitlen := wshl 64 t 3 in
  buf <- wcopy inp io (zeros R) 0 len ;;
  buf <- put buf len 128 ;;
  let len := S len in
  r <- (if (R - L <? len)%nat then h <- perm buf 0 (fst s) ;; Ok (h, zeros R) else Ok (fst s, buf)) ;;
  let '(h, buf) := r in
  buf <- put_len bitlen buf ;;
  h <- perm buf 0 h ;;
  buf <- put_words h buf 0 ;;
  buf <- wr buf n (zeros n) ;;
  h <- perm opad 0 iv ;;
  let bitlen := wshl 64 (Z.of_nat (R + n)) 3 in
  buf <- put buf n 128 ;;
  buf <- put_len bitlen buf ;;
  h <- perm buf 0 h ;;
  put_words h out oo.
End stateless.
(** SHA2.h:237-239, 257-259: two 32-bit halves at 56 and 60 *)
Definition MACR64P512 : list Z -> list Z -> nat -> nat -> list Z -> nat -> res (list Z) :=
  stateless_mac 64 8 32 PermuteR64P512U SHA2256State
    (fun bitlen buf => buf <- Be32ToBytes (wshr bitlen 32) buf 56 ;; Be32ToBytes (u32 bitlen) buf 60) (BeWordsToBlock 4).
(** SHA2.h:1172-1173, 1191-1192: t[1], which stays 0, at 112 and the bit length at 120 *)
Definition MACR80P1024 : list Z -> list Z -> nat -> nat -> list Z -> nat -> res (list Z) :=
  stateless_mac 128 16 64 PermuteR80P1024U SHA2512State
    (fun bitlen buf => buf <- Be64ToBytes 0 buf 112 ;; Be64ToBytes bitlen buf 120) (BeWordsToBlock 8).
