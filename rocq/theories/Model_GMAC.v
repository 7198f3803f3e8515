(** Model of CEX/GMAC.cpp over an arbitrary 128-bit block cipher [E key block] with legal key sizes [legal] (the cipher's
    Initialize refuses every other size).  The carry-less multiplication is the portable one (Model_GHASH). *)
From Verif Require Import Base Model_IntegerTools Model_Modes Model_GHASH Model_KDF.
Open Scope Z_scope.

(** GMAC.cpp:17-55 GmacState: Hash, Buffer and Position are the GHASH record; State; Nonce; Counter; IsInitialized; and the
    key the cipher was last initialized with *)
Record gmac := { ga_gh : ghash; ga_state : list Z; ga_nonce : list Z; ga_count : nat; ga_key : list Z; ga_init : bool }.
(** GMAC.cpp:28-36, 60-120 constructors *)
Definition GMAC_new : gmac := {| ga_gh := GHASH_Reset; ga_state := zeros 16; ga_nonce := []; ga_count := 0; ga_key := []; ga_init := false |}.
(** GMAC.cpp:43-54, 273-276 Reset: the nonce keeps its size *)
Definition GMAC_Reset (o : gmac) : res gmac :=
  Ok {| ga_gh := GHASH_Reset; ga_state := zeros 16; ga_nonce := zeros (length (ga_nonce o)); ga_count := 0; ga_key := ga_key o; ga_init := false |}.

Section gmac.
Context (E : list Z -> list Z -> list Z) (legal : nat -> bool).
(** GMAC.cpp:240-266 Initialize: the nonce block.  Multiply (:345-361) and PreCompute (:379-396) are the statements of
    GHASH::Multiply and GHASH::Finalize.  MINSALT_LENGTH = 12 (GMAC.h); y0 is copied over the first 16 bytes *)
Definition GMAC_nonce (gh : ghash) (old iv : list Z) : res (ghash * list Z) :=
  n <- wcopy iv 0 (resized old (length iv)) 0 (length iv) ;;
  if (length n =? 12)%nat then
    n <- put (resized n 16) 15 1 ;; Ok (gh, n)
  else
    y0 <- GHASH_Multiply gh n (zeros 16) (length n) ;;
    r <- GHASH_Finalize gh y0 0 (length n) ;;
    let '(gh, y0) := r in
    n <- (if (16 <? length n)%nat then wr n 16 (zeros (length n - 16)) else Ok n) ;;
    n <- wcopy y0 0 (resized n 16) 0 16 ;;
    Ok (gh, n).
(** GMAC.cpp:198-271 Initialize: the exception, if any, and the object it leaves.  MINKEY_LENGTH = 16; the cipher checks the
    key size after the Reset *)
Definition GMAC_Initialize (o : gmac) (key iv : list Z) : res (gmac * option err) :=
  if (length key <? 16)%nat then Ok (o, Some InvalidKey)
  else if (length iv <? 12)%nat then Ok (o, Some InvalidSalt)
  else
    o <- (if ga_init o then GMAC_Reset o else Ok o) ;;
    if negb (legal (length key)) then Ok (o, Some InvalidKey)
    else
      tmph <- blk (E key) (zeros 16) 0 (zeros 16) 0 ;;
      k0 <- BeBytesTo64 tmph 0 ;; k1 <- BeBytesTo64 tmph 8 ;;
      r <- GMAC_nonce (GHASH_Initialize (ga_gh o) (k0, k1)) (ga_nonce o) iv ;;
      let '(gh, n) := r in
      n <- blk (E key) n 0 n 0 ;;
      Ok ({| ga_gh := gh; ga_state := ga_state o; ga_nonce := n; ga_count := ga_count o; ga_key := key; ga_init := true |}, None).
(** GMAC.cpp:278-294 Update; Absorb (:298-336) is the text of GHASH::Update on State.  `Input.size() - InOffset` is unsigned;
    Counter is a size_t *)
Definition GMAC_Update (o : gmac) (inp : list Z) (io len : nat) : res gmac :=
  _ <- guard (ga_init o) NotInitialized ;;
  _ <- guard (negb ((io <=? length inp)%nat && (length inp - io <? len)%nat)) InvalidSize ;;
  if (len =? 0)%nat then Ok o
  else
    r <- GHASH_Update (ga_gh o) inp io (ga_state o) len ;;
    let '(gh, st) := r in
    Ok {| ga_gh := gh; ga_state := st; ga_nonce := ga_nonce o; ga_count := (ga_count o + len)%nat; ga_key := ga_key o; ga_init := true |}.
(** GMAC.cpp:168-185 Finalize(std::vector) *)
Definition GMAC_Finalize (o : gmac) (out : list Z) (oo : nat) : res (gmac * list Z) :=
  _ <- guard (ga_init o) NotInitialized ;;
  _ <- guard (negb ((oo <=? length out)%nat && (length out - oo <? 16)%nat)) InvalidSize ;;
  r <- GHASH_Finalize (ga_gh o) (ga_state o) (ga_count o) 0 ;;
  let '(_, st) := r in
  st <- wxor (ga_nonce o) 0 st 0 16 ;;
  out <- wcopy st 0 out oo 16 ;;
  o <- GMAC_Reset o ;;
  Ok (o, out).
(** GMAC.cpp:187-196 Finalize(SecureVector): SecureMove does not check the output array *)
Definition GMAC_FinalizeS (o : gmac) (out : list Z) (oo : nat) : res (gmac * list Z) :=
  r <- GMAC_Finalize o (zeros 16) 0 ;;
  let '(o, tag) := r in
  out <- wcopy tag 0 out oo 16 ;;
  Ok (o, out).
(** GMAC.cpp:153-166 Compute *)
Definition GMAC_Compute (o : gmac) (inp out : list Z) : res (gmac * list Z) :=
  _ <- guard (ga_init o) NotInitialized ;;
  _ <- guard (negb (length out <? 16)%nat) InvalidSize ;;
  o <- GMAC_Update o inp 0 (length inp) ;;
  GMAC_Finalize o out 0.
End gmac.
