(** Model of CEX/CMAC.cpp over an arbitrary 128-bit block cipher [E key block] with legal key sizes [legal]
    (CBC.cpp:193: CBC::Initialize refuses every other size). *)
From Verif Require Import Base Model_IntegerTools Model_Modes Model_Absorb.
Open Scope Z_scope.

(** CMAC.cpp:12-45 CmacState, the IV of the CBC mode, and the key the cipher was last initialized with *)
Record cmac_obj := {
  c_key : list Z; c_iv : list Z; c_state : list Z; c_buf : list Z; c_pos : nat;
  c_k1 : list Z; c_k2 : list Z; c_init : bool }.

(** CMAC.cpp:317-337 ShiftLeft: the same loop as IntegerTools::ShiftLeft (IntegerTools.h:2471-2496).
    CMAC.cpp:293-300 DoubleLu; MIX_C128 = 0x87 (CMAC.h) *)
Definition DoubleLu (inp out : list Z) : res (list Z) :=
  r <- ShiftLeft inp out ;;
  let '(out, carry) := r in
  x <- get out (length inp - 1) ;;
  put out (length inp - 1) (Z.lxor x (u8 (wshr 0x87 (Z.shiftl (1 - carry) 3)))).

(** CMAC.cpp:302-315 Pad(Buffer, Position, 16); CMAC_FINAL = 0x80 *)
Definition CMAC_Pad (buf : list Z) (off len : nat) : res (list Z) :=
  if (off =? len)%nat then Ok buf
  else buf <- put buf off 0x80 ;; wr buf (off + 1) (zeros (len - (off + 1))).

Section cmac.
Context (E : list Z -> list Z -> list Z) (legal : nat -> bool).

(** CMAC.cpp:50-110 constructors *)
Definition CMAC_new : cmac_obj :=
  {| c_key := []; c_iv := zeros 16; c_state := zeros 16; c_buf := zeros 16; c_pos := 0; c_k1 := []; c_k2 := []; c_init := false |}.
(** CMAC.cpp:233-244 Reset *)
Definition CMAC_Reset (o : cmac_obj) : res cmac_obj :=
  Ok {| c_key := c_key o; c_iv := zeros 16; c_state := zeros 16; c_buf := zeros 16; c_pos := 0; c_k1 := []; c_k2 := []; c_init := false |}.
(** CMAC.cpp:191-231 Initialize; CBC::Initialize loads the (zero) IV, CBC.cpp:210-213 *)
Definition CMAC_Initialize (o : cmac_obj) (key : list Z) : res (cmac_obj * option err) :=
  if (length key <? 16)%nat then Ok (o, Some InvalidKey)
  else
    o <- (if c_init o then CMAC_Reset o else Ok o) ;;
    if negb (legal (length key)) then Ok (o, Some InvalidKey)
    else
      r <- CBC_Encrypt128 (E key) (Some (zeros 16)) 0 (zeros 16) 0 (zeros 16) ;;
      let '(lu, _) := r in
      k1 <- DoubleLu lu (zeros 16) ;;
      k2 <- DoubleLu k1 (zeros 16) ;;
      Ok ({| c_key := key; c_iv := zeros 16; c_state := c_state o; c_buf := c_buf o; c_pos := c_pos o; c_k1 := k1; c_k2 := k2; c_init := true |}, None).
(** one EncryptBlock call: state (IV, State) *)
Definition CMAC_block (key : list Z) (s : list Z * list Z) (inp : list Z) (io : nat) : res (list Z * list Z) :=
  r <- CBC_Encrypt128 (E key) (Some inp) io (snd s) 0 (fst s) ;; Ok (snd r, fst r).
(** CMAC.cpp:246-289 Update; `Input.size() - InOffset` is unsigned *)
Definition CMAC_Update (o : cmac_obj) (inp : list Z) (io len : nat) : res cmac_obj :=
  _ <- guard (c_init o) NotInitialized ;;
  _ <- guard (negb ((io <=? length inp)%nat && (length inp - io <? len)%nat)) InvalidSize ;;
  r <- lazy_update 16 (CMAC_block (c_key o)) ((c_iv o, c_state o), c_buf o, c_pos o) inp io len ;;
  let '((iv, st), buf, pos) := r in
  Ok {| c_key := c_key o; c_iv := iv; c_state := st; c_buf := buf; c_pos := pos; c_k1 := c_k1 o; c_k2 := c_k2 o; c_init := true |}.
(** CMAC.cpp:152-178 Finalize(std::vector); the position is not reset *)
Definition CMAC_Finalize (o : cmac_obj) (out : list Z) (oo : nat) : res (cmac_obj * list Z) :=
  _ <- guard (c_init o) NotInitialized ;;
  _ <- guard (negb ((oo <=? length out)%nat && (length out - oo <? 16)%nat)) InvalidSize ;;
  buf <- CMAC_Pad (c_buf o) (c_pos o) (length (c_buf o)) ;;
  buf <- (if negb (c_pos o =? 16)%nat then wxor (c_k2 o) 0 buf 0 16 else wxor (c_k1 o) 0 buf 0 16) ;;
  s <- CMAC_block (c_key o) (c_iv o, c_state o) buf 0 ;;
  let '(iv, st) := s in
  out <- wcopy st 0 out oo 16 ;;
  Ok ({| c_key := c_key o; c_iv := iv; c_state := st; c_buf := buf; c_pos := c_pos o; c_k1 := c_k1 o; c_k2 := c_k2 o; c_init := true |}, out).
(** CMAC.cpp:180-189 Finalize(SecureVector): SecureMove does not check the output array, SecureVector.h:396-403 *)
Definition CMAC_FinalizeS (o : cmac_obj) (out : list Z) (oo : nat) : res (cmac_obj * list Z) :=
  r <- CMAC_Finalize o (zeros 16) 0 ;;
  let '(o, tag) := r in
  out <- wcopy tag 0 out oo 16 ;;
  o <- CMAC_Reset o ;;
  Ok (o, out).
(** CMAC.cpp:132-150 Compute; Output.resize(16) keeps the first 16 bytes *)
Definition CMAC_Compute (o : cmac_obj) (inp out : list Z) : res (cmac_obj * list Z) :=
  _ <- guard (c_init o) NotInitialized ;;
  _ <- guard (negb (length out <? 16)%nat) InvalidSize ;;
  o <- CMAC_Update o inp 0 (length inp) ;;
  CMAC_Finalize o (firstn 16 out) 0.
End cmac.
