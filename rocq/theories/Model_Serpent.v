(** Model of the Serpent functions of CEX/Serpent.h (S-boxes and linear transformations: Model_SerpentGen.v) and of the cipher
    object SHX of CEX/SHX.cpp without AVX. *)
From Verif Require Import Base Model_IntegerTools Model_Modes Model_Straight Model_SerpentGen Model_KDF Model_Keys Model_RHX.
Open Scope Z_scope.

(** Serpent.h:309-321, 339-351, 370-end: a function on the references R0 .. R3; B4 is a local variable *)
Definition on4 (p : prog) (r : list Z) : list Z := firstn 4 (exec 32 p (r ++ [0])).
Definition Sb (k : nat) : list Z -> list Z := on4 (nth k [Sb0_prog; Sb1_prog; Sb2_prog; Sb3_prog; Sb4_prog; Sb5_prog; Sb6_prog; Sb7_prog] []).
Definition Ib (k : nat) : list Z -> list Z := on4 (nth k [Ib0_prog; Ib1_prog; Ib2_prog; Ib3_prog; Ib4_prog; Ib5_prog; Ib6_prog; Ib7_prog] []).
Definition LinearTransform : list Z -> list Z := on4 LinearTransform_prog.
Definition InverseTransform : list Z -> list Z := on4 InverseTransform_prog.

(** ** key schedule *)
(** SHX.cpp:377, 386: RotL32(w[i-8] ^ w[i-5] ^ w[i-3] ^ w[i-1] ^ PHI ^ n, 11), n the size_t [i - 8] or [i]; :396, 405 the form
    with eight terms.  [taps]: the distances *)
Definition PHI : Z := 0x9E3779B9.
Definition mixed (taps : list nat) (w : list Z) (i n : nat) : res Z :=
  x <- fold_left (fun x t => x <- x ;; a <- get w (i - t) ;; Ok (Z.lxor x a)) taps (Ok 0) ;;
  Ok (wrotl 32 (u32 (Z.lxor (Z.lxor x PHI) (Z.of_nat n))) 11).
(** SHX.cpp:415-416 and the following pairs: S-box k on four elements of RoundKeys, in place *)
Definition sbox_at (k : nat) (rk : list Z) (kctr : nat) : res (list Z) :=
  r <- rd rk kctr 4 ;; wr rk kctr (Sb k r).
(** SHX.cpp:413-431; [fuel]: the loop stops by its condition first *)
Fixpoint working_keys (fuel : nat) (rk : list Z) (kctr : nat) : res (list Z * nat) :=
  match fuel with
  | O => UB
  | S fuel =>
    if (kctr <? length rk - 4)%nat then
      rk <- sbox_at 3 rk kctr ;; rk <- sbox_at 2 rk (kctr + 4) ;; rk <- sbox_at 1 rk (kctr + 8) ;; rk <- sbox_at 0 rk (kctr + 12) ;;
      rk <- sbox_at 7 rk (kctr + 16) ;; rk <- sbox_at 6 rk (kctr + 20) ;; rk <- sbox_at 5 rk (kctr + 24) ;; rk <- sbox_at 4 rk (kctr + 28) ;;
      working_keys fuel rk (kctr + 32)
    else Ok (rk, kctr)
  end.
(** SHX.cpp:341-435 StandardExpand: (Rounds, RoundKeys); [old]: RoundKeys before the call.  The keys that reach it have a length
    divisible by four.  The copies of words (:381, 400) are given sizes in bytes *)
Definition SHX_StandardExpand (old key : list Z) : res (nat * list Z) :=
  let wpklen := if (length key <? 32)%nat then 16%nat else (length key / 2)%nat in
  let rounds := if (length key =? 64)%nat then 40%nat else 32%nat in
  let klen := (4 * (rounds + 1))%nat in
  tmpw <- for_up 0 (length key / 4) (fun k w => x <- BeBytesTo32 key (length key - 4 * k - 4) ;; put w k x) (zeros wpklen) ;;
  let kidx := (length key / 4)%nat in
  tmpw <- (if (kidx <? 8)%nat then put tmpw kidx 1 else Ok tmpw) ;;
  let rk := resized old klen in
  rk <- (if (wpklen =? 16)%nat then
    tmpw <- for_up 8 8 (fun i w => x <- mixed [8; 5; 3; 1]%nat w i (i - 8) ;; put w i x) tmpw ;;
    rk <- wcopy tmpw 8 rk 0 8 ;;
    for_up 8 (klen - 8) (fun i rk => x <- mixed [8; 5; 3; 1]%nat rk i i ;; put rk i x) rk
  else
    tmpw <- for_up 16 16 (fun i w => x <- mixed [16; 13; 11; 10; 8; 5; 3; 1]%nat w i (i - 16) ;; put w i x) tmpw ;;
    rk <- wcopy tmpw 16 rk 0 16 ;;
    for_up 16 (klen - 16) (fun i rk => x <- mixed [16; 13; 11; 10; 8; 5; 3; 1]%nat rk i i ;; put rk i x) rk) ;;
  r <- working_keys (length rk) rk 0 ;;
  rk <- sbox_at 3 (fst r) (snd r) ;;
  Ok (rounds, rk).

(** ** blocks; [inp = None]: Input and Output are the same array *)
(** SHX.cpp:623-626: R0 ^= RoundKeys[kctr] to R3 ^= RoundKeys[kctr + 3] *)
Definition key_in (rk : list Z) (kctr : nat) (r : list Z) : res (list Z) := k <- rd rk kctr 4 ;; Ok (xorl r k).
(** SHX.cpp:620-686 *)
Fixpoint enc_blocks (fuel : nat) (rk : list Z) (kctr : nat) (r : list Z) : res (list Z * nat) :=
  match fuel with
  | O => UB
  | S fuel =>
    r <- key_in rk kctr r ;; let r := LinearTransform (Sb 0 r) in
    r <- key_in rk (kctr + 4) r ;; let r := LinearTransform (Sb 1 r) in
    r <- key_in rk (kctr + 8) r ;; let r := LinearTransform (Sb 2 r) in
    r <- key_in rk (kctr + 12) r ;; let r := LinearTransform (Sb 3 r) in
    r <- key_in rk (kctr + 16) r ;; let r := LinearTransform (Sb 4 r) in
    r <- key_in rk (kctr + 20) r ;; let r := LinearTransform (Sb 5 r) in
    r <- key_in rk (kctr + 24) r ;; let r := LinearTransform (Sb 6 r) in
    r <- key_in rk (kctr + 28) r ;; let r := Sb 7 r in
    let kctr := (kctr + 32)%nat in
    if negb (kctr =? length rk - 4)%nat then enc_blocks fuel rk kctr (LinearTransform r) else Ok (r, kctr)
  end.
(** SHX.cpp:615-618 and 450-453: the words of the input block, :689-692 and 529-532: the block written word by word *)
Definition load4 (inp : list Z) (io : nat) : res (list Z) :=
  a <- LeBytesTo32 inp io ;; b <- LeBytesTo32 inp (io + 4) ;; c <- LeBytesTo32 inp (io + 8) ;; d <- LeBytesTo32 inp (io + 12) ;; Ok [a; b; c; d].
Definition store4 (r out : list Z) (oo : nat) : res (list Z) :=
  out <- Le32ToBytes (nth 0 r 0) out oo ;; out <- Le32ToBytes (nth 1 r 0) out (oo + 4) ;;
  out <- Le32ToBytes (nth 2 r 0) out (oo + 8) ;; Le32ToBytes (nth 3 r 0) out (oo + 12).
(** SHX.cpp:604-693 *)
Definition SHX_Encrypt128 (rk : list Z) (inp : option (list Z)) (io : nat) (out : list Z) (oo : nat) : res (list Z) :=
  r <- load4 (src inp out) io ;;
  p <- enc_blocks (length rk) rk 0 r ;;
  r <- key_in rk (snd p) (fst p) ;;
  store4 r out oo.
(** SHX.cpp:464-467: R3 ^= RoundKeys[kctr - 1] to R0 ^= RoundKeys[kctr - 4]; kctr is a size_t, [rd] needs kctr >= 4 *)
Definition key_out (rk : list Z) (kctr : nat) (r : list Z) : res (list Z) :=
  _ <- safe (4 <=? kctr)%nat ;; key_in rk (kctr - 4) r.
(** SHX.cpp:460-526 *)
Fixpoint dec_blocks (fuel : nat) (rk : list Z) (kctr : nat) (r : list Z) : res (list Z * nat) :=
  match fuel with
  | O => UB
  | S fuel =>
    r <- key_out rk kctr (Ib 7 r) ;; let r := InverseTransform r in
    r <- key_out rk (kctr - 4) (Ib 6 r) ;; let r := InverseTransform r in
    r <- key_out rk (kctr - 8) (Ib 5 r) ;; let r := InverseTransform r in
    r <- key_out rk (kctr - 12) (Ib 4 r) ;; let r := InverseTransform r in
    r <- key_out rk (kctr - 16) (Ib 3 r) ;; let r := InverseTransform r in
    r <- key_out rk (kctr - 20) (Ib 2 r) ;; let r := InverseTransform r in
    r <- key_out rk (kctr - 24) (Ib 1 r) ;; let r := InverseTransform r in
    let r := Ib 0 r in let kctr := (kctr - 28)%nat in
    if negb (kctr =? 4)%nat then
      r <- key_out rk kctr r ;; let r := InverseTransform r in
      let kctr := (kctr - 4)%nat in
      if negb (kctr =? 4)%nat then dec_blocks fuel rk kctr r else Ok (r, kctr)
    else Ok (r, kctr)
  end.
(** SHX.cpp:439-533; the last four stores are in descending order *)
Definition SHX_Decrypt128 (rk : list Z) (inp : option (list Z)) (io : nat) (out : list Z) (oo : nat) : res (list Z) :=
  r <- load4 (src inp out) io ;;
  r <- key_out rk (length rk) r ;;
  p <- dec_blocks (length rk) rk (length rk - 4) r ;;
  r <- key_out rk (snd p) (fst p) ;;
  out <- Le32ToBytes (nth 3 r 0) out (oo + 12) ;; out <- Le32ToBytes (nth 2 r 0) out (oo + 8) ;;
  out <- Le32ToBytes (nth 1 r 0) out (oo + 4) ;; Le32ToBytes (nth 0 r 0) out oo.

(** ** the object: the same fields as RHX *)
(** SHX.cpp:27-31 *)
Definition SHX_LegalKeySizes : list ksize := map (fun k => KeySize_new k 16 32) [16; 24; 32; 64].
(** SHX.cpp:309-339 *)
Definition SHX_SecureExpand {G} (x : kgen G) (o : bc_obj G) (key custom : list Z) : res (bc_obj G * option err) :=
  let rounds := if (length key =? 32)%nat then 40%nat else if (length key =? 64)%nat then 48%nat else 64%nat in
  let klen := (4 * (rounds + 1))%nat in
  r <- xg_init x (bc_gen o) key [] custom ;;
  match snd r with
  | Some e => Ok (BCo rounds (bc_rk o) (bc_encr o) (bc_on o) (fst r), Some e)
  | None =>
    match xg_fill x (fst r) (zeros (klen * 4)) with
    | Ok (g, tmpr) => Ok (BCo rounds (words_from tmpr) (bc_encr o) (bc_on o) g, None)
    | Throw e => Ok (BCo rounds (bc_rk o) (bc_encr o) (bc_on o) (fst r), Some e)
    | UB => UB
    end
  end.
(** SHX.cpp:200-233; the state is not Reset first *)
Definition SHX_Initialize {G} (x : option (kgen G)) (o : bc_obj G) (enc : bool) (key info : list Z) : res (bc_obj G * option err) :=
  if negb (KeySize_Contains SHX_LegalKeySizes (Z.of_nat (length key) mod 2 ^ 32) 0 0) then Ok (o, Some InvalidKey) else
  let o := BCo (bc_rounds o) (bc_rk o) enc (bc_on o) (bc_gen o) in
  r <- match x with
       | Some x => c <- make_custom (xg_name x) key info ;; SHX_SecureExpand x o key c
       | None => r <- SHX_StandardExpand (bc_rk o) key ;; Ok (BCo (fst r) (snd r) (bc_encr o) (bc_on o) (bc_gen o), None)
       end ;;
  let '(o, e) := r in
  match e with
  | Some e => Ok (o, Some e)
  | None => Ok (BCo (bc_rounds o) (bc_rk o) (bc_encr o) true (bc_gen o), None)
  end.
(** SHX.cpp:180-198 *)
Definition SHX_EncryptBlock {G} (o : bc_obj G) := SHX_Encrypt128 (bc_rk o).
Definition SHX_DecryptBlock {G} (o : bc_obj G) := SHX_Decrypt128 (bc_rk o).
(** SHX.cpp:235-305, 535-602, 695-764: 1, 2, 4, 8 or 16 blocks in order *)
Definition SHX_Transform {G} (o : bc_obj G) (k : nat) (inp : option (list Z)) (io : nat) (out : list Z) (oo : nat) : res (list Z) :=
  if bc_encr o then doubled (SHX_EncryptBlock o) k inp io out oo else doubled (SHX_DecryptBlock o) k inp io out oo.
