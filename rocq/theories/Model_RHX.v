(** Model of the cipher object RHX of CEX/RHX.cpp without AVX (block functions and key schedule: Model_Rijndael.v), and of
    the two kinds of key generator an extended variant uses. *)
From Verif Require Import Base Model_IntegerTools Model_Modes Model_Rijndael Model_KDF Model_SHAKE Model_Keys.
Open Scope Z_scope.

(** the key generator of an extended cipher, an IKdf: its state, Initialize(SymmetricKey(key, iv, info)) with the state left by
    an exception, Generate(SecureVector), and the cipher's name [xg_name] when this is the generator (RHX.cpp:107-144, 161-168) *)
Record kgen (G : Type) := {
  xg_name : list Z;
  xg_init : G -> list Z -> list Z -> list Z -> res (G * option err);
  xg_fill : G -> list Z -> res (G * list Z) }.
Arguments xg_name {G}. Arguments xg_init {G}. Arguments xg_fill {G}.
(** an array of [m] words after copying [length b] bytes to its start: MemoryTools.h Copy into SecureVector<uint32_t> on a
    little-endian machine; b covers the array *)
Definition words_from (b : list Z) : list Z := map le_val (chunks 4 b).

(** RHX.cpp:14-46, 71-87 RhxState and the generator.  Custom is rebuilt by every Initialize that reads it: not kept *)
Record bc_obj (G : Type) := BCo { bc_rounds : nat; bc_rk : list Z; bc_encr : bool; bc_on : bool; bc_gen : G }.
Arguments BCo {G}. Arguments bc_rounds {G}. Arguments bc_rk {G}. Arguments bc_encr {G}. Arguments bc_on {G}. Arguments bc_gen {G}.
(** RHX.cpp:71-87; [g]: the generator as its constructor leaves it *)
Definition RHX_new {G} (g : G) : bc_obj G := BCo 0 [0] false false g.
(** RHX.cpp:25-29, RHX.h:122-127: the same list for every variant *)
Definition RHX_LegalKeySizes : list ksize := map (fun k => KeySize_new k 16 32) [16; 24; 32; 64].
(** RHX.cpp:57-66; MemoryTools::Clear is given the size in bytes *)
Definition RHX_Reset {G} (o : bc_obj G) : bc_obj G := BCo (bc_rounds o) (zeros (length (bc_rk o))) false false (bc_gen o).
(** RHX.cpp:216-230, SHX.cpp:210-220: the customization string.  Info is a std::vector, InfoSize its length as uint32_t *)
Definition make_custom (name key info : list Z) : res (list Z) :=
  let isz := Z.to_nat (Z.of_nat (length info) mod 2 ^ 32) in
  let c := zeros (length name + 2 + isz) in
  c <- wcopy name 0 c 0 (length name) ;;
  c <- Le16ToBytes (u16 (u16 (Z.of_nat (length key) mod 2 ^ 32) * 8)) c (length name) ;;
  wcopy info 0 c (length name + 2) isz.
(** RHX.cpp:386-415 SecureExpand without AVX, Rounds first; the generator's exceptions leave the rest unchanged *)
Definition RHX_SecureExpand {G} (x : kgen G) (o : bc_obj G) (key custom : list Z) : res (bc_obj G * option err) :=
  let rounds := if negb (length key =? 128)%nat then (length key / 4 + 14)%nat else 38%nat in
  let klen := (4 * (rounds + 1))%nat in
  r <- xg_init x (bc_gen o) key [] custom ;;
  match snd r with
  | Some e => Ok (BCo rounds (bc_rk o) (bc_encr o) (bc_on o) (fst r), Some e)
  | None =>
    match xg_fill x (fst r) (zeros (klen * 4)) with
    | Ok (g, tmpr) => Ok (BCo rounds (words_from tmpr) (bc_encr o) (bc_on o) g, None)
    | Throw e => Ok (BCo rounds (bc_rk o) (bc_encr o) (bc_on o) (fst r), Some e)
    | UB => UB
    end
  end.
(** RHX.cpp:202-270 Initialize without AVX; [x = None]: no generator.  The IV is not looked at *)
Definition RHX_Initialize {G} (x : option (kgen G)) (o : bc_obj G) (enc : bool) (key info : list Z) : res (bc_obj G * option err) :=
  if negb (KeySize_Contains RHX_LegalKeySizes (Z.of_nat (length key) mod 2 ^ 32) 0 0) then Ok (o, Some InvalidKey) else
  let o := if bc_on o then RHX_Reset o else o in
  let o := BCo (bc_rounds o) (bc_rk o) enc (bc_on o) (bc_gen o) in
  r <- match x with
       | Some x => c <- make_custom (xg_name x) key info ;; RHX_SecureExpand x o key c
       | None => r <- StandardExpand (bc_rk o) key ;; Ok (BCo (fst r) (snd r) (bc_encr o) (bc_on o) (bc_gen o), None)
       end ;;
  let '(o, e) := r in
  match e with
  | Some e => Ok (o, Some e)
  | None => Ok (BCo (bc_rounds o) (bc_rk o) (bc_encr o) true (bc_gen o), None)
  end.

(** RHX.cpp:799-845, SHX.cpp:535-602, 695-764: a function on 16 bytes doubled [k] times, the second half after the first *)
Fixpoint doubled (f : option (list Z) -> nat -> list Z -> nat -> res (list Z)) (k : nat) (inp : option (list Z)) (io : nat) (out : list Z) (oo : nat) : res (list Z) :=
  match k with
  | O => f inp io out oo
  | S k => out <- doubled f k inp io out oo ;; doubled f k inp (io + 16 * 2 ^ k) out (oo + 16 * 2 ^ k)
  end.
(** RHX.cpp:182-190 DecryptBlock, :192-200 EncryptBlock: no check of the state *)
Definition RHX_EncryptBlock {G} (o : bc_obj G) := RHX_Encrypt128 (bc_rounds o) (bc_rk o).
Definition RHX_DecryptBlock {G} (o : bc_obj G) := RHX_Decrypt128 (bc_rounds o) (bc_rk o).
(** RHX.cpp:272-342 Transform (k = 0), Transform256 (1), Transform512 (2), Transform1024 (3), Transform2048 (4) *)
Definition RHX_Transform {G} (o : bc_obj G) (k : nat) (inp : option (list Z)) (io : nat) (out : list Z) (oo : nat) : res (list Z) :=
  if bc_encr o then doubled (RHX_EncryptBlock o) k inp io out oo else doubled (RHX_DecryptBlock o) k inp io out oo.

(** the generators of KdfFromName.cpp (BlockCipherExtensions): HKDF over a digest *)
Definition hkdf_gen (name : list Z) (rate n : nat) {D} dupd dfin (dnew : D) : kgen (hkdf_obj D) :=
  {| xg_name := name; xg_init := HKDF_Initialize rate n dupd dfin dnew; xg_fill := HKDF_GenAllS n dupd dfin |}.
(** SHAKE: SHAKE.cpp:162-165 Initialize(ISymmetricKey), the IV is the customization; :117-129 Generate(SecureVector) *)
Definition shake_gen (name : list Z) (rate : nat) : kgen shake_obj :=
  {| xg_name := name;
     xg_init := fun o key iv info => match SHAKE_Initialize rate o key iv info with Ok o' => Ok (o', None) | Throw e => Ok (o, Some e) | UB => UB end;
     xg_fill := fun o out => SHAKE_Generate rate o out 0 (length out) |}.
