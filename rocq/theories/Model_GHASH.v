(** Model of CEX/CMUL.cpp (portable forms) and CEX/GHASH.cpp. *)
From Verif Require Import Base Model_IntegerTools Model_Modes.
Open Scope Z_scope.

(** * CMUL *)
(** CMUL.cpp:15, 1060  R *)
Definition cmul_R : Z := 0xE100000000000000.
(** CMUL.cpp:28, 1074  the first mask position *)
Definition cmul_top : Z := 0x8000000000000000.
(** CMUL.cpp:33-39 one round (T0, T1, Z0, Z1, mpos); the same seven statements are repeated for every
    round of the unrolled form, :32-543 with X0 and :546-1049 with X1, and are the loop bodies of the
    compact form, :1082-1088 and :1095-1101 *)
Definition cmul_round (x : Z) (st : Z * Z * Z * Z * Z) : Z * Z * Z * Z * Z :=
  let '(t0, t1, z0, z1, mpos) := st in
  let mask := ExpandMask 6 (Z.land x mpos) in
  let mpos := wshr mpos 1 in
  let z0 := Z.lxor z0 (Z.land t0 mask) in
  let z1 := Z.lxor z1 (Z.land t1 mask) in
  let carry := Z.land cmul_R (ExpandMask 6 (Z.land t1 1)) in
  let t1 := Z.lor (wshr t1 1) (wshl 64 t0 63) in
  let t0 := Z.lxor (wshr t0 1) carry in
  (t0, t1, z0, z1, mpos).
(** CMUL.cpp:32-1053 / 1080-1106: 64 rounds on X0, mpos reloaded, 63 rounds on X1, and the last
    round, which only accumulates.  The unrolled and the compact form are this same function. *)
Definition cmul_words (h0 h1 x0 x1 : Z) : Z * Z :=
  let '(t0, t1, z0, z1, _) := Nat.iter 64 (cmul_round x0) (h0, h1, 0, 0, cmul_top) in
  let '(t0, t1, z0, z1, mpos) := Nat.iter 63 (cmul_round x1) (t0, t1, z0, z1, cmul_top) in
  let mask := ExpandMask 6 (Z.land x1 mpos) in
  (Z.lxor z0 (Z.land t0 mask), Z.lxor z1 (Z.land t1 mask)).
(** CMUL.cpp:11-1056 PermuteR128P128U, :1058-1109 PermuteR128P128C; State = (h0, h1).
    The SIMD form PermuteR128P128V is not modelled. *)
Definition CMUL_Permute (h : Z * Z) (out : list Z) : res (list Z) :=
  x0 <- BeBytesTo64 out 0 ;;
  x1 <- BeBytesTo64 out 8 ;;
  let '(z0, z1) := cmul_words (fst h) (snd h) x0 x1 in
  out <- Be64ToBytes z0 out 0 ;;
  Be64ToBytes z1 out 8.

(** * GHASH *)
(** GHASH.cpp:16-39 GhashState *)
Record ghash := { gh_key : Z * Z; gh_buf : list Z; gh_pos : nat }.
(** GHASH.cpp:24-26 constructor, :33-38/106-109 Reset: everything, the key included, becomes zero *)
Definition GHASH_Reset : ghash := {| gh_key := (0, 0); gh_buf := zeros 16; gh_pos := 0 |}.
(** GHASH.cpp:58-62 Clear: the key is kept *)
Definition GHASH_Clear (g : ghash) : ghash := {| gh_key := gh_key g; gh_buf := zeros 16; gh_pos := 0 |}.
(** GHASH.cpp:85-88 Initialize *)
Definition GHASH_Initialize (g : ghash) (k : Z * Z) : ghash := {| gh_key := k; gh_buf := gh_buf g; gh_pos := gh_pos g |}.
(** GHASH.cpp:154-174 Permute: the first 16 bytes of Output are multiplied by the key *)
Definition GHASH_Permute (k : Z * Z) (out : list Z) : res (list Z) :=
  tmp <- rd out 0 16 ;;
  tmp <- CMUL_Permute k tmp ;;
  wr out 0 tmp.
(** GHASH.cpp:64-83 Finalize; ADLength * 8 and TxtLength * 8 are computed modulo 2^64 *)
Definition GHASH_Finalize (g : ghash) (out : list Z) (adlen txtlen : nat) : res (ghash * list Z) :=
  st <- (if (gh_pos g =? 0)%nat then Ok (g, out)
         else
           buf <- (if (gh_pos g =? 16)%nat then Ok (gh_buf g)
                   else _ <- safe (gh_pos g <=? 16)%nat ;; wr (gh_buf g) (gh_pos g) (zeros (16 - gh_pos g))) ;;
           out <- wxor buf 0 out 0 (gh_pos g) ;;
           out <- GHASH_Permute (gh_key g) out ;;
           Ok ({| gh_key := gh_key g; gh_buf := buf; gh_pos := gh_pos g |}, out)) ;;
  let '(g, out) := st in
  tmpb <- Be64ToBytes (u64 (Z.of_nat adlen * 8)) (zeros 16) 0 ;;
  tmpb <- Be64ToBytes (u64 (Z.of_nat txtlen * 8)) tmpb 8 ;;
  out <- wxor tmpb 0 out 0 16 ;;
  out <- GHASH_Permute (gh_key g) out ;;
  Ok (g, out).
(** GHASH.cpp:90-104 Multiply; the fuel is the number of iterations, at most Length *)
Fixpoint ghash_multiply (fuel : nat) (k : Z * Z) (inp : list Z) (boff : nat) (out : list Z) (len : nat) : res (list Z) :=
  match fuel with
  | O => Ok out
  | S f =>
    if (len =? 0)%nat then Ok out
    else
      let rmd := Nat.min len 16 in
      out <- wxor inp boff out 0 rmd ;;
      out <- GHASH_Permute k out ;;
      ghash_multiply f k inp (boff + rmd) out (len - rmd)
  end.
Definition GHASH_Multiply (g : ghash) (inp out : list Z) (len : nat) : res (list Z) :=
  ghash_multiply len (gh_key g) inp 0 out len.
(** GHASH.cpp:137-143 the whole-block loop of Update *)
Fixpoint ghash_blocks (fuel : nat) (k : Z * Z) (inp : list Z) (io : nat) (out : list Z) (len : nat) : res (list Z * nat * nat) :=
  match fuel with
  | O => Ok (out, io, len)
  | S f =>
    if (16 <? len)%nat then
      out <- wxor inp io out 0 16 ;;
      out <- GHASH_Permute k out ;;
      ghash_blocks f k inp (io + 16) out (len - 16)
    else Ok (out, io, len)
  end.
(** GHASH.cpp:115-152 Update *)
Definition GHASH_Update (g : ghash) (inp : list Z) (io : nat) (out : list Z) (len : nat) : res (ghash * list Z) :=
  if (len =? 0)%nat then Ok (g, out)
  else
    st <- (if (gh_pos g =? 16)%nat then
             out <- wxor (gh_buf g) 0 out 0 16 ;;
             out <- GHASH_Permute (gh_key g) out ;;
             Ok (out, 0%nat)
           else Ok (out, gh_pos g)) ;;
    let '(out, pos) := st in
    _ <- safe (pos <=? 16)%nat ;;
    let rmd := (16 - pos)%nat in
    st <- (if (rmd <? len)%nat then
             buf <- wcopy inp io (gh_buf g) pos rmd ;;
             out <- wxor buf 0 out 0 16 ;;
             out <- GHASH_Permute (gh_key g) out ;;
             r <- ghash_blocks len (gh_key g) inp (io + rmd) out (len - rmd) ;;
             Ok (buf, 0%nat, r)
           else Ok (gh_buf g, pos, (out, io, len))) ;;
    let '(buf, pos, (out, io, len)) := st in
    if (0 <? len)%nat then
      buf <- wcopy inp io buf pos len ;;
      Ok ({| gh_key := gh_key g; gh_buf := buf; gh_pos := (pos + len)%nat |}, out)
    else Ok ({| gh_key := gh_key g; gh_buf := buf; gh_pos := pos |}, out).
