(** Model of the permutations of CEX/ChaCha.h (the statement lists are in Model_ChaChaGen.v) and of the keystream
    functions Generate and Process of CEX/ChaChaP20.cpp and CEX/CSX512.cpp, which share their text up to the word
    size, the block size and the permutation.
    The SIMD permutations PermuteP4x512H/P8x512H/P16x512H and P4x1024H/P8x1024H are not modelled statement by
    statement: a wide call is the scalar permutation on each lane of the staged counters ([s] = lanes per call, 0
    for a build without SIMD). *)
From Verif Require Import Base Model_IntegerTools Model_Modes Model_Straight Model_ChaChaGen.
Open Scope Z_scope.

(** the stores LeNToBytes(e, Output, OutOffset + k) at the end of a permutation, in order; [n] bytes each *)
Definition stores (n : nat) (value : sx -> Z) (l : list (sx * nat)) (out : list Z) (oo : nat) : res (list Z) :=
  fold_left (fun r e => out <- r ;; LeToBytes n (value (fst e)) out (oo + snd e)) l (Ok out).

(** ChaCha.h:298-981 PermuteR20P512U(Output, OutOffset, Counter, State) *)
Definition PermuteR20P512U (out : list Z) (oo : nat) (ctr st : list Z) : res (list Z) :=
  let s := exec 32 chacha_U (zeros 16 ++ st ++ ctr) in
  stores 4 (ev 32 s) chacha_U_out out oo.

(** The compact form declares X as std::array<uint64_t, 16> and applies 32-bit rotations to it: sums and exclusive
    ors are 64 bits wide, the argument of RotFL32 is cut to 32 bits (IntegerTools.h:2734).  Only the operators that
    occur are given; State and Counter are uint32_t. *)
Fixpoint ev_mixed (s : list Z) (e : sx) : Z :=
  match e with
  | R r => nth r s 0
  | Ad a b => wadd 64 (ev_mixed s a) (ev_mixed s b)
  | Xo a b => Z.lxor (ev_mixed s a) (ev_mixed s b)
  | RLo a n => wrotl 32 (u32 (ev_mixed s a)) n
  | _ => 0
  end.
Definition exec_mixed (p : prog) (s : list Z) : list Z := fold_left (fun s i => upd s (fst i) (ev_mixed s (snd i))) p s.
(** ChaCha.h:191-282 PermuteP512C(Output, OutOffset, Counter, State, Rounds); [while (Rounds != 0) Rounds -= 2] does
    not end for odd Rounds; Le32ToBytes cuts its argument to 32 bits *)
Definition PermuteP512C (out : list Z) (oo : nat) (ctr st : list Z) (rounds : nat) : res (list Z) :=
  _ <- safe (Nat.even rounds) ;;
  let s := map (ev_mixed (zeros 16 ++ st ++ ctr)) chacha_C_init ++ st ++ ctr in
  let s := Nat.iter (rounds / 2) (exec_mixed chacha_C) s in
  stores 4 (fun e => u32 (ev_mixed s e)) chacha_C_out out oo.
(** ChaCha.h PermuteP1024C(Output, OutOffset, Counter, State, Rounds): the same on uint64_t *)
Definition PermuteP1024C (out : list Z) (oo : nat) (ctr st : list Z) (rounds : nat) : res (list Z) :=
  _ <- safe (Nat.even rounds) ;;
  let s := map (ev 64 (zeros 16 ++ st ++ ctr)) csx_C_init ++ st ++ ctr in
  let s := Nat.iter (rounds / 2) (exec 64 csx_C) s in
  stores 8 (ev 64 s) csx_C_out out oo.

(** * Generate and Process.  [w]: word bits, [B]: BLOCK_SIZE, [perm out oo ctr]: the permutation on the cipher state *)
Section stream.
Context (w : Z) (B : nat) (perm : list Z -> nat -> list Z -> res (list Z)).

(** ChaChaP20.cpp:650-659, CSX512.cpp:587-592: one block *)
Definition S_block (out : list Z) (o : nat) (ctr : list Z) : res (list Z * list Z) :=
  out <- perm out o ctr ;; ctr <- LeIncrementW w ctr ;; Ok (out, ctr).
(** ChaChaP20.cpp:526-580 (16 lanes), :590-618 (8), :628-644 (4); CSX512.cpp:521-560 (8), :566-580 (4): lane j of the
    staged counters is tmpc[j], tmpc[s + j] *)
Definition S_wide (s : nat) (out : list Z) (o : nat) (ctr : list Z) : res (list Z * list Z) :=
  st <- for_up 0 s (fun j st => let '(tmpc, ctr) := st in
    a <- get ctr 0 ;; tmpc <- put tmpc j a ;;
    b <- get ctr 1 ;; tmpc <- put tmpc (s + j) b ;;
    ctr <- LeIncrementW w ctr ;; Ok (tmpc, ctr)) (zeros (2 * s), ctr) ;;
  let '(tmpc, ctr) := st in
  out <- for_up 0 s (fun j out => a <- get tmpc j ;; b <- get tmpc (s + j) ;; perm out (o + j * B) [a; b]) out ;;
  Ok (out, ctr).
(** ChaChaP20.cpp:510-673, CSX512.cpp:507-602 Generate *)
Definition S_Generate (s : nat) (out : list Z) (oo len : nat) (ctr : list Z) : res (list Z * list Z) :=
  let n := (if (s =? 0) then 0 else if (B * s <=? len) then len / (B * s) else 0)%nat in
  st <- for_up 0 n (fun k st => let '(out, ctr) := st in S_wide s out (oo + k * (B * s)) ctr) (out, ctr) ;;
  st <- for_up (n * s) (len / B - n * s) (fun k st => let '(out, ctr) := st in S_block out (oo + B * k) ctr) st ;;
  let '(out, ctr) := st in
  let rmd := (len mod B)%nat in
  if (rmd =? 0)%nat then Ok (out, ctr)
  else
    otp <- perm (zeros B) 0 ctr ;;
    ctr <- LeIncrementW w ctr ;;
    out <- wcopy otp 0 out (oo + (len - rmd)) rmd ;;
    Ok (out, ctr).
(** ParallelOptions as seen by the stream ciphers: IsParallel(), ParallelMinimumSize(), ParallelBlockSize(),
    ParallelMaxDegree() *)
Record sprof := SProf { sp_par : bool; sp_min : nat; sp_blk : nat; sp_deg : nat }.
(** ChaChaP20.cpp:695, CSX512.cpp:633 PRCLEN; the differences are size_t and wrap *)
Definition prclen (inp : list Z) (io : nat) (out : list Z) (oo len : nat) : nat :=
  let a := (Z.of_nat (length inp) - Z.of_nat io) mod 2 ^ 64 in
  let b := (Z.of_nat (length out) - Z.of_nat oo) mod 2 ^ 64 in
  if (a <=? Z.of_nat len) && (b <=? Z.of_nat len) then Z.to_nat (Z.min a b) else len.
(** ChaChaP20.cpp:693-759, CSX512.cpp:631-697 Process; [ord] is the order in which the workers run, a worker is
    atomic; [inp = None] means that Input and Output are the same array.  LeIncreaseW takes the offset of a worker's
    counter as a size_t *)
Definition S_Process (s : nat) (p : sprof) (ord : list nat) (inp : option (list Z)) (io : nat) (out : list Z) (oo len : nat) (ctr : list Z) : res (list Z * list Z) :=
  let len := prclen (src inp out) io out oo len in
  if negb (sp_par p) || (len <? sp_min p)%nat then
    st <- S_Generate s out oo len ctr ;;
    let '(out, ctr) := st in
    let aln := (len - len mod B)%nat in
    out <- (if (aln =? 0)%nat then Ok out else wxor (src inp out) io out oo aln) ;;
    out <- for_up aln (len - aln) (fun i out =>
      a <- get (src inp out) (i + io) ;; b <- get out (i + oo) ;; put out (i + oo) (Z.lxor b a)) out ;;
    Ok (out, ctr)
  else
    _ <- safe (negb (sp_deg p =? 0)%nat) ;;
    let cnk := (len / B / sp_deg p * B)%nat in
    let rnd := (cnk * sp_deg p)%nat in
    st <- for_list ord (fun i st => let '(out, tmpc) := st in
      thdc <- LeIncreaseW w ctr (zeros 2) (Z.of_nat (cnk / B * i)) ;;
      st <- S_Generate s out (oo + i * cnk) cnk thdc ;;
      let '(out, thdc) := st in
      out <- wxor (src inp out) (io + i * cnk) out (oo + i * cnk) cnk ;;
      tmpc <- (if (i =? sp_deg p - 1)%nat then wcopy thdc 0 tmpc 0 2 else Ok tmpc) ;;
      Ok (out, tmpc)) (out, zeros 2) ;;
    let '(out, tmpc) := st in
    ctr <- wcopy tmpc 0 ctr 0 2 ;;
    if (rnd <? len)%nat then
      _ <- safe (negb (rnd =? 0)%nat) ;;
      let fnl := (len mod rnd)%nat in
      st <- S_Generate s out rnd fnl ctr ;;
      let '(out, ctr) := st in
      out <- for_up 0 fnl (fun i out =>
        a <- get (src inp out) (i + io + rnd) ;; b <- get out (i + oo + rnd) ;; put out (i + oo + rnd) (Z.lxor b a)) out ;;
      Ok (out, ctr)
    else Ok (out, ctr).
End stream.
