(** Model of CEX/Blake.h (block functions), CEX/BlakeParams.{h,cpp} and the sequential mode (FanOut() = 1) of
    CEX/Blake256.cpp and CEX/Blake512.cpp.  The two digest files share their text up to the word size and the
    constants, which are parameters of the section below.  The vector form PermuteR10P512V/PermuteR12P1024V (AVX2
    builds) is not modelled. *)
From Verif Require Import Base Model_IntegerTools Model_Modes Model_Straight Model_BlakeGen Model_Absorb Model_Keccak.
Open Scope Z_scope.

(** * Block functions *)
(** Blake.h:292-307, :2465-2480: the word loads LeBytesTo32/64(Input, InOffset + size * i); the compact forms copy the
    same bytes with LeBytesToUL512, LeBytesToULL1024 (IntegerTools.h:1762-1788, :1854-1866) *)
Definition load_le (size count : nat) (inp : list Z) (io : nat) : res (list Z) :=
  for_up 0 count (fun i ws => x <- LeBytesTo size inp (io + size * i)%nat ;; Ok (ws ++ [x])) [].
(** Blake.h:290-1383 PermuteR10P512U(Input, InOffset, State, IV) and :2463-3766 PermuteR12P1024U: the generated body run on
    the locals (arbitrary, here 0; all are assigned before use), State, IV and the loaded words; the result is State *)
Definition permute_U (w : Z) (size : nat) (code : prog) (inp : list Z) (io : nat) (h iv : list Z) : res (list Z) :=
  ws <- load_le size 16 inp io ;; Ok (slice (exec w code (zeros 32 ++ h ++ iv ++ ws)) 32 8).
Definition PermuteR10P512U := permute_U 32 4 blake256_U.
Definition PermuteR12P1024U := permute_U 64 8 blake512_U.
(** Blake.h:137-277 PermuteR10P512C and :2310-2450 PermuteR12P1024C: R = State, IV; the loop; the final exclusive or *)
Definition permute_C (w : Z) (size rounds : nat) (sig : list nat) (body fin : prog) (inp : list Z) (io : nat) (h iv : list Z) : res (list Z) :=
  m <- load_le size 16 inp io ;;
  let r := fold_left (fun r i => firstn 16 (exec w body (r ++ map (fun k => nth (nth (i * 16 + k) sig 0%nat) m 0) (seq 0 16)))) (seq 0 rounds) (h ++ iv) in
  Ok (slice (exec w fin (r ++ m ++ h)) 32 8).
Definition PermuteR10P512C := permute_C 32 4 10 Sigma256 blake256_C blake256_C_fin.
Definition PermuteR12P1024C := permute_C 64 8 12 Sigma512 blake512_C blake512_C_fin.

(** * BlakeParams *)
(** BlakeParams.h:42-51 the fields *)
Record bparams := BParams { p_out : Z; p_key : Z; p_fan : Z; p_depth : Z; p_leaf : Z; p_noff : Z; p_ndepth : Z; p_inner : Z; p_res : Z; p_dst : list Z }.
(** BlakeParams.cpp:147-150 DistributionCodeMax *)
Definition DistributionCodeMax (out : Z) : nat := if out =? 32 then 12%nat else 40%nat.
(** BlakeParams.cpp:23-46 BlakeParams(OutputSize, TreeDepth, Fanout, LeafSize, InnerLength) *)
Definition BlakeParams_new (out depth fan leaf inner : Z) : res bparams :=
  _ <- guard ((out =? 32) || (out =? 64)) IllegalOperation ;;
  _ <- guard (negb (((1 <? fan) && (inner =? 0)) || ((fan =? 1) && negb (inner =? 0)))) IllegalOperation ;;
  Ok (BParams out 0 fan depth leaf 0 0 inner 0 (zeros (DistributionCodeMax out))).
(** std::vector::resize: cut or fill with zeros *)
Definition resize_to (l : list Z) (k : nat) : list Z := firstn k l ++ zeros (k - length l).
(** BlakeParams.cpp:79-93 BlakeParams(OutputSize, KeyLength, FanOut, MaxDepth, LeafLength, NodeOffset, NodeDepth, InnerLength, DistributionCode) *)
Definition BlakeParams_full (out key fan depth leaf noff ndepth inner : Z) (dst : list Z) : bparams :=
  BParams out key fan depth leaf noff ndepth inner 0 (resize_to dst (DistributionCodeMax out)).
(** BlakeParams.h:182-219 GetConfig<uint32_t>: Config[3] is or-ed into *)
Definition GetConfig32 (p : bparams) (cfg : list Z) : res (list Z) :=
  cfg <- put cfg 0 (Z.lor (Z.lor (Z.lor (p_out p) (wshl 32 (p_key p) 8)) (wshl 32 (p_fan p) 16)) (wshl 32 (p_depth p) 24)) ;;
  cfg <- put cfg 1 (p_leaf p) ;;
  cfg <- put cfg 2 (p_noff p) ;;
  c3 <- get cfg 3 ;;
  cfg <- put cfg 3 (Z.lor (Z.lor c3 (wshl 32 (p_ndepth p) 16)) (wshl 32 (p_inner p) 24)) ;;
  cfg <- put cfg 4 (p_res p) ;;
  for_up 5 (length cfg - 5) (fun i cfg => x <- LeBytesTo32 (p_dst p) ((i - 5) * 4)%nat ;; put cfg i x) cfg.
(** BlakeParams.h:182-219 GetConfig<uint64_t> *)
Definition GetConfig64 (p : bparams) (cfg : list Z) : res (list Z) :=
  cfg <- put cfg 0 (Z.lor (Z.lor (Z.lor (Z.lor (p_out p) (wshl 64 (p_key p) 8)) (wshl 64 (p_fan p) 16)) (wshl 64 (p_depth p) 24)) (wshl 64 (p_leaf p) 32)) ;;
  cfg <- put cfg 1 (p_noff p) ;;
  cfg <- put cfg 2 (Z.lor (Z.lor (p_ndepth p) (wshl 64 (p_inner p) 8)) (wshl 64 (p_res p) 16)) ;;
  for_up 3 (length cfg - 3) (fun i cfg => x <- LeBytesTo64 (p_dst p) ((i - 3) * 8)%nat ;; put cfg i x) cfg.
Definition set_key (p : bparams) (k : Z) : bparams :=
  BParams (p_out p) k (p_fan p) (p_depth p) (p_leaf p) (p_noff p) (p_ndepth p) (p_inner p) (p_res p) (p_dst p).
Definition set_noff (p : bparams) (v : Z) : bparams :=
  BParams (p_out p) (p_key p) (p_fan p) (p_depth p) (p_leaf p) v (p_ndepth p) (p_inner p) (p_res p) (p_dst p).

(** * The digest objects, FanOut() = 1 *)
Section blake.
Context (w : Z) (size : nat)                                     (* bits and bytes of a word *)
  (perm : list Z -> nat -> list Z -> list Z -> res (list Z))     (* Blake::PermuteR10P512U or PermuteR12P1024U *)
  (IV : list Z) (GetConfig : bparams -> list Z -> res (list Z))
  (kmin kmax slen : nat).                                        (* key lengths, salt and info length of Initialize *)
(** RATE_SIZE, DIGEST_SIZE *)
Definition rate : nat := (16 * size)%nat.
Definition dsize : nat := (8 * size)%nat.
Definition ones : Z := 2 ^ w - 1.
(** Blake256.cpp:15-38 Blake2sState: F, H, T *)
Definition bstate : Type := list Z * list Z * list Z.
(** Blake256.cpp:546-554 LoadState, Blake512.cpp:547-555: every word of Config except Config[3] of the 32-bit form is
    overwritten by GetConfig; XOR256/XOR512 (MemoryTools.h:1491-1530) on eight words *)
Definition LoadState (p : bparams) (cfg : list Z) : res bstate :=
  cfg <- GetConfig p cfg ;; Ok ([0; 0], xorl IV cfg, [0; 0]).
(** Blake256.cpp:556-577 Permute *)
Definition Permute (s : bstate) (inp : list Z) (io : nat) : res bstate :=
  let '(F, H, T) := s in
  h <- perm inp io H (xorl IV [0; 0; 0; 0; nth 0 T 0; nth 1 T 0; nth 0 F 0; nth 1 F 0]) ;; Ok (F, h, T).
(** Blake256.cpp:513-514, :522-523: LeIncreaseW(T, T, n), then Permute *)
Definition Increase (s : bstate) (k : nat) : res bstate :=
  let '(F, H, T) := s in T <- LeIncreaseW w T T (Z.of_nat k) ;; Ok (F, H, T).
Definition Process (s : bstate) (inp : list Z) (io : nat) : res bstate := s <- Increase s rate ;; Permute s inp io.
(** the digest object: (m_dgtState[0], m_msgBuffer, m_msgLength), m_treeParams *)
Definition bobj : Type := (bstate * list Z * nat) * bparams.
(** Blake256.cpp:377-400 Reset, FanOut() = 1 *)
Definition Blake_Reset (o : bobj) : res bobj :=
  let '(_, buf, _, p) := o in
  let p := set_noff p 0 in
  s <- LoadState p (zeros 8) ;; Ok ((s, zeros (length buf), 0%nat), p).
(** the constructors, sequential: the buffer of [bl] bytes and the parameters, then Reset.  The member arrays are
    zero-initialised.  Blake256.cpp:42-62, :64-94 *)
Definition Blake_start (bl : nat) (p : bparams) : res bobj := Blake_Reset ((([0; 0], zeros 8, [0; 0]), zeros bl, 0%nat), p).
(** Blake256.cpp:422-542 Update, FanOut() = 1 *)
Definition Blake_update (st : bstate * list Z * nat) (inp : list Z) (io len : nat) : res (bstate * list Z * nat) :=
  let '(s, buf, pos) := st in
  if (len =? 0)%nat then Ok st
  else
    r <- (if (rate <? pos + len)%nat then
            _ <- safe (pos <=? rate)%nat ;;
            let rmd := (rate - pos)%nat in
            buf <- (if (rmd =? 0)%nat then Ok buf else wcopy inp io buf pos rmd) ;;
            s <- Process s buf 0 ;;
            Ok (s, buf, 0%nat, (io + rmd)%nat, (len - rmd)%nat)
          else Ok (s, buf, pos, io, len)) ;;
    let '(s, buf, pos, io, len) := r in
    r <- lazy_blocks rate Process len s inp io len ;;
    let '(s, io, len) := r in
    if (len =? 0)%nat then Ok (s, buf, pos)
    else buf <- wcopy inp io buf pos len ;; Ok (s, buf, (pos + len)%nat).
Definition Blake_Update (o : bobj) (inp : list Z) (io len : nat) : res bobj :=
  st <- Blake_update (fst o) inp io len ;; Ok (st, snd o).
(** Blake256.cpp:164-290 Finalize, FanOut() = 1; `Output.size() - OutOffset` is unsigned; LeUL256ToBlock,
    LeULL512ToBlock (IntegerTools.h:1436-1455, :1492-1511) *)
Definition Blake_Finalize (o : bobj) (out : list Z) (oo : nat) : res (bobj * list Z) :=
  _ <- guard (negb ((oo <=? length out)%nat && (length out - oo <? dsize)%nat)) InvalidSize ;;
  let '(s, buf, pos, p) := o in
  buf <- clear_from buf pos ;;
  let '(F, H, T) := s in
  F <- put F 0 ones ;;
  s <- Increase (F, H, T) pos ;;
  s <- Permute s buf 0 ;;
  let '(F, H, T) := s in
  out <- wr out oo (concat (map (le_bytes size) H)) ;;
  o <- Blake_Reset ((s, buf, pos), p) ;;
  Ok (o, out).
(** Blake256.cpp:153-162 Compute *)
Definition Blake_Compute (o : bobj) (inp out : list Z) : res (bobj * list Z) :=
  _ <- guard (negb (length out <? dsize)%nat) InvalidSize ;;
  o <- Blake_Update o inp 0 (length inp) ;;
  Blake_Finalize o out 0.
(** Blake256.cpp:292-346 Initialize(SymmetricKey(key, iv, info)), FanOut() = 1 *)
Definition Blake_Initialize (o : bobj) (key iv info : list Z) : res bobj :=
  _ <- guard (negb ((length key <? kmin)%nat || (kmax <? length key)%nat)) InvalidKey ;;
  cfg <- (if (length iv =? 0)%nat then Ok (zeros 8) else
            _ <- guard (length iv =? slen)%nat InvalidNonce ;;
            a <- LeBytesTo size iv 0 ;; b <- LeBytesTo size iv size ;; cfg <- put (zeros 8) 4 a ;; put cfg 5 b) ;;
  cfg <- (if (length info =? 0)%nat then Ok cfg else
            _ <- guard (length info =? slen)%nat InvalidInfo ;;
            a <- LeBytesTo size info 0 ;; b <- LeBytesTo size info size ;; cfg <- put cfg 6 a ;; put cfg 7 b) ;;
  let '(_, buf, _, p) := o in
  mkey <- wcopy key 0 (zeros rate) 0 (Nat.min (length key) rate) ;;
  let p := set_key p (u8 (Z.of_nat (length key))) in
  buf <- wcopy mkey 0 buf 0 (length mkey) ;;
  s <- LoadState p cfg ;;
  Ok ((s, buf, rate), p).
End blake.

(** Blake256.cpp: RATE_SIZE 64, DIGEST_SIZE 32 *)
Definition Blake256_Update := Blake_Update 32 4 PermuteR10P512U IV256.
Definition Blake256_Finalize := Blake_Finalize 32 4 PermuteR10P512U IV256 GetConfig32.
Definition Blake256_Compute := Blake_Compute 32 4 PermuteR10P512U IV256 GetConfig32.
Definition Blake256_Reset := Blake_Reset IV256 GetConfig32.
Definition Blake256_Initialize := Blake_Initialize 4 IV256 GetConfig32 16 32 8.
(** Blake256.cpp:42-62 Blake256(false) *)
Definition Blake256_new : res bobj := p <- BlakeParams_new 32 1 1 0 0 ;; Blake_start IV256 GetConfig32 64 p.
(** Blake256.cpp:64-94 Blake256(Params) on a machine where the profile is not parallel; MAX_PRLDEGREE = 64 *)
Definition Blake256_with (p : bparams) : res bobj :=
  _ <- guard (negb (p_fan p =? 0) && (p_fan p <=? 64)) IllegalOperation ;;
  Blake_start IV256 GetConfig32 (2 * Z.to_nat (p_fan p) * 64) (BlakeParams_full 32 0 1 1 0 0 0 0 (p_dst p)).
(** Blake512.cpp: RATE_SIZE 128, DIGEST_SIZE 64 *)
Definition Blake512_Update := Blake_Update 64 8 PermuteR12P1024U IV512.
Definition Blake512_Finalize := Blake_Finalize 64 8 PermuteR12P1024U IV512 GetConfig64.
Definition Blake512_Compute := Blake_Compute 64 8 PermuteR12P1024U IV512 GetConfig64.
Definition Blake512_Reset := Blake_Reset IV512 GetConfig64.
Definition Blake512_Initialize := Blake_Initialize 8 IV512 GetConfig64 32 64 16.
(** Blake512.cpp:42-64 Blake512(false) *)
Definition Blake512_new : res bobj := p <- BlakeParams_new 64 1 1 0 0 ;; Blake_start IV512 GetConfig64 128 p.
(** Blake512.cpp:66-98 Blake512(Params), profile not parallel: the parameters are replaced by the defaults *)
Definition Blake512_with (p : bparams) : res bobj :=
  _ <- guard (negb (p_fan p =? 0) && (p_fan p <=? 64)) IllegalOperation ;;
  q <- BlakeParams_new 64 1 1 0 0 ;; Blake_start IV512 GetConfig64 (2 * Z.to_nat (p_fan p) * 128) q.
