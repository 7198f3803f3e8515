(** Model of the block-cipher modes CEX/ECB.cpp, CBC.cpp, CFB.cpp, OFB.cpp, CTR.cpp, ICM.cpp.

    The block cipher is a pair of arbitrary functions on 16-byte blocks ([E], [D]); they are
    parameters of every definition.  The wide entry points Transform512/1024/2048 are modelled as
    the block function applied to 4/8/16 consecutive blocks ([s] = blocks per wide call, 0 for a
    build without SIMD).
    [inp : option (list Z)]: [None] means that Input and Output are the same array.
    MemoryTools::Copy/XOR and COPY128/XOR128 are the window operations below; C06 proves that the
    vectorised code equals them for every width.
    Preconditions that are only CEXASSERTs (empty in release builds) are not checked. *)
From Verif Require Import Base Model_IntegerTools.
Open Scope Z_scope.

Definition wcopy (inp : list Z) (io : nat) (out : list Z) (oo len : nat) : res (list Z) :=
  a <- rd inp io len ;; wr out oo a.
Definition wxor (inp : list Z) (io : nat) (out : list Z) (oo len : nat) : res (list Z) :=
  a <- rd inp io len ;; b <- rd out oo len ;; wr out oo (xorl b a).

(** the array read as Input *)
Definition src (inp : option (list Z)) (out : list Z) : list Z :=
  match inp with Some l => l | None => out end.

(** IBlockCipher EncryptBlock/DecryptBlock/Transform on one block, and a wide Transform *)
Definition blk (f : list Z -> list Z) (inp : list Z) (io : nat) (out : list Z) (oo : nat) : res (list Z) :=
  b <- rd inp io 16 ;; wr out oo (f b).
Definition wideT (f : list Z -> list Z) (s : nat) (inp : list Z) (io : nat) (out : list Z) (oo : nat) : res (list Z) :=
  b <- rd inp io (16 * s) ;; wr out oo (flat_map f (chunks 16 b)).

(** ParallelOptions as seen by the modes: IsParallel(), ParallelBlockSize(), ParallelMaxDegree() *)
Record prof := { par : bool; pblk : nat; deg : nat }.

(** ParallelTools.cpp:20-48 ParallelFor: the workers run in some order [ord]; a worker is atomic *)
Fixpoint for_list {S : Type} (ord : list nat) (f : nat -> S -> res S) (s : S) : res S :=
  match ord with [] => Ok s | i :: t => s' <- f i s ;; for_list t f s' end.

(** * ECB *)
(** ECB.cpp:263-352 Generate *)
Definition ECB_Generate (f : list Z -> list Z) (s : nat) (inp : option (list Z)) (io : nat) (out : list Z) (oo cnt : nat) : res (list Z) :=
  let w := (if (s =? 0) then 0 else if (s <=? cnt) then cnt / s else 0)%nat in
  out <- for_up 0 w (fun k out => wideT f s (src inp out) (io + k * (16 * s)) out (oo + k * (16 * s))) out ;;
  for_up (w * s) (cnt - w * s) (fun k out => blk f (src inp out) (io + 16 * k) out (oo + 16 * k)) out.
(** ECB.cpp:378-387 ProcessParallel *)
Definition ECB_ProcessParallel (f : list Z -> list Z) (s : nat) (p : prof) (ord : list nat) (inp : option (list Z)) (io : nat) (out : list Z) (oo : nat) : res (list Z) :=
  _ <- safe (negb (deg p =? 0)%nat) ;;
  let seg := (pblk p / deg p)%nat in
  for_list ord (fun i out => ECB_Generate f s inp (io + i * seg) out (oo + i * seg) (seg / 16)) out.
(** ECB.cpp:389-398 ProcessSequential *)
Definition ECB_ProcessSequential (f : list Z -> list Z) (inp : option (list Z)) (io : nat) (out : list Z) (oo len : nat) : res (list Z) :=
  for_up 0 (len / 16) (fun k out => blk f (src inp out) (io + k * 16) out (oo + k * 16)) out.
(** ECB.cpp:213-243 Transform; [f] is the cipher in the direction of Initialize,
    [ord i] the worker order of the i-th parallel block *)
Definition ECB_Transform (f : list Z -> list Z) (s : nat) (p : prof) (ord : nat -> list nat) (inp : option (list Z)) (io : nat) (out : list Z) (oo len : nat) : res (list Z) :=
  if par p && (pblk p <=? len)%nat then
    _ <- safe (negb (pblk p =? 0)%nat) ;;
    let cnt := (len / pblk p)%nat in
    out <- for_up 0 cnt (fun i out => ECB_ProcessParallel f s p (ord i) inp (io + i * pblk p) out (oo + i * pblk p)) out ;;
    let rmd := (len - pblk p * cnt)%nat in
    if (rmd =? 0)%nat then Ok out
    else ECB_ProcessSequential f inp (io + pblk p * cnt) out (oo + pblk p * cnt) rmd
  else ECB_ProcessSequential f inp io out oo len.

(** * CBC; the state is the IV *)
(** CBC.cpp:397-404 Encrypt128 *)
Definition CBC_Encrypt128 (E : list Z -> list Z) (inp : option (list Z)) (io : nat) (out : list Z) (oo : nat) (iv : list Z) : res (list Z * list Z) :=
  iv <- wxor (src inp out) io iv 0 16 ;;
  out <- blk E iv 0 out oo ;;
  iv <- wcopy out oo iv 0 16 ;;
  Ok (out, iv).
(** CBC.cpp:235-244 Decrypt128; also the single-block loop of DecryptSegment, :382-393 *)
Definition CBC_Decrypt128 (D : list Z -> list Z) (inp : option (list Z)) (io : nat) (out : list Z) (oo : nat) (iv : list Z) : res (list Z * list Z) :=
  tmpv <- rd (src inp out) io 16 ;;
  out <- blk D (src inp out) io out oo ;;
  out <- wxor iv 0 out oo 16 ;;
  iv <- wcopy tmpv 0 iv 0 16 ;;
  Ok (out, iv).
(** CBC.cpp:331-346 one wide step of DecryptSegment (s = 8; :297-313 and :363-374 for 16 and 4):
    state (out, tmpv, tmpn) *)
Definition CBC_wide_step (D : list Z -> list Z) (s : nat) (inp : option (list Z)) (io oo : nat)
    (st : list Z * list Z * list Z) : res (list Z * list Z * list Z) :=
  let '(out, tmpv, tmpn) := st in
  let inpoft := (io + (16 * s - 16))%nat in
  let l := src inp out in
  tmpn <- wcopy l inpoft tmpn 0 (if (16 * s <=? length l - inpoft)%nat then 16 * s else length l - inpoft)%nat ;;
  out <- wideT D s l io out oo ;;
  out <- wxor tmpv 0 out oo (16 * s) ;;
  tmpv <- wcopy tmpn 0 tmpv 0 (16 * s) ;;
  Ok (out, tmpv, tmpn).
(** CBC.cpp:276-395 DecryptSegment *)
Definition CBC_DecryptSegment (D : list Z -> list Z) (s : nat) (inp : option (list Z)) (io : nat) (out : list Z) (oo : nat) (iv : list Z) (cnt : nat) : res (list Z * list Z) :=
  let w := (if (s =? 0) then 0 else if (s <=? cnt) then cnt / s else 0)%nat in
  st <- (if (w =? 0)%nat then Ok (out, iv) else
    tmpv <- wcopy iv 0 (zeros (16 * s)) 0 16 ;;
    tmpv <- wcopy (src inp out) io tmpv 16 (16 * s - 16) ;;
    st <- for_up 0 w (fun k st => CBC_wide_step D s inp (io + k * (16 * s)) (oo + k * (16 * s)) st)
            (out, tmpv, zeros (16 * s)) ;;
    let '(out, _, tmpn) := st in
    iv <- wcopy tmpn 0 iv 0 16 ;;
    Ok (out, iv)) ;;
  for_up (w * s) (cnt - w * s) (fun k st =>
    let '(out, iv) := st in CBC_Decrypt128 D inp (io + 16 * k) out (oo + 16 * k) iv) st.
(** CBC.cpp:246-274 DecryptParallel; state of the workers (out, tmpv) *)
Definition CBC_DecryptParallel (D : list Z -> list Z) (s : nat) (p : prof) (ord : list nat) (inp : option (list Z)) (io : nat) (out : list Z) (oo : nat) (iv : list Z) : res (list Z * list Z) :=
  _ <- safe (negb (deg p =? 0)%nat) ;;
  let seg := (pblk p / deg p)%nat in
  st <- for_list ord (fun i st =>
    let '(out, tmpv) := st in
    thdv <- (if (i =? 0)%nat then wcopy iv 0 (zeros 16) 0 16
             else wcopy (src inp out) (io + i * seg - 16) (zeros 16) 0 16) ;;
    st <- CBC_DecryptSegment D s inp (io + i * seg) out (oo + i * seg) thdv (seg / 16) ;;
    let '(out, thdv) := st in
    tmpv <- (if (i =? deg p - 1)%nat then wcopy thdv 0 tmpv 0 16 else Ok tmpv) ;;
    Ok (out, tmpv)) (out, zeros 16) ;;
  let '(out, tmpv) := st in
  iv <- wcopy tmpv 0 iv 0 16 ;;
  Ok (out, iv).
(** CBC.cpp:406-450 Process, encryption *)
Definition CBC_encrypt (E : list Z -> list Z) (inp : option (list Z)) (io : nat) (out : list Z) (oo len : nat) (iv : list Z) : res (list Z * list Z) :=
  for_up 0 (len / 16) (fun i st => let '(out, iv) := st in
    CBC_Encrypt128 E inp (i * 16 + io) out (i * 16 + oo) iv) (out, iv).
(** CBC.cpp:406-450 Process, decryption *)
Definition CBC_decrypt (D : list Z -> list Z) (s : nat) (p : prof) (ord : nat -> list nat) (inp : option (list Z)) (io : nat) (out : list Z) (oo len : nat) (iv : list Z) : res (list Z * list Z) :=
  if par p && (pblk p <=? len)%nat then
    _ <- safe (negb (pblk p =? 0)%nat) ;;
    let prb := (len / pblk p)%nat in
    st <- for_up 0 prb (fun i st => let '(out, iv) := st in
      CBC_DecryptParallel D s p (ord i) inp (i * pblk p + io) out (i * pblk p + oo) iv) (out, iv) ;;
    let prc := (pblk p / 16 * prb)%nat in
    for_up 0 (len / 16 - prc) (fun i st => let '(out, iv) := st in
      CBC_Decrypt128 D inp ((i + prc) * 16 + io) out ((i + prc) * 16 + oo) iv) st
  else
    for_up 0 (len / 16) (fun i st => let '(out, iv) := st in
      CBC_Decrypt128 D inp (i * 16 + io) out (i * 16 + oo) iv) (out, iv).

(** * CFB; the state is the shift register; [r] = RegisterSize.
    The register shift is a memcpy between overlapping parts of one array; it is modelled as the
    intended move. *)
Definition CFB_shift (r : nat) (iv : list Z) (c : list Z) (co : nat) : res (list Z) :=
  iv <- (if (r <? length iv)%nat then wcopy iv r iv 0 (length iv - r) else Ok iv) ;;
  _ <- safe (r <=? length iv)%nat ;;
  wcopy c co iv (length iv - r) r.
(** CFB.cpp:319-342 Encrypt128 *)
Definition CFB_Encrypt128 (E : list Z -> list Z) (r : nat) (inp : option (list Z)) (io : nat) (out : list Z) (oo : nat) (iv : list Z) : res (list Z * list Z) :=
  tmpr <- blk E iv 0 (zeros 16) 0 ;;
  out <- wcopy tmpr 0 out oo r ;;
  out <- wxor (src inp out) io out oo r ;;
  iv <- CFB_shift r iv out oo ;;
  Ok (out, iv).
(** CFB.cpp:236-258 Decrypt128 *)
Definition CFB_Decrypt128 (E : list Z -> list Z) (r : nat) (inp : option (list Z)) (io : nat) (out : list Z) (oo : nat) (iv : list Z) : res (list Z * list Z) :=
  tmpr <- blk E iv 0 (zeros 16) 0 ;;
  out <- wcopy tmpr 0 out oo r ;;
  iv <- CFB_shift r iv (src inp out) io ;;
  out <- wxor (src inp out) io out oo r ;;
  Ok (out, iv).
(** CFB.cpp:290-317 DecryptSegment *)
Definition CFB_DecryptSegment (E : list Z -> list Z) (r : nat) (inp : option (list Z)) (io : nat) (out : list Z) (oo : nat) (iv : list Z) (cnt : nat) : res (list Z * list Z) :=
  for_up 0 cnt (fun i st => let '(out, iv) := st in
    out <- blk E iv 0 out (oo + i * 16) ;;
    iv <- CFB_shift r iv (src inp out) (io + i * 16) ;;
    out <- wxor (src inp out) (io + i * 16) out (oo + i * 16) r ;;
    Ok (out, iv)) (out, iv).
(** CFB.cpp:260-288 DecryptParallel *)
Definition CFB_DecryptParallel (E : list Z -> list Z) (r : nat) (p : prof) (ord : list nat) (inp : option (list Z)) (io : nat) (out : list Z) (oo : nat) (iv : list Z) : res (list Z * list Z) :=
  _ <- safe (negb (deg p =? 0)%nat) ;;
  let seg := (pblk p / deg p)%nat in
  st <- for_list ord (fun i st =>
    let '(out, tmpv) := st in
    thdv <- (if (i =? 0)%nat then wcopy iv 0 (zeros 16) 0 r
             else wcopy (src inp out) (io + i * seg - r) (zeros 16) 0 r) ;;
    st <- CFB_DecryptSegment E r inp (io + i * seg) out (oo + i * seg) thdv (seg / 16) ;;
    let '(out, thdv) := st in
    tmpv <- (if (i =? deg p - 1)%nat then wcopy thdv 0 tmpv 0 r else Ok tmpv) ;;
    Ok (out, tmpv)) (out, zeros 16) ;;
  let '(out, tmpv) := st in
  iv <- wcopy tmpv 0 iv 0 r ;;
  Ok (out, iv).
(** CFB.cpp:344-387 Process, encryption; RegisterSize = 0 divides by zero *)
Definition CFB_encrypt (E : list Z -> list Z) (r : nat) (inp : option (list Z)) (io : nat) (out : list Z) (oo len : nat) (iv : list Z) : res (list Z * list Z) :=
  _ <- safe (negb (r =? 0)%nat) ;;
  for_up 0 (len / r) (fun i st => let '(out, iv) := st in
    CFB_Encrypt128 E r inp (i * r + io) out (i * r + oo) iv) (out, iv).
(** CFB.cpp:344-387 Process, decryption *)
Definition CFB_decrypt (E : list Z -> list Z) (r : nat) (p : prof) (ord : nat -> list nat) (inp : option (list Z)) (io : nat) (out : list Z) (oo len : nat) (iv : list Z) : res (list Z * list Z) :=
  _ <- safe (negb (r =? 0)%nat) ;;
  if par p && (pblk p <=? len)%nat && (r =? 16)%nat then
    _ <- safe (negb (pblk p =? 0)%nat) ;;
    let prb := (len / pblk p)%nat in
    st <- for_up 0 prb (fun i st => let '(out, iv) := st in
      CFB_DecryptParallel E r p (ord i) inp (i * pblk p + io) out (i * pblk p + oo) iv) (out, iv) ;;
    let prc := (pblk p / 16 * prb)%nat in
    for_up 0 (len / r - prc) (fun i st => let '(out, iv) := st in
      CFB_Decrypt128 E r inp ((i + prc) * 16 + io) out ((i + prc) * 16 + oo) iv) st
  else
    for_up 0 (len / r) (fun i st => let '(out, iv) := st in
      CFB_Decrypt128 E r inp (i * r + io) out (i * r + oo) iv) (out, iv).
(** CFB.cpp:185-215 Initialize, the register part: a nonce of 1..16 bytes is right-aligned
    and zero-extended; a longer one makes BLOCK_SIZE - IVSize wrap *)
Definition CFB_init (iv0 nonce : list Z) : res (list Z) :=
  _ <- guard (1 <=? length nonce)%nat InvalidNonce ;;
  _ <- safe (length nonce <=? 16)%nat ;;
  iv <- wcopy nonce 0 iv0 (16 - length nonce) (length nonce) ;;
  wr iv 0 (zeros (16 - length nonce)).

(** * OFB; the state is the register *)
(** OFB.cpp:221-238 Encrypt128 *)
Definition OFB_Encrypt128 (E : list Z -> list Z) (inp : option (list Z)) (io : nat) (out : list Z) (oo : nat) (iv : list Z) : res (list Z * list Z) :=
  buf <- blk E iv 0 (zeros 16) 0 ;;
  out <- for_up 0 16 (fun i out =>
    b <- get buf i ;; x <- get (src inp out) (io + i) ;; put out (oo + i) (Z.lxor b x)) out ;;
  iv <- wcopy buf 0 iv 0 16 ;;
  Ok (out, iv).
(** OFB.cpp:199-219 Transform *)
Definition OFB_Transform (E : list Z -> list Z) (inp : option (list Z)) (io : nat) (out : list Z) (oo len : nat) (iv : list Z) : res (list Z * list Z) :=
  _ <- guard (len mod 16 =? 0)%nat InvalidSize ;;
  for_up 0 (len / 16) (fun i st => let '(out, iv) := st in
    OFB_Encrypt128 E inp (i * 16 + io) out (i * 16 + oo) iv) (out, iv).

(** * CTR and ICM; the state is the counter.  The two files share the text of Generate and
    ProcessSequential up to the increment function [inc]. *)
(** CTR.cpp:372-374, ICM.cpp:379-381: one block *)
Definition CM_block (E : list Z -> list Z) (inc : list Z -> res (list Z)) (out : list Z) (o : nat) (ctr : list Z) : res (list Z * list Z) :=
  out <- blk E ctr 0 out o ;; ctr <- inc ctr ;; Ok (out, ctr).
(** CTR.cpp:325-341, ICM.cpp:330-346: [s] staggered counters, one wide call *)
Definition CM_wide (E : list Z -> list Z) (inc : list Z -> res (list Z)) (s : nat) (out : list Z) (o : nat) (ctr : list Z) : res (list Z * list Z) :=
  st <- for_up 0 s (fun j st => let '(tmpc, ctr) := st in
    tmpc <- wcopy ctr 0 tmpc (16 * j) 16 ;; ctr <- inc ctr ;; Ok (tmpc, ctr)) (zeros (16 * s), ctr) ;;
  let '(tmpc, ctr) := st in
  out <- wideT E s tmpc 0 out o ;;
  Ok (out, ctr).
(** CTR.cpp:265-385, ICM.cpp:267-394 Generate *)
Definition CM_Generate (E : list Z -> list Z) (inc : list Z -> res (list Z)) (s : nat) (out : list Z) (oo len : nat) (ctr : list Z) : res (list Z * list Z) :=
  let w := (if (s =? 0) then 0 else if (16 * s <=? len) then len / (16 * s) else 0)%nat in
  st <- for_up 0 w (fun k st => let '(out, ctr) := st in CM_wide E inc s out (oo + k * (16 * s)) ctr) (out, ctr) ;;
  st <- for_up (w * s) (len / 16 - w * s) (fun k st => let '(out, ctr) := st in CM_block E inc out (oo + 16 * k) ctr) st ;;
  let '(out, ctr) := st in
  let rmd := (len mod 16)%nat in
  if (rmd =? 0)%nat then Ok (out, ctr)
  else
    otp <- blk E ctr 0 (zeros 16) 0 ;;
    ctr <- inc ctr ;;
    out <- wcopy otp 0 out (oo + (len - rmd)) rmd ;;
    Ok (out, ctr).
(** CTR.cpp:434-456, ICM.cpp:439-461 ProcessSequential *)
Definition CM_ProcessSequential (E : list Z -> list Z) (inc : list Z -> res (list Z)) (s : nat) (inp : option (list Z)) (io : nat) (out : list Z) (oo len : nat) (ctr : list Z) : res (list Z * list Z) :=
  let aln := (len - len mod 16)%nat in
  st <- CM_Generate E inc s out oo len ctr ;;
  let '(out, ctr) := st in
  out <- (if (aln =? 0)%nat then Ok out else wxor (src inp out) io out oo aln) ;;
  out <- for_up aln (len - aln) (fun i out =>
    a <- get (src inp out) (i + io) ;; b <- get out (i + oo) ;; put out (i + oo) (Z.lxor b a)) out ;;
  Ok (out, ctr).
(** the parallel section shared by CTR.cpp:395-415 and ICM.cpp:403-423: [incr ctr v] positions a
    worker's counter; the last worker's counter becomes the state *)
Definition CM_workers (E : list Z -> list Z) (inc : list Z -> res (list Z)) (incr : list Z -> list Z -> Z -> res (list Z)) (s : nat) (p : prof) (ord : list nat) (inp : option (list Z)) (io : nat) (out : list Z) (oo : nat) (ctr : list Z) : res (list Z * list Z) :=
  let cnk := (pblk p / deg p)%nat in
  st <- for_list ord (fun i st => let '(out, tmpc) := st in
    thdc <- incr ctr (zeros 16) (Z.of_nat (cnk / 16 * i)) ;;
    st <- CM_Generate E inc s out (oo + i * cnk) cnk thdc ;;
    let '(out, thdc) := st in
    out <- wxor (src inp out) (io + i * cnk) out (oo + i * cnk) cnk ;;
    tmpc <- (if (i =? deg p - 1)%nat then wcopy thdc 0 tmpc 0 16 else Ok tmpc) ;;
    Ok (out, tmpc)) (out, zeros 16) ;;
  let '(out, tmpc) := st in
  ctr <- wcopy tmpc 0 ctr 0 16 ;;
  Ok (out, ctr).
(** CTR.cpp:387-432 ProcessParallel; BeIncrease8 with a uint32_t value *)
Definition CTR_ProcessParallel (E : list Z -> list Z) (s : nat) (p : prof) (ord : list nat) (inp : option (list Z)) (io : nat) (out : list Z) (oo len : nat) (ctr : list Z) : res (list Z * list Z) :=
  _ <- safe (negb (deg p =? 0)%nat) ;;
  let outlen := (if length out - oo <? len then length out - oo else len)%nat in
  let aln := (pblk p / deg p * deg p)%nat in
  st <- CM_workers E BeIncrement8 (BeIncrease8 4) s p ord inp io out oo ctr ;;
  if (aln <? outlen)%nat then
    let '(out, ctr) := st in
    let fnl := (outlen - aln)%nat in
    st <- CM_Generate E BeIncrement8 s out (oo + aln) fnl ctr ;;
    let '(out, ctr) := st in
    out <- for_up 0 fnl (fun i out =>
      a <- get (src inp out) (io + aln + i) ;; b <- get out (oo + aln + i) ;; put out (oo + aln + i) (Z.lxor b a)) out ;;
    Ok (out, ctr)
  else Ok st.
(** ICM.cpp:396-437 ProcessParallel; LeIncrease8 with a size_t value; the tail ignores the offsets *)
Definition ICM_ProcessParallel (E : list Z -> list Z) (s : nat) (p : prof) (ord : list nat) (inp : option (list Z)) (io : nat) (out : list Z) (oo len : nat) (ctr : list Z) : res (list Z * list Z) :=
  _ <- safe (negb (deg p =? 0)%nat) ;;
  let outlen := (if length out - oo <? len then length out - oo else len)%nat in
  let aln := (pblk p / deg p * deg p)%nat in
  st <- CM_workers E LeIncrement (LeIncrease8 8) s p ord inp io out oo ctr ;;
  if (aln <? outlen)%nat then
    let '(out, ctr) := st in
    _ <- safe (negb (aln =? 0)%nat) ;;
    let fnl := ((length out - oo) mod aln)%nat in
    st <- CM_Generate E LeIncrement s out aln fnl ctr ;;
    let '(out, ctr) := st in
    out <- for_up aln (outlen - aln) (fun i out =>
      a <- get (src inp out) i ;; b <- get out i ;; put out i (Z.lxor b a)) out ;;
    Ok (out, ctr)
  else Ok st.
(** CTR.cpp:221-251, ICM.cpp:221-251 Transform *)
Definition CM_Transform (seq : option (list Z) -> nat -> list Z -> nat -> nat -> list Z -> res (list Z * list Z))
    (parp : list nat -> option (list Z) -> nat -> list Z -> nat -> nat -> list Z -> res (list Z * list Z))
    (p : prof) (ord : nat -> list nat) (inp : option (list Z)) (io : nat) (out : list Z) (oo len : nat) (ctr : list Z) : res (list Z * list Z) :=
  if par p && (pblk p <=? len)%nat then
    _ <- safe (negb (pblk p =? 0)%nat) ;;
    let cnt := (len / pblk p)%nat in
    st <- for_up 0 cnt (fun i st => let '(out, ctr) := st in
      parp (ord i) inp (io + i * pblk p)%nat out (oo + i * pblk p)%nat (pblk p) ctr) (out, ctr) ;;
    let rmd := (len - pblk p * cnt)%nat in
    if (rmd =? 0)%nat then Ok st
    else let '(out, ctr) := st in seq inp (io + pblk p * cnt)%nat out (oo + pblk p * cnt)%nat rmd ctr
  else seq inp io out oo len ctr.
Definition CTR_Transform (E : list Z -> list Z) (s : nat) (p : prof) :=
  CM_Transform (CM_ProcessSequential E BeIncrement8 s) (CTR_ProcessParallel E s p) p.
Definition ICM_Transform (E : list Z -> list Z) (s : nat) (p : prof) :=
  CM_Transform (CM_ProcessSequential E LeIncrement s) (ICM_ProcessParallel E s p) p.
(** CTR.cpp:255-263 Encrypt (EncryptBlock/DecryptBlock), ICM.cpp:255-265 *)
Definition CM_EncryptBlock (E : list Z -> list Z) (inc : list Z -> res (list Z)) (inp : option (list Z)) (io : nat) (out : list Z) (oo : nat) (ctr : list Z) : res (list Z * list Z) :=
  out <- blk E ctr 0 out oo ;; ctr <- inc ctr ;;
  out <- wxor (src inp out) io out oo 16 ;; Ok (out, ctr).
