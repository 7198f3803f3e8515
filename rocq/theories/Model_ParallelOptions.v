(** Model of CEX/ParallelOptions.cpp: how many workers a parallel cipher, mode or hash uses and
    how large a block they share.  Sizes are 64-bit size_t values, so sums and products wrap.

    [k] is the SIMD multiplier that the preprocessor selects (ParallelOptions.cpp:220-229): 16, 8
    or 4 with AVX-512, AVX2 or AVX, 1 otherwise; only objects constructed with SimdMultiply use it.
    Not modelled: the feature flags HasPrefetch .. HasSimd512, SimdProfile and WideBlock, which
    nothing below reads. *)
From Verif Require Import Base.
Open Scope Z_scope.

(** CpuDetect: PhysicalCores(), VirtualCores(), L1DataCacheTotal() *)
Record cpu := Cpu { phys : Z; virt : Z; l1 : Z }.

(** ParallelOptions.h: the members that the sizes depend on *)
Record popt := POpt {
  p_auto : bool;        (* m_autoInit *)
  p_blk : Z;            (* m_blockSize *)
  p_par : bool;         (* m_isParallel *)
  p_res : Z;            (* m_l1DataCacheReserved *)
  p_tot : Z;            (* m_l1DataCacheTotal *)
  p_ovr : bool;         (* m_overrideMaxDegree *)
  p_pblk : Z;           (* m_parallelBlockSize *)
  p_deg : Z;            (* m_parallelMaxDegree *)
  p_min : Z;            (* m_parallelMinimumSize *)
  p_phys : Z;           (* m_physicalCores *)
  p_proc : Z;           (* m_processorCount *)
  p_simd : bool;        (* m_simdMultiply *)
  p_split : bool;       (* m_splitChannel *)
  p_virt : Z }.         (* m_virtualCores *)

(** ParallelOptions.h:52 DEF_DATACACHE, :54 MAX_PRLALLOC *)
Definition DEF_DATACACHE : Z := 16384.
Definition MAX_PRLALLOC : Z := DEF_DATACACHE * 2000.

Definition set_pblk (o : popt) (x : Z) : popt :=
  POpt (p_auto o) (p_blk o) (p_par o) (p_res o) (p_tot o) (p_ovr o) x (p_deg o) (p_min o) (p_phys o) (p_proc o) (p_simd o) (p_split o) (p_virt o).
Definition set_deg (o : popt) (x : Z) : popt :=
  POpt (p_auto o) (p_blk o) (p_par o) (p_res o) (p_tot o) (p_ovr o) (p_pblk o) x (p_min o) (p_phys o) (p_proc o) (p_simd o) (p_split o) (p_virt o).
Definition set_min (o : popt) (x : Z) : popt :=
  POpt (p_auto o) (p_blk o) (p_par o) (p_res o) (p_tot o) (p_ovr o) (p_pblk o) (p_deg o) x (p_phys o) (p_proc o) (p_simd o) (p_split o) (p_virt o).
Definition set_par (o : popt) (b : bool) : popt :=
  POpt (p_auto o) (p_blk o) b (p_res o) (p_tot o) (p_ovr o) (p_pblk o) (p_deg o) (p_min o) (p_phys o) (p_proc o) (p_simd o) (p_split o) (p_virt o).
Definition set_auto (o : popt) (b : bool) : popt :=
  POpt b (p_blk o) (p_par o) (p_res o) (p_tot o) (p_ovr o) (p_pblk o) (p_deg o) (p_min o) (p_phys o) (p_proc o) (p_simd o) (p_split o) (p_virt o).
Definition set_ovr (o : popt) (b : bool) : popt :=
  POpt (p_auto o) (p_blk o) (p_par o) (p_res o) (p_tot o) b (p_pblk o) (p_deg o) (p_min o) (p_phys o) (p_proc o) (p_simd o) (p_split o) (p_virt o).

(** ParallelOptions.cpp:342-373 Detect; the processor count is made even when it exceeds one *)
Definition Detect (c : cpu) (o : popt) : popt :=
  let n := if (phys c <? virt c) then virt c else phys c in
  let n := if (1 <? n) && negb (n mod 2 =? 0) then n - 1 else n in
  let d := if (n <? p_deg o) then n else p_deg o in
  POpt (p_auto o) (p_blk o) (1 <? n) (p_res o) (l1 c) (p_ovr o) (p_pblk o) d (p_min o) (phys c) n (p_simd o) (p_split o) (virt c).

(** ParallelOptions.cpp:211-270 Calculate(); a remainder by zero is undefined *)
Definition Calculate (k : Z) (o : popt) : res popt :=
  let o := if ((p_proc o <? p_deg o) && negb (p_ovr o)) || (p_deg o =? 0) then set_deg o (p_proc o) else o in
  let o := set_min o (u64 (p_deg o * p_blk o)) in
  let o := if p_simd o then set_min o (u64 (p_min o * k)) else o in
  let o :=
    if p_auto o then
      let o := set_pblk o (u64 (p_tot o - p_res o)) in
      let o := if p_split o then set_pblk o (p_pblk o / 2) else o in
      set_auto (set_par o (1 <? p_proc o)) false
    else if p_par o then
      let o := if p_pblk o =? 0 then set_pblk o (u64 (DEF_DATACACHE * p_deg o)) else o in
      if p_pblk o <? p_min o then set_pblk o (p_min o) else o
    else o in
  if negb (p_pblk o =? 0) then
    if p_min o =? 0 then UB else Ok (set_pblk o (p_pblk o - p_pblk o mod p_min o))
  else Ok o.

(** ParallelOptions.cpp:12-40: the constructor that chooses everything by itself.
    The initial zero members are those of the initialiser list. *)
Definition New_auto (k : Z) (c : cpu) (blk : Z) (simd : bool) (reserved : Z) (split : bool) (deg : Z) : res popt :=
  if negb (blk =? 0) && (blk mod 2 =? 0) then
    Calculate k (Detect c (POpt true blk false reserved 0 false 0 deg 0 0 0 simd split 0))
  else Throw InvalidParam.
(** ParallelOptions.cpp:42-72: the same with the parallel flag chosen by the caller *)
Definition New_flag (k : Z) (c : cpu) (blk : Z) (parallel simd : bool) (reserved : Z) (split : bool) (deg : Z) : res popt :=
  if negb (blk =? 0) && (blk mod 2 =? 0) then
    o <- Calculate k (Detect c (POpt true blk parallel reserved 0 false 0 deg 0 0 0 simd split 0)) ;;
    Ok (set_par o parallel)
  else Throw InvalidParam.
(** ParallelOptions.cpp:74-103: block size and degree chosen by the caller *)
Definition New_sized (k : Z) (c : cpu) (blk : Z) (parallel : bool) (pblk deg : Z) (simd : bool) (reserved : Z) (split : bool) : res popt :=
  if negb (blk =? 0) && (blk mod 2 =? 0) then
    Calculate k (Detect c (POpt false blk parallel reserved 0 false pblk deg 0 0 0 simd split 0))
  else Throw InvalidParam.

(** ParallelOptions.cpp:272-287 Calculate(Parallel, ParallelBlockSize, MaxDegree) *)
Definition CalculateWith (k : Z) (o : popt) (parallel : bool) (pblk deg : Z) : res popt :=
  let o := set_par o (if parallel then 1 <? p_proc o else false) in
  let o := if negb (pblk =? 0) then set_pblk o pblk else o in
  let o := if negb (deg =? 0) then set_deg o deg else o in
  Calculate k o.
(** ParallelOptions.cpp:317-326 SetBlockSize *)
Definition SetBlockSize (k : Z) (o : popt) (n : Z) : res popt :=
  if n <? p_min o then Throw InvalidParam else Calculate k (set_pblk o n).
(** ParallelOptions.cpp:328-338 SetMaxDegree *)
Definition SetMaxDegree (k : Z) (o : popt) (d : Z) : res popt :=
  if d =? 0 then Throw InvalidParam else Calculate k (set_deg (set_ovr o true) d).
(** ParallelOptions.cpp:189-192 ProcessorCount(): not the rounded count used by Calculate *)
Definition ProcessorCount (o : popt) : Z := if negb (p_virt o =? 0) then p_virt o else p_phys o.

(** CBC.cpp:216-224 ParallelMaxDegree; CTR.cpp:211-219, ICM.cpp:211-219 and ECB.cpp are the same *)
Definition Mode_MaxDegree (k : Z) (o : popt) (d : Z) : res popt :=
  if (d =? 0) || negb (d mod 2 =? 0) || (ProcessorCount o <? d) then Throw InvalidParam else SetMaxDegree k o d.
(** CBC.cpp:198-208: what Initialize of a mode checks about the profile; CTR.cpp:193-203 and
    ICM.cpp:193-203 are the same.  The remainder by a zero minimum size is undefined. *)
Definition Mode_check (o : popt) : res unit :=
  if p_par o then
    if (p_pblk o <? p_min o) || (MAX_PRLALLOC <? p_pblk o) then Throw InvalidSize
    else if p_min o =? 0 then UB
    else if negb (p_pblk o mod p_min o =? 0) then Throw InvalidParam else Ok tt
  else Ok tt.
