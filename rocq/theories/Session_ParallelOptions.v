(** Call histories of a parallel profile and of the mode that owns it. *)
From Verif Require Import Base Model_ParallelOptions Model_Modes.
Open Scope Z_scope.

Inductive ctor :=
| NewAuto (blk : Z) (simd : bool) (reserved : Z) (split : bool) (deg : Z)
| NewFlag (blk : Z) (parallel simd : bool) (reserved : Z) (split : bool) (deg : Z)
| NewSized (blk : Z) (parallel : bool) (pblk deg : Z) (simd : bool) (reserved : Z) (split : bool).
Inductive pcall :=
| PBlock (n : Z)                          (* SetBlockSize(n) *)
| PDegree (d : Z)                         (* SetMaxDegree(d) *)
| PMode (d : Z)                           (* ParallelMaxDegree(d) of the owner *)
| PCalc (parallel : bool) (n d : Z)       (* Calculate(parallel, n, d) *)
| PFlag (b : bool).                       (* IsParallel() = b *)

Section run.
Context (k : Z) (c : cpu).
Definition construct (n : ctor) : res popt :=
  match n with
  | NewAuto blk simd r sp d => New_auto k c blk simd r sp d
  | NewFlag blk par simd r sp d => New_flag k c blk par simd r sp d
  | NewSized blk par pb d simd r sp => New_sized k c blk par pb d simd r sp
  end.
(** an exception leaves the object as it was *)
Definition kept (o : popt) (r : res popt) : res (popt * option err) :=
  match r with Ok o' => Ok (o', None) | Throw e => Ok (o, Some e) | UB => UB end.
Definition pstep (o : popt) (a : pcall) : res (popt * option err) :=
  match a with
  | PBlock n => kept o (SetBlockSize k o n)
  | PDegree d => kept o (SetMaxDegree k o d)
  | PMode d => kept o (Mode_MaxDegree k o d)
  | PCalc b n d => kept o (CalculateWith k o b n d)
  | PFlag b => Ok (set_par o b, None)
  end.
Fixpoint plife (o : popt) (cs : list pcall) : res popt :=
  match cs with [] => Ok o | a :: t => r <- pstep o a ;; plife (fst r) t end.
End run.

(** a 64-bit size *)
Definition size (x : Z) : Prop := 0 <= x < 2 ^ 64.
(** processors that CpuDetect reports: at least one *)
Definition cpu_ok (c : cpu) : Prop := size (phys c) /\ size (virt c) /\ size (l1 c) /\ 0 < Z.max (phys c) (virt c).
Definition blk_of (n : ctor) : Z := match n with NewAuto b _ _ _ _ => b | NewFlag b _ _ _ _ _ => b | NewSized b _ _ _ _ _ _ => b end.
Definition simd_of (n : ctor) : bool := match n with NewAuto _ s _ _ _ => s | NewFlag _ _ s _ _ _ => s | NewSized _ _ _ _ s _ _ => s end.
(** bytes that one worker handles in one step *)
Definition grain (k : Z) (n : ctor) : Z := blk_of n * (if simd_of n then k else 1).
Definition ctor_ok (n : ctor) : Prop :=
  size (blk_of n) /\
  match n with NewAuto _ _ r _ d => size r /\ size d | NewFlag _ _ _ r _ d => size r /\ size d | NewSized _ _ p d _ r _ => size p /\ size d /\ size r end.
(** the degrees requested do not overflow the minimum size; [g] is the grain *)
Definition pcall_ok (g : Z) (a : pcall) : Prop :=
  match a with
  | PBlock n => size n
  | PDegree d => size d /\ d * g < 2 ^ 64
  | PMode d => size d /\ d * g < 2 ^ 64
  | PCalc _ n d => size n /\ size d /\ d * g < 2 ^ 64
  | PFlag _ => True
  end.
(** what the modes read from the profile *)
Definition seen_by_modes (o : popt) : prof := {| par := p_par o; pblk := Z.to_nat (p_pblk o); deg := Z.to_nat (p_deg o) |}.
(** the minimum size for all processors fits a size_t *)
Definition no_overflow (k : Z) (c : cpu) (n : ctor) : Prop := Z.max (phys c) (virt c) * grain k n < 2 ^ 64.
(** the caller switches parallel processing on through the flag *)
Definition turned_on (a : pcall) : bool := match a with PFlag true => true | _ => false end.
