(** C64: parallel profiles.  [k] is the SIMD multiplier of the build. *)
From Verif Require Import Base Spec_Modes Model_ParallelOptions Model_Modes Session_ParallelOptions Proofs_ParallelOptions.
Open Scope Z_scope.

(** On every machine, after every constructor and every sequence of calls, the parallel minimum size
    is degree times grain and the parallel block size is a multiple of it. *)
Theorem C64_sizes : forall k c n cs, 1 <= k -> cpu_ok c -> ctor_ok n -> no_overflow k c n -> blk_of n <> 0 -> blk_of n mod 2 = 0 ->
  (forall a, In a cs -> pcall_ok (grain k n) a) ->
  exists o, bind (construct k c n) (fun o => plife k o cs) = Ok o /\
    0 < p_deg o /\ p_min o = p_deg o * grain k n /\ (p_min o | p_pblk o) /\ 0 <= p_pblk o.
Proof. exact c64_sizes. Qed.
Print Assumptions C64_sizes.

(** Once Initialize of a mode has accepted the profile, it meets what C12 to C20 ask of a parallel
    profile, and goes on doing so whatever is called, short of switching the flag on by hand. *)
Theorem C64_modes : forall k c n before after, 1 <= k -> cpu_ok c -> ctor_ok n -> no_overflow k c n -> blk_of n = 16 ->
  (forall a, In a (before ++ after) -> pcall_ok (grain k n) a) ->
  (forall a, In a after -> turned_on a = false) ->
  exists o, bind (construct k c n) (fun o => plife k o before) = Ok o /\
    (Mode_check o = Ok tt -> exists o', plife k o after = Ok o' /\
       (par (seen_by_modes o') = true -> good_profile (deg (seen_by_modes o')) (pblk (seen_by_modes o')))).
Proof. exact c64_modes. Qed.
Print Assumptions C64_modes.

(** The constructor that is given sizes needs no such check. *)
Theorem C64_sized : forall k c blk pb d simd r sp cs, 1 <= k -> cpu_ok c -> let n := NewSized blk true pb d simd r sp in
  ctor_ok n -> no_overflow k c n -> blk = 16 -> (forall a, In a cs -> pcall_ok (grain k n) a) -> (forall a, In a cs -> turned_on a = false) ->
  exists o, bind (construct k c n) (fun o => plife k o cs) = Ok o /\
    (par (seen_by_modes o) = true -> good_profile (deg (seen_by_modes o)) (pblk (seen_by_modes o))).
Proof. exact c64_sized. Qed.
Print Assumptions C64_sized.

(** Refused calls change nothing. *)
Theorem C64_refused : forall k o,
  (forall n, n < p_min o -> pstep k o (PBlock n) = Ok (o, Some InvalidParam)) /\
  pstep k o (PDegree 0) = Ok (o, Some InvalidParam) /\
  (forall d, d = 0 \/ d mod 2 <> 0 \/ ProcessorCount o < d -> pstep k o (PMode d) = Ok (o, Some InvalidParam)).
Proof. exact c64_refused. Qed.
Print Assumptions C64_refused.
Theorem C64_block : forall k c n, blk_of n = 0 \/ blk_of n mod 2 <> 0 -> construct k c n = Throw InvalidParam.
Proof. exact c64_block. Qed.
Print Assumptions C64_block.

(** an eight-thread machine, the profile of CBC, AVX2: set up, used, changed *)
Example C64_case :
  let c := Cpu 4 8 131072 in let n := NewAuto 16 true 4096 true 0 in
  let before := [PMode 4; PBlock 8000; PMode 3; PBlock 5] in let after := [PDegree 6; PCalc true 100 0; PFlag false] in
  (cpu_ok c /\ ctor_ok n /\ no_overflow 8 c n /\ forall a, In a (before ++ after) -> pcall_ok (grain 8 n) a) /\
  bind (construct 8 c n) (fun o => plife 8 o before) = Ok (POpt false 16 true 4096 131072 true 7680 4 512 4 8 true true 8) /\
  Mode_check (POpt false 16 true 4096 131072 true 7680 4 512 4 8 true true 8) = Ok tt /\
  bind (plife 8 (POpt false 16 true 4096 131072 true 7680 4 512 4 8 true true 8) [PDegree 6; PCalc true 100 0]) (fun o => Ok (p_par o, p_pblk o, p_deg o)) = Ok (true, 768, 6).
Proof.
  cbv zeta. split; [split; [|split; [|split]] | repeat split; reflexivity].
  - unfold cpu_ok, size. cbn. lia.
  - unfold ctor_ok, size. cbn. lia.
  - reflexivity.
  - intros a H. cbn [app In] in H. unfold grain; cbn [blk_of simd_of]. repeat (destruct H as [<-|H]; [unfold pcall_ok, size; lia|]). destruct H.
Qed.

(** Switching the flag on by hand after Calculate(false, ..) leaves a parallel object whose block
    size is zero: every decryption then divides by zero. *)
Theorem C64_flag_refuted :
  exists c n o, cpu_ok c /\ ctor_ok n /\ no_overflow 1 c n /\ blk_of n = 16 /\
    bind (construct 1 c n) (fun o => bind (Mode_check o) (fun _ => plife 1 o [PCalc false 64 0; PFlag true])) = Ok o /\
    p_par o = true /\ p_pblk o = 0 /\
    forall D s ord inp io out oo len iv, CBC_decrypt D s (seen_by_modes o) ord inp io out oo len iv = UB.
Proof.
  exists (Cpu 4 8 131072), (NewAuto 16 false 4096 true 0), (POpt false 16 true 4096 131072 false 0 8 128 4 8 false true 8).
  split; [unfold cpu_ok, size; cbn; lia|]. split; [unfold ctor_ok, size; cbn; lia|]. repeat split.
Qed.
Print Assumptions C64_flag_refuted.

(** A degree whose minimum size wraps to zero is accepted and divides by zero. *)
Theorem C64_degree_refuted :
  exists c n d, cpu_ok c /\ ctor_ok n /\ no_overflow 1 c n /\ blk_of n = 16 /\ size d /\ 0 < d /\
    bind (construct 1 c n) (fun o => plife 1 o [PFlag false; PDegree d]) = UB.
Proof.
  exists (Cpu 4 8 131072), (NewAuto 16 false 4096 true 0), (2 ^ 60).
  split; [unfold cpu_ok, size; cbn; lia|]. split; [unfold ctor_ok, size; cbn; lia|]. repeat split; reflexivity || (unfold size; lia).
Qed.
Print Assumptions C64_degree_refuted.
