(** Model of CEX/SCBKDF.cpp, the SHAKE cost-based key derivation function. *)
From Verif Require Import Base Model_IntegerTools Model_Modes Model_Absorb Model_Keccak.
Open Scope Z_scope.

(** SCBKDF.cpp:11-59 ScbkdfState: State, Cache, CpuCost, MemoryCost, IsInitialized.  Rate is a parameter, Domain is
    0x24 *)
Record scb := Scb { sb_state : list Z; sb_cache : list Z; sb_cpu : nat; sb_mem : Z; sb_ready : bool }.
(** SCBKDF.cpp:24-37, 63-79 the constructor *)
Definition SCB_new (cpu : nat) (mem : Z) : scb := Scb (zeros 25) [] cpu mem false.
(** SCBKDF.cpp:52-58 and 196-199 Reset *)
Definition SCB_Reset (o : scb) : scb := Scb (zeros 25) [] (sb_cpu o) (sb_mem o) false.
(** SCBKDF.cpp:96-104: the accessors CpuCost() and MemoryCost() give references that can be assigned *)
Definition SCB_costs (o : scb) (cpu : nat) (mem : Z) : scb := Scb (sb_state o) (sb_cache o) cpu mem (sb_ready o).
(** SCBKDF.cpp:159-194 Initialize; MinimumKeySize 16.  244-247 Permute is Keccak::Permute, 24 rounds *)
Definition SCB_Initialize (rate : nat) (o : scb) (key iv info : list Z) : res scb :=
  _ <- guard (negb (length key <? 16)%nat) InvalidKey ;;
  let o := if sb_ready o then SCB_Reset o else o in
  st <- (if (negb (length iv =? 0) || negb (length info =? 0))%nat then Customize 24 iv info rate (sb_state o) else Ok (sb_state o)) ;;
  st <- Absorb 24 key 0 (length key) rate 0x24 st ;;
  let st := Permute 24 st in
  cache <- wcopy (u64_bytes st) 0 (firstn rate (sb_cache o ++ zeros rate)) 0 rate ;;
  Ok (Scb st cache (sb_cpu o) (sb_mem o) true).
(** SCBKDF.cpp:203-221 Expand: one iteration.  State->State.size() is 25, the product is a size_t *)
Definition SCB_round (rate : nat) (mem : Z) (i : nat) (p : list Z * list Z) : res (list Z * list Z) :=
  let '(st, cache) := p in
  st <- Absorb 24 cache 0 (length cache) rate 0x24 st ;;
  if 25 <? (mem * 1000000) mod 2 ^ 64 then
    cache <- wcopy (u64_bytes st) 0 (cache ++ zeros rate) (length cache) rate ;;
    Ok (st, cache)
  else Ok (st, cache).
(** SCBKDF.cpp:223-242 Extract *)
Definition SCB_Extract (rate : nat) (o : scb) (out : list Z) (oo len : nat) : res (scb * list Z) :=
  p <- for_up 0 (sb_cpu o) (SCB_round rate (sb_mem o)) (sb_state o, sb_cache o) ;;
  let '(st, cache) := p in
  r <- (if (rate <=? len)%nat then
          let blkcnt := (len / rate)%nat in
          r <- Squeeze 24 st out oo blkcnt rate ;;
          Ok (fst r, snd r, (oo + blkcnt * rate)%nat, (len - blkcnt * rate)%nat)
        else Ok (st, out, oo, len)) ;;
  let '(st, out, oo, len) := r in
  if (len =? 0)%nat then Ok (Scb st cache (sb_cpu o) (sb_mem o) (sb_ready o), out) else
  let st := Permute 24 st in
  out <- wcopy (u64_bytes st) 0 out oo len ;;
  Ok (Scb st cache (sb_cpu o) (sb_mem o) (sb_ready o), out).
(** SCBKDF.cpp:128-141 Generate(std::vector Output, OutOffset, Length); the SecureVector form :143-157 goes through
    a temporary *)
Definition SCB_Generate (rate : nat) (o : scb) (out : list Z) (oo len : nat) : res (scb * list Z) :=
  _ <- guard (sb_ready o) NotInitialized ;;
  _ <- guard (negb ((oo <=? length out)%nat && (length out - oo <? len)%nat)) InvalidSize ;;
  SCB_Extract rate o out oo len.
