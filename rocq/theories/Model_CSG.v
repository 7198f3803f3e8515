(** Model of CEX/CSG.cpp, the SHAKE based random generator, and of the buffered output function that CEX/HCG.cpp
    has in the same words. *)
From Verif Require Import Base Model_IntegerTools Model_Modes Model_Absorb Model_Keccak.
Open Scope Z_scope.

(** * Expand *)
(** CSG.cpp:495-537 and HCG.cpp:370-412 Expand.  [fill] is the work of Fill without the assignment to Cached: the
    generator's core and Buffer to the new ones; Cached becomes Buffer.size().  The fuel of the loop is Length + 1 *)
Section expand.
Context {C : Type} (fill : C -> list Z -> res (C * list Z)).
Fixpoint fill_loop (fuel : nat) (c : C) (buf : list Z) (cached : nat) (out : list Z) (oo len : nat) : res (C * list Z * nat * list Z) :=
  match fuel with
  | O => UB
  | S k =>
    if (len =? 0)%nat then Ok (c, buf, cached, out) else
    r <- fill c buf ;;
    let '(c, buf) := r in
    let rmd := Nat.min (length buf) len in
    out <- wcopy buf 0 out oo rmd ;;
    fill_loop k c buf (length buf - rmd) out (oo + rmd) (len - rmd)
  end.
Definition Expand (c : C) (buf : list Z) (cached : nat) (out : list Z) (oo len : nat) : res (C * list Z * nat * list Z) :=
  if (cached <? len)%nat then
    r <- (if (cached =? 0)%nat then Ok (out, oo, len)
          else out <- wcopy buf (length buf - cached) out oo cached ;; Ok (out, (oo + cached)%nat, (len - cached)%nat)) ;;
    let '(out, oo, len) := r in
    r <- fill_loop (S len) c buf 0 out oo len ;;
    let '(c, buf, cached, out) := r in
    buf <- (if (cached =? 0)%nat then Ok buf else wr buf 0 (zeros (length buf - cached))) ;;
    Ok (c, buf, cached, out)
  else
    out <- wcopy buf (length buf - cached) out oo len ;;
    Ok (c, buf, (cached - len)%nat, out).
End expand.

(** * CSG *)
Inductive shake_mode := M_SHAKE128 | M_SHAKE256 | M_SHAKE512 | M_SHAKE1024.
(** CSG.cpp:117-121 the rate given by the constructor with a provider name *)
Definition CSG_rate (m : shake_mode) : nat :=
  match m with M_SHAKE128 => 168 | M_SHAKE256 => 136 | M_SHAKE512 => 72 | M_SHAKE1024 => 32 end%nat.
(** CSG.cpp:165-167 the rate given by the constructor with a provider pointer: the last arm of the conditional is
    the comparison itself *)
Definition CSG_rate_pointer (m : shake_mode) : nat :=
  match m with M_SHAKE128 => 168 | M_SHAKE256 => 136 | M_SHAKE512 => 1 | M_SHAKE1024 => 0 end%nat.

(** CSG.cpp:33-95 CsgState; State has one element, so Index stays 0.  The rate is a parameter.  [cg_calls] counts
    the calls of the provider *)
Record csg := Csg { cg_state : list Z; cg_buf : list Z; cg_cached : nat; cg_counter : Z; cg_reseed : Z; cg_domain : Z; cg_ready : bool; cg_calls : nat }.
(** the constructors :99-171 *)
Definition CSG_new (rate : nat) : csg := Csg (zeros 25) (zeros rate) 0 0 0 0 false 0.
(** :82-94 and :342-345 Reset: Domain is left *)
Definition CSG_Reset (rate : nat) (o : csg) : csg := Csg (zeros 25) (zeros rate) 0 0 0 (cg_domain o) false (cg_calls o).
(** CSG.cpp:395-420 Absorb; 546-554 Permute; a rate of 0 would not terminate *)
Definition CSG_Absorb (rate : nat) (dom : Z) (inp : list Z) (io len : nat) (st : list Z) : res (list Z) :=
  _ <- safe (0 <? rate)%nat ;;
  r <- eager_blocks rate (absorb_step (Permute 24) rate) len st inp io len ;;
  let '(st, io, len) := r in
  msg <- (if (len =? 0)%nat then Ok (zeros 200) else wcopy inp io (zeros 200) 0 len) ;;
  msg <- put msg len dom ;;
  msg <- wr msg (len + 1) (zeros (rate - (len + 1))) ;;
  msg <- set_top rate msg ;;
  FastAbsorb msg 0 rate st.
(** CSG.cpp:422-474 Customize is the text of Keccak.h:369-417 with State[0] for State *)
Definition CSG_Customize (rate : nat) (cust info st : list Z) : res (list Z) := Customize 24 cust info rate st.
(** CSG.cpp:539-544 Fill *)
Definition CSG_fill (rate : nat) (st buf : list Z) : res (list Z * list Z) :=
  let st := Permute 24 st in
  buf <- wcopy (u64_bytes st) 0 buf 0 rate ;;
  Ok (st, buf).
(** Fill on the object *)
Definition CSG_Fill (rate : nat) (o : csg) : res csg :=
  r <- CSG_fill rate (cg_state o) (cg_buf o) ;;
  Ok (Csg (fst r) (snd r) (length (snd r)) (cg_counter o) (cg_reseed o) (cg_domain o) (cg_ready o) (cg_calls o)).
Definition set_state (o : csg) (st : list Z) : csg :=
  Csg st (cg_buf o) (cg_cached o) (cg_counter o) (cg_reseed o) (cg_domain o) (cg_ready o) (cg_calls o).

Section obj.
(** [prov]: the random provider if there is one; its k-th call for n bytes gives [f k n].
    [thr]: ReseedThreshold().  CyclicReseed() is always false (DrbgBase.cpp:12, no setter) *)
Context (rate : nat) (prov : option (nat -> nat -> list Z)) (thr : Z).
(** CSG.cpp:476-493 Derive *)
Definition CSG_Derive (f : nat -> nat -> list Z) (o : csg) : res csg :=
  _ <- safe (rate <=? 200)%nat ;;
  let tmpk := f (cg_calls o) ((200 - rate) / 2)%nat in
  st <- CSG_Absorb rate (cg_domain o) tmpk 0 (length tmpk) (cg_state o) ;;
  CSG_Fill rate (Csg st (cg_buf o) (cg_cached o) (cg_counter o) (cg_reseed o) (cg_domain o) (cg_ready o) (S (cg_calls o))).
(** CSG.cpp:268-302 Generate(SecureVector Output, OutOffset, Length); MaxRequestSize 102400000, MaxReseedCount
    10000.  The std::vector form :256-266 goes through a temporary of Length bytes.  The result is the object, the
    exception if one was thrown after Expand, and Output *)
Definition CSG_Generate (o : csg) (out : list Z) (oo len : nat) : res (csg * option err * list Z) :=
  _ <- guard (cg_ready o) NotInitialized ;;
  _ <- guard (negb ((oo <=? length out)%nat && (length out - oo <? len)%nat)) InvalidSize ;;
  _ <- guard (Z.of_nat len <=? 102400000) MaxExceeded ;;
  r <- Expand (CSG_fill rate) (cg_state o) (cg_buf o) (cg_cached o) out oo len ;;
  let '(st, buf, cached, out) := r in
  match prov with
  | None => Ok (Csg st buf cached (cg_counter o) (cg_reseed o) (cg_domain o) (cg_ready o) (cg_calls o), None, out)
  | Some f =>
    let counter := cg_counter o + Z.of_nat len in
    if thr <=? counter then
      let o := Csg st buf cached counter (cg_reseed o + 1) (cg_domain o) (cg_ready o) (cg_calls o) in
      if 10000 <? cg_reseed o then Ok (o, Some MaxExceeded, out) else
      o <- CSG_Derive f o ;;
      Ok (Csg (cg_state o) (cg_buf o) (cg_cached o) 0 (cg_reseed o) (cg_domain o) (cg_ready o) (cg_calls o), None, out)
    else Ok (Csg st buf cached counter (cg_reseed o) (cg_domain o) (cg_ready o) (cg_calls o), None, out)
  end.
(** CSG.cpp:304-340 Initialize: key, IV and info of the key object *)
Definition CSG_Initialize (o : csg) (key iv info : list Z) : res csg :=
  _ <- guard (negb (length key <? 16)%nat) InvalidKey ;;
  let o := CSG_Reset rate o in
  r <- (if (negb (length iv =? 0) || negb (length info =? 0))%nat then
          st <- CSG_Customize rate iv info (cg_state o) ;; Ok (st, 4)
        else Ok (cg_state o, 0x1F)) ;;
  let '(st, dom) := r in
  st <- CSG_Absorb rate dom key 0 (length key) st ;;
  Ok (Csg st (cg_buf o) (cg_cached o) (cg_counter o) (cg_reseed o) dom true (cg_calls o)).
(** CSG.cpp:354-391 Update; the std::vector form :347-352 copies the key *)
Definition CSG_Update (o : csg) (key : list Z) : res (csg * option err) :=
  _ <- guard (negb (length key <? 16)%nat) InvalidKey ;;
  let o := Csg (cg_state o) (cg_buf o) (cg_cached o) (cg_counter o) (cg_reseed o + 1) (cg_domain o) (cg_ready o) (cg_calls o) in
  if 10000 <? cg_reseed o then Ok (o, Some MaxExceeded) else
  o <- match prov with Some f => CSG_Derive f o | None => Ok o end ;;
  st <- CSG_Absorb rate (cg_domain o) key 0 (length key) (cg_state o) ;;
  o <- CSG_Fill rate (set_state o st) ;;
  Ok (o, None).
End obj.
