(** Call histories of a BCG object. *)
From Coq Require Import Permutation.
From Verif Require Import Base Spec_Common Spec_BCG Session_KMAC Session_CSG Model_ChaCha Model_BCG.
Open Scope Z_scope.

(** the calls: Initialize(key, IV, info), Generate(Output, OutOffset, Length) with the order in which its workers run, Update(Key) *)
Inductive bcall :=
| BInit (key iv info : list Z)
| BGenerate (out : list Z) (oo n : nat) (ord : list nat)
| BUpdate (key : list Z).
(** a parallel profile: blocks of more than 32 bytes; the distance of the counters is so small that no byte of it is 255
    next to a carry (see C03 for what BeIncrease8 does otherwise) *)
Definition bprofile (p : sprof) : Prop :=
  sp_par p = true -> (0 < sp_deg p)%nat /\ (32 < sp_blk p)%nat /\ Z.of_nat (sp_blk p / sp_deg p / 32 * sp_deg p) < 65280.
Definition bcall_ok (p : sprof) (c : bcall) : Prop :=
  match c with
  | BInit key iv info => bytes key /\ bytes iv /\ bytes info /\ Z.of_nat (length info) < 2 ^ 32
  | BGenerate out oo n ord => (oo <= length out)%nat /\ (sp_par p = true -> Permutation ord (seq 0 (sp_deg p)))
  | BUpdate key => bytes key /\ Z.of_nat (length key) <= 100000000
  end.
Definition par_of (p : sprof) : option (nat * nat) := if sp_par p then Some (sp_blk p, sp_deg p) else None.
Section history.
Context (p : sprof) (prov : option (nat -> nat -> list Z)) (thr : Z).
Definition bstep (o : bcg) (c : bcall) : res (bcg * gres) :=
  match c with
  | BInit key iv info =>
    match BCG_Initialize o key iv info with Ok o' => Ok (o', GDone) | Throw e => Ok (o, GFailed e) | UB => UB end
  | BGenerate out oo n ord =>
    match BCG_Generate p prov thr o out oo n ord with
    | Ok (o', None, out') => Ok (o', GWrote out') | Ok (o', Some e, out') => Ok (o', GLate e out')
    | Throw e => Ok (o, GFailed e) | UB => UB end
  | BUpdate key =>
    match BCG_Update prov o key with
    | Ok (o', None) => Ok (o', GDone) | Ok (o', Some e) => Ok (o', GFailed e)
    | Throw e => Ok (o, GFailed e) | UB => UB end
  end.
Fixpoint bhistory (o : bcg) (cs : list bcall) : res (list gres) :=
  match cs with
  | [] => Ok []
  | c :: t => r <- bstep o c ;; rs <- bhistory (fst r) t ;; Ok (snd r :: rs)
  end.
(** what the calls return *)
Fixpoint bexpected (g : bgen) (cs : list bcall) (rs : list gres) : Prop :=
  match cs, rs with
  | [], [] => True
  | BInit key iv info :: cs, r :: rs =>
    if negb (blegal key) then r = GFailed InvalidKey /\ bexpected g cs rs
    else if negb (length iv =? 32)%nat then r = GFailed InvalidNonce /\ bexpected g cs rs
    else r = GDone /\ bexpected (bkeyed g key iv info) cs rs
  | BGenerate out oo n _ :: cs, r :: rs =>
    if negb (b_ready g) then r = GFailed NotInitialized /\ bexpected g cs rs
    else if (length out <? oo + n)%nat then r = GFailed InvalidSize /\ bexpected g cs rs
    else if 102400000 <? Z.of_nat n then r = GFailed MaxExceeded /\ bexpected g cs rs
    else
      let nx := bnext (par_of p) (b_keys g) (b_nonce g) n in
      exists out', written out out' oo (fst nx) /\
      match prov with
      | None => r = GWrote out' /\ bexpected (bwith g (snd nx) (b_since g) (b_reseeds g)) cs rs
      | Some _ =>
        let total := b_since g + Z.of_nat n in
        if total <? thr then r = GWrote out' /\ bexpected (bwith g (snd nx) total (b_reseeds g)) cs rs
        else if 10000 <=? b_reseeds g then r = GLate MaxExceeded out' /\ bexpected (bwith g (snd nx) total (b_reseeds g + 1)) cs rs
        else
          let nk := (bstream (b_keys g) (snd nx) 32, bmoved (snd nx) 32) in
          let g2 := bwith g (snd nk) total (b_reseeds g + 2) in
          if 9999 <=? b_reseeds g then r = GLate MaxExceeded out' /\ bexpected g2 cs rs
          else r = GWrote out' /\ bexpected (bseeded prov g2 (fst nk)) cs rs
      end
  | BUpdate key :: cs, r :: rs =>
    let g1 := bwith g (b_nonce g) (b_since g) (b_reseeds g + 1) in
    if (length key <? 16)%nat then r = GFailed InvalidKey /\ bexpected g cs rs
    else if 10000 <=? b_reseeds g then r = GFailed MaxExceeded /\ bexpected g1 cs rs
    else if negb (blegal key) then r = GFailed InvalidKey /\ bexpected (bfailed prov g1) cs rs
    else r = GDone /\ bexpected (bseeded prov g1 key) cs rs
  | _, _ => False
  end.
End history.
(** a generator without workers, and one with two workers that takes requests from 64 bytes on as parallel ones *)
Definition seq_profile : sprof := SProf false 0 0 0.
Definition par_profile : sprof := SProf true 0 64 2.
(** what Initialize needs *)
Definition init_ok (key iv info : list Z) : Prop := bytes key /\ bytes iv /\ bytes info /\ Z.of_nat (length info) < 2 ^ 32 /\ blegal key = true /\ length iv = 32%nat.
