(** Model of the parallel (tree) mode of CEX/SHA2256.cpp and CEX/SHA2512.cpp.
    The two files have the same text but for the constants, so the definitions are written once over
    the leaf state [S], the block size [rate] (64 / 128), the digest size [dig] (32 / 64) and the
    functions Permute, HashFinal and the big-endian output; both are instantiated below.
    [d] = ParallelMaxDegree(), [pblk] = ParallelBlockSize(); ParallelMinimumSize() is d * rate
    (ParallelOptions.cpp:211-262 with SimdMultiply = false).
    ParallelFor runs its body for every leaf index; the bodies read the same input and write only
    their own leaf, so the order is irrelevant. *)
From Verif Require Import Base Model_IntegerTools Model_Modes Model_Absorb Model_SHA2.
Open Scope Z_scope.

(** the loop over the leaves, index and state *)
Fixpoint each_leaf {S : Type} (i : nat) (f : nat -> S -> res S) (ls : list S) : res (list S) :=
  match ls with
  | [] => Ok []
  | s :: t => s' <- f i s ;; t' <- each_leaf (Datatypes.S i) f t ;; Ok (s' :: t')
  end.

Section par.
Context {S : Type} (rate dig : nat) (permute : S -> list Z -> nat -> res S)
  (hashfinal : list Z -> nat -> nat -> S -> res (S * list Z)) (store : S -> list Z -> nat -> res (list Z))
  (iv : S) (root_ge : bool) (hdr : nat -> list Z) (d pblk : nat).
Definition minsize : nat := (d * rate)%nat.
Definition pobj : Type := list S * list Z * nat.

(** SHA2256.cpp:284-297, SHA2512.cpp:286-299: one block per leaf *)
Definition par_absorb (ls : list S) (inp : list Z) (io : nat) : res (list S) :=
  each_leaf 0 (fun i s => permute s inp (io + i * rate)) ls.
(** SHA2256.cpp:419-428, SHA2512.cpp:410-419 ProcessLeaf; Length is unsigned: a value that is not a
    multiple of the stride never reaches 0 *)
Fixpoint ProcessLeaf (fuel : nat) (inp : list Z) (io : nat) (s : S) (len : nat) : res S :=
  match fuel with
  | O => UB
  | Datatypes.S k =>
    s <- permute s inp io ;;
    _ <- safe (minsize <=? len)%nat ;;
    if (len - minsize =? 0)%nat then Ok s else ProcessLeaf k inp (io + minsize) s (len - minsize)
  end.
Definition process_leaves (ls : list S) (inp : list Z) (io len : nat) : res (list S) :=
  each_leaf 0 (fun i s => ProcessLeaf len inp (io + i * rate) s len) ls.
(** SHA2256.cpp:231-252, SHA2512.cpp:234-254 Reset; [hdr i] = the tree parameters of leaf i padded to a block *)
Definition par_new : res pobj :=
  ls <- each_leaf 0 (fun i s => permute s (hdr i) 0) (repeat iv d) ;; Ok (ls, zeros minsize, 0%nat).
(** SHA2256.cpp:274-363, SHA2512.cpp:276-363 Update, parallel branch *)
Definition par_update (o : pobj) (inp : list Z) (io len : nat) : res pobj :=
  let '(ls, buf, pos) := o in
  if (len =? 0)%nat then Ok o
  else
    r <- (if (negb (pos =? 0) && (length buf <=? len + pos))%nat then
            _ <- safe (pos <=? length buf)%nat ;;
            let rmd := (length buf - pos)%nat in
            buf <- wcopy inp io buf pos rmd ;;
            ls <- par_absorb ls buf 0 ;;
            Ok (ls, buf, 0%nat, (io + rmd)%nat, (len - rmd)%nat)
          else Ok (ls, buf, pos, io, len)) ;;
    let '(ls, buf, pos, io, len) := r in
    r <- (if (pblk <=? len)%nat then
            _ <- safe (negb (pblk =? 0))%nat ;;
            let prc := (len - len mod pblk)%nat in
            ls <- process_leaves ls inp io prc ;; Ok (ls, (io + prc)%nat, (len - prc)%nat)
          else Ok (ls, io, len)) ;;
    let '(ls, io, len) := r in
    r <- (if (minsize <=? len)%nat then
            _ <- safe (negb (minsize =? 0))%nat ;;
            let prm := (len - len mod minsize)%nat in
            ls <- process_leaves ls inp io prm ;; Ok (ls, (io + prm)%nat, (len - prm)%nat)
          else Ok (ls, io, len)) ;;
    let '(ls, io, len) := r in
    if (len =? 0)%nat then Ok (ls, buf, pos)
    else buf <- wcopy inp io buf pos len ;; Ok (ls, buf, (pos + len)%nat).

(** SHA2256.cpp:165-178 / SHA2512.cpp:168-181: finish the buffered blocks, one leaf each *)
Fixpoint finish_leaves (fuel : nat) (ls : list S) (buf : list Z) (k pos : nat) : res (list S * list Z) :=
  if (pos =? 0)%nat then Ok (ls, buf)
  else match fuel, nth_error ls k with
  | Datatypes.S n, Some s =>
    let rmd := if (rate <=? pos)%nat then rate else pos in
    r <- hashfinal buf (k * rate) rmd s ;;
    let '(s, buf) := r in
    finish_leaves n (firstn k ls ++ s :: skipn (Datatypes.S k) ls) buf (Datatypes.S k) (pos - rmd)
  | _, _ => UB
  end.
(** SHA2256.cpp:184-206 / SHA2512.cpp:187-209: the root; leaf i is stored at i * RATE, the message
    length grows by DIGEST per leaf *)
Definition root_hash (ls : list S) (buf : list Z) : res S :=
  buf <- for_up 0 (length ls) (fun i buf => match nth_error ls i with Some s => store s buf (i * rate) | None => UB end) buf ;;
  let n := (length ls * dig)%nat in
  r <- (if (if root_ge then rate <=? n else rate <? n)%nat then
          let blk := (n - n mod rate)%nat in
          s <- for_up 0 (blk / rate) (fun i s => permute s buf (i * rate)) iv ;; Ok (s, blk, (n - blk)%nat)
        else Ok (iv, 0%nat, n)) ;;
  let '(s, off, n) := r in
  r <- hashfinal buf off n s ;; Ok (fst r).
(** SHA2256.cpp:146-217 / SHA2512.cpp:149-220 Finalize, parallel branch, then Reset *)
Definition par_finalize (o : pobj) (out : list Z) (oo : nat) : res (pobj * list Z) :=
  let '(ls, buf, pos) := o in
  _ <- guard (negb ((oo <=? length out)%nat && (length out - oo <? dig)%nat)) InvalidSize ;;
  buf <- (if (pos <? length buf)%nat then wr buf pos (zeros (length buf - pos)) else Ok buf) ;;
  r <- finish_leaves (length ls) ls buf 0 pos ;;
  let '(ls, buf) := r in
  s <- root_hash ls buf ;;
  out <- store s out oo ;;
  o <- par_new ;; Ok (o, out).
End par.

(** SHA2256 *)
Definition SHA2256P_new := par_new 64 SHA2256_Permute s256_init.
Definition SHA2256P_Update (d pblk : nat) := par_update 64 SHA2256_Permute d pblk.
Definition SHA2256P_Finalize (hdr : nat -> list Z) (d : nat) :=
  par_finalize 64 32 SHA2256_Permute (SHA2256_HashFinal SHA2256_Permute) (fun s out oo => BeWordsToBlock 4 (fst s) out oo) s256_init false hdr d.
(** SHA2512 *)
Definition SHA2512P_new := par_new 128 SHA2512_Permute s512_init.
Definition SHA2512P_Update (d pblk : nat) := par_update 128 SHA2512_Permute d pblk.
Definition SHA2512P_Finalize (hdr : nat -> list Z) (d : nat) :=
  par_finalize 128 64 SHA2512_Permute (SHA2512_HashFinal SHA2512_Permute) (fun s out oo => BeWordsToBlock 8 (fst s) out oo) s512_init true hdr d.
