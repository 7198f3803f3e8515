(** Model of the tree mode (FanOut() > 1) of CEX/Blake256.cpp and CEX/Blake512.cpp.  The leaves are processed by
    ParallelTools::ParallelFor; leaf i works on m_dgtState[i] only and reads shared arrays nobody writes meanwhile, so the
    tasks are run in order.  [P] is m_parallelProfile.ParallelMinimumSize(). *)
From Verif Require Import Base Model_IntegerTools Model_Modes Model_Absorb Model_Keccak Model_BlakeGen Model_Blake.
Open Scope Z_scope.

(** ParallelOptions.cpp:211-226 Calculate, as run by the constructor with SimdMultiply false: the degree is cut to the
    number of processors ([cores]; 1 or more) unless SetMaxDegree was called *)
Definition prl_degree (cores fan : nat) : nat := if ((cores <? fan) || (fan =? 0))%nat then cores else fan.

(** element i of the vector m_dgtState *)
Definition with_leaf {A} (ss : list A) (i : nat) (f : A -> res A) : res (list A) :=
  match nth_error ss i with
  | Some s => s <- f s ;; Ok (firstn i ss ++ s :: skipn (S i) ss)
  | None => UB
  end.

Section tree.
Context (w : Z) (size : nat) (perm : list Z -> nat -> list Z -> list Z -> res (list Z)) (IV : list Z)
  (GetConfig : bparams -> list Z -> res (list Z)) (kmin kmax slen : nat)
  (P : nat)            (* ParallelMinimumSize() *)
  (half : bool)        (* which limit Finalize uses: FanOut * RATE_SIZE (Blake256) or ParallelMinimumSize() (Blake512) *)
  (at0 : bool).        (* Blake512 writes the code at Output[0] *)
Notation R := (rate size).
Notation D := (dsize size).
Notation state := bstate.

(** m_dgtState, m_msgBuffer, m_msgLength, and m_treeParams *)
Definition tobj : Type := (list state * list Z * nat) * bparams.
Definition fan_of (p : bparams) : nat := Z.to_nat (p_fan p).
(** Blake256.cpp:382-390, :331-338: LoadState of every leaf with its NodeOffset, Config being carried along *)
Definition LoadLeaves (p : bparams) (cfg : list Z) (ss : list state) : res (list state) :=
  r <- for_up 0 (fan_of p) (fun i r => let '(ss, cfg) := r in
         cfg <- GetConfig (set_noff p (u8 (Z.of_nat i))) cfg ;;
         ss <- with_leaf ss i (fun _ => Ok ([0; 0], xorl IV cfg, [0; 0])) ;; Ok (ss, cfg)) (ss, cfg) ;;
  Ok (fst r).
(** Blake256.cpp:377-400 Reset *)
Definition Tree_Reset (o : tobj) : res tobj :=
  let '(ss, buf, _, p) := o in
  ss <- LoadLeaves p (zeros 8) ss ;; Ok ((ss, zeros (length buf), 0%nat), set_noff p 0).
(** the state of the members before Reset, [nl] leaves and a buffer of [bl] bytes *)
Definition Tree_start (nl bl : nat) (p : bparams) : res tobj :=
  Tree_Reset ((repeat ([0; 0], zeros 8, [0; 0]) nl, zeros bl, 0%nat), p).
(** Blake256.cpp:451-456, :496-501: one block of the buffer for every leaf *)
Definition each_leaf (fan : nat) (buf : list Z) (ss : list state) : res (list state) :=
  for_up 0 fan (fun i ss => with_leaf ss i (fun s => Process w size perm IV s buf (i * R))) ss.
(** Blake256.cpp:579-588 ProcessLeaf: do Permute while (Length > 0); Length is unsigned, so a Length that is not a positive
    multiple of P never reaches 0: the reads leave the array *)
Fixpoint leaf_loop (fuel : nat) (inp : list Z) (io len : nat) (s : state) : res state :=
  match fuel with
  | O => UB
  | S fuel =>
    s <- Permute perm IV s inp io ;;
    if (len =? P)%nat then Ok s
    else _ <- safe (P <? len)%nat ;; leaf_loop fuel inp (io + P) (len - P) s
  end.
Definition ProcessLeaf (inp : list Z) (io len : nat) (s : state) : res state := leaf_loop (S len) inp io len s.
(** Blake256.cpp:422-542 Update, FanOut() > 1 *)
Definition tree_update (fan : nat) (st : list state * list Z * nat) (inp : list Z) (io len : nat) : res (list state * list Z * nat) :=
  let '(ss, buf, pos) := st in
  if (len =? 0)%nat then Ok st
  else
    let bs := length buf in
    let tlen := (len + pos)%nat in
    let PRLMIN := (bs + (P - R))%nat in
    r <- (if (PRLMIN <? tlen)%nat then
            _ <- safe (pos <=? bs)%nat ;;
            let rmd := (bs - pos)%nat in
            buf <- (if (rmd =? 0)%nat then Ok buf else wcopy inp io buf pos rmd) ;;
            let len := (len - rmd)%nat in
            let io := (io + rmd)%nat in
            let tlen := (tlen - bs)%nat in
            ss <- each_leaf fan buf ss ;;
            if (PRLMIN <? len)%nat then
              let plen := (len - P)%nat in
              let plen := (plen - plen mod P)%nat in
              ss <- for_up 0 fan (fun i ss => with_leaf ss i (ProcessLeaf inp (io + i * R) plen)) ss ;;
              Ok (ss, buf, 0%nat, (io + plen)%nat, (len - plen)%nat, (tlen - plen)%nat)
            else Ok (ss, buf, 0%nat, io, len, tlen)
          else Ok (ss, buf, pos, io, len, tlen)) ;;
    let '(ss, buf, pos, io, len, tlen) := r in
    r <- (if (bs <? tlen)%nat then
            _ <- safe (pos <=? bs)%nat ;;
            let rmd := (bs - pos)%nat in
            buf <- (if (rmd =? 0)%nat then Ok buf else wcopy inp io buf pos rmd) ;;
            ss <- each_leaf fan buf ss ;;
            _ <- safe (P <=? bs)%nat ;;
            buf <- wcopy buf (bs / 2) buf 0 (bs / 2) ;;
            Ok (ss, buf, (bs - P)%nat, (io + rmd)%nat, (len - rmd)%nat)
          else Ok (ss, buf, pos, io, len)) ;;
    let '(ss, buf, pos, io, len) := r in
    if (len =? 0)%nat then Ok (ss, buf, pos)
    else buf <- wcopy inp io buf pos len ;; Ok (ss, buf, (pos + len)%nat).
Definition Tree_Update (o : tobj) (inp : list Z) (io len : nat) : res tobj :=
  st <- tree_update (fan_of (snd o)) (fst o) inp io len ;; Ok (st, snd o).
(** size_t subtraction *)
Definition sub64 (a b : Z) : Z := (a - b) mod 2 ^ 64.
(** Blake256.cpp:210-241: the last blocks of the leaves; [pb] is the leaf whose last block is partial *)
Definition last_leaf (fan : nat) (pb : option nat) (i : nat) (r : list state * list Z * Z * list Z) : res (list state * list Z * Z * list Z) :=
  let '(ss, buf, pos, codes) := r in
  let partial := match pb with Some k => (i =? k)%nat | None => false end in
  let blen := if partial then pos mod Z.of_nat R else if pos <? Z.of_nat R then pos else Z.of_nat R in
  let pos := if partial then (pos + (Z.of_nat R - blen)) mod 2 ^ 64 else pos in
  buf <- (if partial || (pos <? Z.of_nat R) then wr buf (i * R + Z.to_nat blen) (zeros (R - Z.to_nat blen)) else Ok buf) ;;
  ss <- with_leaf ss i (fun s => let '(F, H, T) := s in
          let F := [ones w; if (i =? fan - 1)%nat then ones w else nth 1 F 0] in
          s <- Increase w (F, H, T) (Z.to_nat blen) ;; Permute perm IV s buf (i * R)) ;;
  match nth_error ss i with
  | Some (_, H, _) => codes <- wr codes (i * D) (concat (map (le_bytes size) H)) ;; Ok (ss, buf, sub64 pos (Z.of_nat R), codes)
  | None => UB
  end.
(** Blake256.cpp:187-207: the buffered blocks beyond the first set *)
Definition extra_blocks (minprl : nat) (ss : list state) (buf : list Z) (pos : nat) : res (list state * list Z * Z * option nat) :=
  if (minprl <? pos)%nat then
    let bcnt := ((pos - minprl) / R + if (pos mod R =? 0)%nat then 0 else 1)%nat in
    r <- for_up 0 bcnt (fun i r => let '(ss, buf, pos) := r in
           ss <- with_leaf ss i (fun s => Process w size perm IV s buf (i * R)) ;;
           buf <- wcopy buf (minprl + i * R) buf (i * R) R ;;
           Ok (ss, buf, sub64 pos (Z.of_nat R))) (ss, buf, Z.of_nat pos) ;;
    let '(ss, buf, pos) := r in
    Ok (ss, buf, pos, if pos mod Z.of_nat R =? 0 then None else Some (bcnt - 1)%nat)
  else Ok (ss, buf, Z.of_nat pos, None).
(** Blake256.cpp:243-273 the root node, Blake512.cpp:244-274; gives back the code *)
Definition root_node (p : bparams) (ss : list state) (buf codes : list Z) : res (list state * list Z * nat * list Z) :=
  let fan := fan_of p in
  let rootp := BParams (p_out p) (p_key p) (p_fan p) 2 (p_leaf p) 0 1 (p_inner p) (p_res p) (p_dst p) in
  cfg <- GetConfig rootp (zeros 8) ;;
  ss <- with_leaf ss 0 (fun _ => Ok ([0; 0], xorl IV cfg, [0; 0])) ;;
  r <- for_up 0 fan (fun i st => tree_update fan st codes (i * D) D) (ss, buf, 0%nat) ;;
  let '(ss, buf, pos) := r in
  _ <- safe ((R <=? length codes) && (R <=? pos))%nat ;;
  ss <- for_up 0 ((length codes - R + (R - 1)) / R) (fun i ss => with_leaf ss 0 (fun s => Process w size perm IV s buf (i * R))) ss ;;
  ss <- with_leaf ss 0 (fun s => let '(F, H, T) := s in s <- Increase w ([ones w; ones w], H, T) R ;; Permute perm IV s buf (pos - R)) ;;
  match nth_error ss 0 with
  | Some (_, H, _) => Ok (ss, buf, pos, concat (map (le_bytes size) H))
  | None => UB
  end.
(** Blake256.cpp:164-290 Finalize, FanOut() > 1; Blake512.cpp:168-291 *)
Definition Tree_Finalize (o : tobj) (out : list Z) (oo : nat) : res (tobj * list Z) :=
  _ <- guard (negb ((oo <=? length out)%nat && (length out - oo <? D)%nat)) InvalidSize ;;
  let '(ss, buf, pos, p) := o in
  let fan := fan_of p in
  buf <- clear_from buf pos ;;
  r <- extra_blocks (if half then (fan * R)%nat else P) ss buf pos ;;
  let '(ss, buf, zpos, pb) := r in
  r <- for_up 0 fan (last_leaf fan pb) (ss, buf, zpos, zeros (fan * D)) ;;
  let '(ss, buf, _, codes) := r in
  r <- root_node p ss buf codes ;;
  let '(ss, buf, pos, code) := r in
  out <- wr out (if at0 then 0%nat else oo) code ;;
  o <- Tree_Reset ((ss, buf, pos), p) ;;
  Ok (o, out).
(** Blake256.cpp:153-162 Compute *)
Definition Tree_Compute (o : tobj) (inp out : list Z) : res (tobj * list Z) :=
  _ <- guard (negb (length out <? D)%nat) InvalidSize ;;
  o <- Tree_Update o inp 0 (length inp) ;;
  Tree_Finalize o out 0.
End tree.

(** Blake256.cpp:42-62 Blake256(true): [fan] = DEF_PRLDEGREE = 8 leaves; and Blake256(Params), :64-94, with the parameters
    (32, 2, FanOut, 0, 32) on a machine with two or more processors *)
Definition Tree256_P (cores fan : nat) : nat := (prl_degree cores fan * 64)%nat.
Definition Tree256_new (fan : nat) : res tobj :=
  p <- BlakeParams_new 32 2 (Z.of_nat fan) 0 32 ;; Tree_start IV256 GetConfig32 fan (2 * fan * 64) p.
Definition Tree256_Update (cores fan : nat) := Tree_Update 32 4 PermuteR10P512U IV256 (Tree256_P cores fan).
Definition Tree256_Finalize (cores fan : nat) := Tree_Finalize 32 4 PermuteR10P512U IV256 GetConfig32 (Tree256_P cores fan) true false.
Definition Tree256_Compute (cores fan : nat) := Tree_Compute 32 4 PermuteR10P512U IV256 GetConfig32 (Tree256_P cores fan) true false.
(** Blake512.cpp:42-64 Blake512(true), DEF_PRLDEGREE = 4, and :66-98 *)
Definition Tree512_P (cores fan : nat) : nat := (prl_degree cores fan * 128)%nat.
Definition Tree512_new (fan : nat) : res tobj :=
  p <- BlakeParams_new 64 2 (Z.of_nat fan) 0 64 ;; Tree_start IV512 GetConfig64 fan (2 * fan * 128) p.
Definition Tree512_Update (cores fan : nat) := Tree_Update 64 8 PermuteR12P1024U IV512 (Tree512_P cores fan).
Definition Tree512_Finalize (cores fan : nat) := Tree_Finalize 64 8 PermuteR12P1024U IV512 GetConfig64 (Tree512_P cores fan) false true.
Definition Tree512_Compute (cores fan : nat) := Tree_Compute 64 8 PermuteR12P1024U IV512 GetConfig64 (Tree512_P cores fan) false true.
(** Blake256.cpp:348-375 ParallelMaxDegree(Degree) on a machine with two or more processors: SetMaxDegree
    (ParallelOptions.cpp:322-333) keeps the degree whatever the number of processors; the buffer holds Degree blocks *)
Definition Tree256_degree (d : nat) : res tobj :=
  _ <- guard (negb (d =? 0)%nat && (d mod 2 =? 0)%nat && (d <=? 64)%nat) NotSupported ;;
  Tree_start IV256 GetConfig32 d (d * 64) (BParams 32 0 (Z.of_nat d) 2 0 0 0 32 0 (zeros 12)).
Definition Tree256_degree_Update (d : nat) := Tree_Update 32 4 PermuteR10P512U IV256 (d * 64).
