(** Model of CEX/SkeinParams.cpp, CEX/SkeinUbiTweak.h and CEX/Skein256.cpp, Skein512.cpp, Skein1024.cpp.
    The three digest classes have the same text but for the sizes, so they are written once over the number [n] of state
    words and the permutation, and instantiated below.  Lines are cited as Skein256.cpp; those of Skein512.cpp and
    Skein1024.cpp are 1 to 6 higher.  ParallelFor runs its body for every index; the bodies read the same input and write
    only their own leaf, so they are run in order.  The flag tests on Tweak[1] are written with Z operations on words. *)
From Verif Require Import Base Model_IntegerTools Model_Modes Model_Absorb Model_Keccak Model_CSX Model_Threefish Model_SHA2Par.
Open Scope Z_scope.

(** ** SkeinParams *)
(** SkeinParams.h:45-55 the members *)
Record sparams := SPar {
  q_schema : list Z; q_ver : Z; q_r1 : Z; q_out : Z; q_leaf : Z; q_depth : Z; q_fan : Z; q_r2 : Z; q_r3 : Z; q_dst : list Z }.
(** SkeinParams.h:40 HDR_SIZE *)
Definition HDR_SIZE : Z := 24.
(** SkeinParams.cpp:145-148 DistributionCodeMax; unsigned *)
Definition DistributionCodeMax (p : sparams) : Z := u64 (q_out p - HDR_SIZE).
(** SkeinParams.cpp:225-228 GetHeaderSize *)
Definition GetHeaderSize (p : sparams) : Z := u64 (HDR_SIZE + DistributionCodeMax p).
(** SkeinParams.cpp:27-53 SkeinParams(OutputSize, LeafSize, Fanout) *)
Definition SkeinParams_new (out leaf fan : Z) : res sparams :=
  _ <- guard ((out =? 32) || (out =? 64) || (out =? 128)) IllegalOperation ;;
  _ <- guard (negb (((0 <? fan) && (leaf =? 0)) || ((fan =? 0) && negb (leaf =? 0)))) IllegalOperation ;;
  let p := SPar [83; 72; 65; 51] 1 0 out leaf 0 fan 0 0 [] in
  Ok (SPar (q_schema p) (q_ver p) (q_r1 p) (q_out p) (q_leaf p) (q_depth p) (q_fan p) (q_r2 p) (q_r3 p) (zeros (Z.to_nat (DistributionCodeMax p)))).
(** SkeinParams.cpp:55-83 SkeinParams(TreeArray): the size check is made while m_outputSize is still zero.
    A vector cannot be resized to 2^63 bytes or more: length_error *)
Definition SkeinParams_from (a : list Z) : res sparams :=
  _ <- guard (negb (Z.of_nat (length a) <? GetHeaderSize (SPar (zeros 4) 0 0 0 0 0 0 0 0 []))) IllegalOperation ;;
  schema <- rd a 0 4 ;;
  ver <- LeBytesTo 2 a 4 ;;
  r1 <- LeBytesTo 2 a 6 ;;
  out <- LeBytesTo 8 a 8 ;;
  leaf <- get a 16 ;;
  depth <- get a 17 ;;
  fan <- get a 18 ;;
  r2 <- get a 19 ;;
  r3 <- LeBytesTo 4 a 20 ;;
  let n := DistributionCodeMax (SPar schema ver r1 out leaf depth fan r2 r3 []) in
  _ <- guard (n <? 2 ^ 63) OtherError ;;
  _ <- safe (n <=? Z.of_nat (length a) - 24) ;;
  dst <- rd a 24 (Z.to_nat n) ;;
  Ok (SPar schema ver r1 out leaf depth fan r2 r3 dst).
(** SkeinParams.cpp:244-260 ToBytes *)
Definition SkeinParams_bytes (p : sparams) : res (list Z) :=
  _ <- guard (GetHeaderSize p <? 2 ^ 63) OtherError ;;
  _ <- safe (24 <=? GetHeaderSize p) ;;
  let a := zeros (Z.to_nat (GetHeaderSize p)) in
  s <- rd (q_schema p) 0 4 ;;
  a <- wr a 0 s ;;
  a <- wr a 4 (le_bytes 2 (q_ver p)) ;;
  a <- wr a 6 (le_bytes 2 (q_r1 p)) ;;
  a <- wr a 8 (le_bytes 8 (q_out p)) ;;
  a <- wr a 16 [q_leaf p] ;;
  a <- wr a 17 [q_depth p] ;;
  a <- wr a 18 [q_fan p] ;;
  a <- wr a 19 [q_r2 p] ;;
  a <- wr a 20 (le_bytes 4 (q_r3 p)) ;;
  wr a 24 (q_dst p).
(** SkeinParams.cpp:200-223 GetHashCode, as an unsigned 32-bit value *)
Definition SkeinParams_hash (p : sparams) : Z :=
  (31 * q_ver p + 31 * q_r1 p + 31 * q_leaf p + 31 * q_out p + 31 * q_depth p + 31 * q_fan p + 31 * q_r2 p + 31 * q_r3 p +
   fold_right (fun x s => 31 * x + s) 0 (q_dst p) + fold_right (fun x s => 31 * x + s) 0 (q_schema p)) mod 2 ^ 32.
(** SkeinParams.cpp:195-198 Equals *)
Definition SkeinParams_Equals (p q : sparams) : bool := SkeinParams_hash p =? SkeinParams_hash q.
(** SkeinParams.cpp:162-187 GetConfig; the fields do not overlap *)
Definition GetConfig (p : sparams) : res (list Z) :=
  let k := Z.to_nat (q_out p / 8) in
  _ <- safe (3 <=? k)%nat ;;
  s <- LeBytesTo 4 (q_schema p) 0 ;;
  let c0 := Z.lor (Z.lor s (wshl 64 (q_ver p) 32)) (wshl 64 (q_r1 p) 48) in
  let c1 := u64 (q_out p * 8) in
  let c2 := Z.lor (Z.lor (Z.lor (Z.lor (q_leaf p) (wshl 64 (q_fan p) 8)) (wshl 64 (q_depth p) 16)) (wshl 64 (q_r2 p) 24)) (wshl 64 (q_r3 p) 32) in
  d <- words 8 (q_dst p) 0 (k - 3) ;;
  Ok (c0 :: c1 :: c2 :: d).

(** ** SkeinUbiTweak.h:75-76 the flags of Tweak[1] *)
Definition T1_FINAL : Z := 2 ^ 63.
Definition T1_FIRST : Z := 2 ^ 62.
Definition not64 (x : Z) : Z := 2 ^ 64 - 1 - x.
(** SkeinUbiTweak.h:133-138 IsFinalBlock(Tweak, true) *)
Definition SetFinal (T : list Z) : list Z := [nth 0 T 0; Z.lor (Z.land (nth 1 T 0) (not64 T1_FINAL)) T1_FINAL].
(** SkeinUbiTweak.h:157-162 IsFirstBlock(Tweak, Value) *)
Definition SetFirst (T : list Z) (v : bool) : list Z := [nth 0 T 0; Z.lor (Z.land (nth 1 T 0) (not64 T1_FIRST)) (if v then T1_FIRST else 0)].
(** SkeinUbiTweak.h:145-149 IsFirstBlock(Tweak) *)
Definition IsFirst (T : list Z) : bool := negb (Z.land (nth 1 T 0) T1_FIRST =? 0).
(** SkeinUbiTweak.h:213-219 StartNewBlockType, with :110-114 BlockType *)
Definition StartNew (ty : Z) : list Z := SetFirst [0; wshl 64 ty 56] true.

(** ** the digests *)
Section digest.
Context (n : nat) (perm : list Z -> list Z -> list Z -> res (list Z)).
(** RATE_SIZE and DIGEST_SIZE *)
Definition rate : nat := (8 * n)%nat.
(** Skein256.cpp:13-45 Skein256State: S, V, T *)
Record kstate := KState { kS : list Z; kV : list Z; kT : list Z }.
Definition kzero : kstate := KState (zeros n) (zeros n) [0; 0].
(** Skein256.cpp:33-36 Increase *)
Definition Increase (T : list Z) (len : nat) : list Z := [u64 (nth 0 T 0 + Z.of_nat len); nth 1 T 0].
(** Skein256.cpp:424-440 ProcessBlock *)
Definition ProcessBlock (inp : list Z) (io : nat) (s : kstate) (len : nat) : res kstate :=
  let T := Increase (kT s) len in
  msg <- words 8 inp io n ;;
  S1 <- perm msg T (kS s) ;;
  Ok (KState (xorl S1 msg) (kV s) (if IsFirst T then SetFirst T false else T)).
(** Skein256.cpp:411-422 LoadState: S is left without the configuration *)
Definition KLoadState (s : kstate) (cfg : list Z) : res kstate :=
  let T := Increase (SetFinal (StartNew 4)) 32 in
  S1 <- perm cfg T (kS s) ;;
  Ok (KState S1 (xorl S1 cfg) T).
(** Skein256.cpp:381-409 Initialize: the states after the first are made from the one before.
    The configuration is copied from the first [n] words of GetConfig *)
Fixpoint chain_states (cfg prev : list Z) (ss : list kstate) : res (list kstate) :=
  match ss with
  | [] => Ok []
  | s :: t =>
    let T := Increase (SetFinal (StartNew 4)) 32 in
    S1 <- perm prev T (kS s) ;;
    t <- chain_states cfg (xorl S1 cfg) t ;;
    Ok (KState S1 (xorl S1 cfg) T :: t)
  end.
Definition KInitialize (ss : list kstate) (p : sparams) : res (list kstate) :=
  tmp <- GetConfig p ;;
  cfg <- rd tmp 0 n ;;
  match ss with
  | [] => UB
  | s :: t =>
    s <- KLoadState s cfg ;;
    t <- chain_states cfg (kV s) t ;;
    Ok (map (fun s => KState (kV s) (kV s) (StartNew 48)) (s :: t))
  end.
(** Skein256.cpp:354-379 HashFinal; the fuel is the length *)
Fixpoint final_blocks (fuel : nat) (inp : list Z) (io len : nat) (s : kstate) : res kstate :=
  if (len =? 0)%nat then Ok s
  else match fuel with
  | O => Ok s
  | S k => let r := if (rate <=? len)%nat then rate else len in s <- ProcessBlock inp io s r ;; final_blocks k inp (io + r) (len - r) s
  end.
Definition HashFinal (inp : list Z) (io len : nat) (s : kstate) : res kstate :=
  let s := KState (kS s) (kV s) (SetFinal (kT s)) in
  s <- (if (len =? 0)%nat then ProcessBlock inp io s 0 else final_blocks len inp io len s) ;;
  ProcessBlock (zeros rate) 0 (KState (kS s) (kV s) (SetFinal (StartNew 63))) 8.
(** a digest object: m_dgtState, m_msgBuffer, m_msgLength *)
Definition kobj : Type := list kstate * list Z * nat.
(** Skein256.cpp:226-240 Reset *)
Definition KReset (o : kobj) : kobj :=
  let '(ss, buf, _) := o in (map (fun s => KState (kV s) (kV s) (StartNew 48)) ss, zeros (length buf), 0%nat).
(** Skein256.cpp:48-63, :65-76 the constructors, with [fan] states (1 without a tree) *)
Definition KNew (fan : nat) (p : sparams) : res kobj :=
  ss <- KInitialize (repeat kzero fan) p ;; Ok (ss, zeros (fan * rate), 0%nat).
(** Skein256.cpp:65-76 Skein256(Params): FanOut() must be 1 to 64; a tree if it exceeds 1 *)
Definition KNew_params (p : sparams) : res kobj :=
  _ <- guard (negb (q_fan p =? 0) && (q_fan p <=? 64)) IllegalOperation ;; KNew (Z.to_nat (q_fan p)) p.

(** *** without a tree *)
(** Skein256.cpp:262-350 Update, sequential branch, on the first state *)
Definition seq_update (st : kstate * list Z * nat) (inp : list Z) (io len : nat) : res (kstate * list Z * nat) :=
  let '(s, buf, pos) := st in
  if (len =? 0)%nat then Ok st
  else
    r <- (if (negb (pos =? 0) && (rate <? pos + len))%nat then
            _ <- safe (pos <=? rate)%nat ;;
            let rmd := (rate - pos)%nat in
            buf <- (if (rmd =? 0)%nat then Ok buf else wcopy inp io buf pos rmd) ;;
            s <- ProcessBlock buf 0 s rate ;;
            Ok (s, buf, 0%nat, (io + rmd)%nat, (len - rmd)%nat)
          else Ok (s, buf, pos, io, len)) ;;
    let '(s, buf, pos, io, len) := r in
    r <- lazy_blocks rate (fun s inp io => ProcessBlock inp io s rate) len s inp io len ;;
    let '(s, io, len) := r in
    if (len =? 0)%nat then Ok (s, buf, pos)
    else buf <- wcopy inp io buf pos len ;; Ok (s, buf, (pos + len)%nat).
Definition Skein_Update (o : kobj) (inp : list Z) (io len : nat) : res kobj :=
  match o with
  | (s :: t, buf, pos) => r <- seq_update (s, buf, pos) inp io len ;; let '(s, buf, pos) := r in Ok (s :: t, buf, pos)
  | _ => UB
  end.
(** Skein256.cpp:146-207 Finalize, sequential branch; `Output.size() - OutOffset` is unsigned; LeULL256ToBlock, LeULL512ToBlock,
    LeULL1024ToBlock (IntegerTools.h:1466-1540) *)
Definition Skein_Finalize (o : kobj) (out : list Z) (oo : nat) : res (kobj * list Z) :=
  _ <- guard (negb ((oo <=? length out)%nat && (length out - oo <? rate)%nat)) InvalidSize ;;
  match o with
  | (s :: t, buf, pos) =>
    buf <- clear_from buf pos ;;
    s <- HashFinal buf 0 pos s ;;
    out <- wr out oo (concat (map (le_bytes 8) (kS s))) ;;
    Ok (KReset (s :: t, buf, pos), out)
  | _ => UB
  end.
(** Skein256.cpp:135-144 Compute *)
Definition Skein_Compute (o : kobj) (inp out : list Z) : res (kobj * list Z) :=
  _ <- guard (negb (length out <? rate)%nat) InvalidSize ;;
  o <- Skein_Update o inp 0 (length inp) ;; Skein_Finalize o out 0.

(** *** with a tree; [d] = ParallelMaxDegree(), [pblk] = ParallelBlockSize(), ParallelMinimumSize() = d * RATE *)
Context (d pblk : nat).
(** ParallelFor(0, ParallelMaxDegree()) over m_dgtState *)
Definition first_leaves (f : nat -> kstate -> res kstate) (ss : list kstate) : res (list kstate) :=
  _ <- safe (d <=? length ss)%nat ;;
  t <- each_leaf 0 f (firstn d ss) ;; Ok (t ++ skipn d ss).
(** Skein256.cpp:262-350 Update, parallel branch; ProcessLeaf is Skein256.cpp:442-452 *)
Definition SkeinP_Update (o : kobj) (inp : list Z) (io len : nat) : res kobj :=
  let '(ss, buf, pos) := o in
  let proc := fun s b k => ProcessBlock b k s rate in
  if (len =? 0)%nat then Ok o
  else
    r <- (if (negb (pos =? 0) && (length buf <=? len + pos))%nat then
            _ <- safe (pos <=? length buf)%nat ;;
            let rmd := (length buf - pos)%nat in
            buf <- wcopy inp io buf pos rmd ;;
            ss <- first_leaves (fun i s => proc s buf (i * rate)%nat) ss ;;
            Ok (ss, buf, 0%nat, (io + rmd)%nat, (len - rmd)%nat)
          else Ok (ss, buf, pos, io, len)) ;;
    let '(ss, buf, pos, io, len) := r in
    r <- (if (pblk <=? len)%nat then
            _ <- safe (negb (pblk =? 0))%nat ;;
            let prc := (len - len mod pblk)%nat in
            ss <- first_leaves (fun i s => ProcessLeaf rate proc d prc inp (io + i * rate) s prc) ss ;; Ok (ss, (io + prc)%nat, (len - prc)%nat)
          else Ok (ss, io, len)) ;;
    let '(ss, io, len) := r in
    r <- (if (d * rate <=? len)%nat then
            _ <- safe (negb (d * rate =? 0))%nat ;;
            let prm := (len - len mod (d * rate))%nat in
            ss <- first_leaves (fun i s => ProcessLeaf rate proc d prm inp (io + i * rate) s prm) ss ;; Ok (ss, (io + prm)%nat, (len - prm)%nat)
          else Ok (ss, io, len)) ;;
    let '(ss, io, len) := r in
    if (len =? 0)%nat then Ok (ss, buf, pos)
    else buf <- wcopy inp io buf pos len ;; Ok (ss, buf, (pos + len)%nat).
(** Skein256.cpp:159-175: the buffered blocks finish one leaf each *)
Fixpoint finish (fuel : nat) (ss : list kstate) (buf : list Z) (k pos : nat) : res (list kstate) :=
  if (pos =? 0)%nat then Ok ss
  else match fuel, ss with
  | S f, s :: t =>
    let r := if (rate <=? pos)%nat then rate else pos in
    s <- HashFinal buf (k * rate) r s ;;
    t <- finish f t buf (S k) (pos - r) ;; Ok (s :: t)
  | _, _ => UB
  end.
(** Skein256.cpp:146-207 Finalize, parallel branch *)
Definition SkeinP_Finalize (o : kobj) (out : list Z) (oo : nat) : res (kobj * list Z) :=
  let '(ss, buf, pos) := o in
  _ <- guard (negb ((oo <=? length out)%nat && (length out - oo <? rate)%nat)) InvalidSize ;;
  buf <- clear_from buf pos ;;
  ss <- finish (length ss) ss buf 0 pos ;;
  rp <- SkeinParams_new (Z.of_nat rate) 0 0 ;;
  tmp <- GetConfig rp ;;
  cfg <- rd tmp 0 n ;;
  root <- KLoadState kzero cfg ;;
  buf <- for_up 0 (length ss) (fun i buf => match nth_error ss i with Some s => wr buf (i * rate) (concat (map (le_bytes 8) (kS s))) | None => UB end) buf ;;
  let len := (length ss * rate)%nat in
  root <- HashFinal buf 0 len root ;;
  out <- wr out oo (concat (map (le_bytes 8) (kS root))) ;;
  Ok (KReset (ss, buf, len), out).
Definition SkeinP_Compute (o : kobj) (inp out : list Z) : res (kobj * list Z) :=
  _ <- guard (negb (length out <? rate)%nat) InvalidSize ;;
  o <- SkeinP_Update o inp 0 (length inp) ;; SkeinP_Finalize o out 0.
End digest.
