(** Call histories of an RCS or RWS object. *)
From Verif Require Import Base Spec_Common Spec_ChaCha Spec_Keccak Session_KMAC Spec_Stream Spec_RCS Model_Modes Model_SHAKE Model_ChaCha Model_CSX Model_RCS Session_CSX.
From Coq Require Import Permutation.
Open Scope Z_scope.

Definition yreturn (quiet : bool) (r : rres) : res (robj * xres) :=
  match r with
  | Ok (o, out, None) => Ok (o, if quiet then XDone else XOut out)
  | Ok (o, out, Some e) => Ok (o, XFail e out)
  | Throw _ | UB => UB
  end.
Section run.
Variables (fam : rfam) (p : sprof).
Definition ystep (o : robj) (c : xcall) : res (robj * xres) :=
  match c with
  | XInit enc key iv info =>
    match R_Initialize fam p o enc key iv info with Ok (o', None) => Ok (o', XDone) | Ok (o', Some e) => Ok (o', XFail e []) | Throw _ | UB => UB end
  | XAad inp off len => yreturn true (R_SetAssociatedData o inp off len)
  | XTransform inp io out oo len ord => yreturn false (R_Transform fam p ord o (Some inp) io out oo len)
  | XTag => match R_Tag o with Ok t => Ok (o, XOut t) | Throw e => Ok (o, XFail e []) | UB => UB end
  end.
Fixpoint yhistory (o : robj) (cs : list xcall) : res (list xres) :=
  match cs with
  | [] => Ok []
  | c :: t => r <- ystep o c ;; rs <- yhistory (fst r) t ;; Ok (snd r :: rs)
  end.
(** the object at the end *)
Fixpoint yend (o : robj) (cs : list xcall) : res robj :=
  match cs with
  | [] => Ok o
  | c :: t => r <- ystep o c ;; yend (fst r) t
  end.
End run.
(** the families and the ciphers they implement *)
Definition wide_ciphers : list (rfam * wide) := [(rcs_fam, rcs); (rws_fam, rws)].

(** no byte of a 32-bit number is 0xFF *)
Definition no_ff (v : Z) : Prop := forall j, (j < 4)%nat -> v / 256 ^ Z.of_nat j mod 256 <> 255.
(** a parallel profile passes the checks of Initialize, its chunks are whole blocks for every worker, and the counter
    offset of no worker has a byte 0xFF, see C57_parallel_carry_refuted *)
Definition wide_profile (B : nat) (p : sprof) : Prop :=
  sp_par p = true ->
  (0 < sp_deg p)%nat /\ (0 < sp_min p)%nat /\ (sp_min p mod (sp_deg p * B) = 0)%nat /\
  (sp_min p <= sp_blk p)%nat /\ Z.of_nat (sp_blk p) <= max_alloc /\ (sp_blk p mod sp_min p = 0)%nat /\
  forall i, (i < sp_deg p)%nat -> no_ff (Z.of_nat (sp_blk p / sp_deg p / B * i)).
(** the orders in which the workers of a call run: one after the other for every chunk *)
Definition orders_ok (p : sprof) (len : nat) (ord : list nat) : Prop :=
  sp_par p = true -> forall k, (k < len / sp_blk p)%nat -> Permutation (slice ord (k * sp_deg p) (sp_deg p)) (seq 0 (sp_deg p)).
(** windows inside their arrays, arrays whose bit length is a 64-bit number, an info of 0 or at least 4 bytes; [dec]:
    the input window is followed by a tag of so many bytes; [hi]: the counter has not passed this value, and a parallel
    call must not take it over 2^128 *)
Definition ycall_ok (w : wide) (p : sprof) (dec : nat) (hi : Z) (x : xcall) : Prop :=
  match x with
  | XInit enc key iv info => bytes key /\ bytes iv /\ bytes info /\ short info /\ (length info = 0 \/ 4 <= length info)%nat
  | XAad inp off len => bytes inp /\ (off + len <= length inp)%nat
  | XTransform inp io out oo len ord =>
    bytes inp /\ bytes out /\ (io + len + dec <= length inp)%nat /\ (oo + len <= length out)%nat /\
    short inp /\ short out /\ orders_ok p len ord /\ (sp_par p = true -> hi + Z.of_nat (nblocks (w_B w) len) <= 2 ^ 128)
  | XTag => True
  end.
(** the same for a history of an object with direction [enc], key size [k] and a counter of at most [hi] *)
Fixpoint ycalls_ok (w : wide) (p : sprof) (auth enc : bool) (k : nat) (hi : Z) (cs : list xcall) : Prop :=
  match cs with
  | [] => True
  | x :: t => ycall_ok w p (if auth && negb enc then w_tag w k else 0) hi x /\
    match x with
    | XInit e key iv info =>
      if fitting w key iv then ycalls_ok w p auth e (length key) (value_le (firstn 16 iv)) t else ycalls_ok w p auth enc k hi t
    | XTransform inp io out oo len ord => ycalls_ok w p auth enc k (hi + Z.of_nat (nblocks (w_B w) len)) t
    | _ => ycalls_ok w p auth enc k hi t
    end
  end.

(** ** conversations (see [letter] in Session_CSX) *)
Definition yletter_ok (t : nat) (auth : bool) (p p' : sprof) (l : letter) : Prop :=
  bytes (l_msg l) /\ Forall bytes (l_aad l) /\ (auth = false -> l_aad l = []) /\ Forall (fun a => a <> []) (l_aad l) /\
  8 * (Z.of_nat (length (l_msg l)) + Z.of_nat t) < 2 ^ 64 /\ orders_ok p (length (l_msg l)) (l_ord l) /\ orders_ok p' (length (l_msg l)) (l_ord' l).
(** blocks all messages take together; a parallel object must not count over 2^128 *)
Definition ysum (B : nat) (ls : list letter) : Z := fold_right (fun l s => Z.of_nat (nblocks B (length (l_msg l))) + s) 0 ls.
Definition yroom (w : wide) (p : sprof) (iv : list Z) (ls : list letter) : Prop :=
  sp_par p = true -> value_le (firstn 16 iv) + ysum (w_B w) ls <= 2 ^ 128.
(** a custom string Initialize can use *)
Definition yinfo (info : list Z) : Prop := bytes info /\ short info /\ (length info = 0 \/ 4 <= length info)%nat.
(** two workers of [q] blocks each; 65535 blocks *)
Definition carry_profile (q B : nat) : sprof := SProf true (2 * (q * B)) (2 * (q * B)) 2.
Definition many : nat := Z.to_nat 65535.
