(** Model of CEX/CipherStream.cpp over the modes of Model_Modes, the paddings of Model_Padding and
    the memory streams of Model_Stream.  The progress events (CalculateProgress) are not modelled;
    Input and Output of the array form are different vectors. *)
From Verif Require Import Base Model_Modes Model_Padding Model_Stream Model_KDF.
Open Scope Z_scope.

(** An initialized ICipherMode as CipherStream uses it; the last argument and result is the mode's register.
    [en_T at l io out oo len st]: Transform, [at] being the number of bytes processed before the call
    (it selects the worker schedules of that call); EncryptBlock; DecryptBlock; IsParallel(); ParallelBlockSize(); BlockSize() *)
Record engine := Engine {
  en_T : nat -> list Z -> nat -> list Z -> nat -> nat -> list Z -> res (list Z * list Z);
  en_EB : list Z -> nat -> list Z -> nat -> list Z -> res (list Z * list Z);
  en_DB : list Z -> nat -> list Z -> nat -> list Z -> res (list Z * list Z);
  en_par : bool; en_pblk : nat; en_bs : nat }.

Definition with_state (m : res (list Z)) (st : list Z) : res (list Z * list Z) := out <- m ;; Ok (out, st).
(** ECB.cpp:149-175, 213-243 *)
Definition ECB_engine (E D : list Z -> list Z) (s : nat) (p : prof) (sched : nat -> nat -> list nat) (enc : bool) : engine :=
  Engine (fun at_ l io out oo len st => with_state (ECB_Transform (if enc then E else D) s p (sched at_) (Some l) io out oo len) st)
         (fun l io out oo st => with_state (blk E l io out oo) st)
         (fun l io out oo st => with_state (blk D l io out oo) st) (par p) (pblk p) 16.
(** CBC.cpp:155-185, 226-231 *)
Definition CBC_engine (E D : list Z -> list Z) (s : nat) (p : prof) (sched : nat -> nat -> list nat) (enc : bool) : engine :=
  Engine (fun at_ l io out oo len st => if enc then CBC_encrypt E (Some l) io out oo len st else CBC_decrypt D s p (sched at_) (Some l) io out oo len st)
         (fun l io out oo st => CBC_Encrypt128 E (Some l) io out oo st)
         (fun l io out oo st => CBC_Decrypt128 D (Some l) io out oo st) (par p) (pblk p) 16.
(** CFB.cpp:153-183, 227-232 ; BlockSize() is the register size [r] (CFB.cpp:92-95) *)
Definition CFB_engine (r : nat) (E D : list Z -> list Z) (s : nat) (p : prof) (sched : nat -> nat -> list nat) (enc : bool) : engine :=
  Engine (fun at_ l io out oo len st => if enc then CFB_encrypt E r (Some l) io out oo len st else CFB_decrypt E r p (sched at_) (Some l) io out oo len st)
         (fun l io out oo st => CFB_Encrypt128 E r (Some l) io out oo st)
         (fun l io out oo st => CFB_Decrypt128 E r (Some l) io out oo st) (par p) (pblk p) r.
(** OFB.cpp:157-183, 199-219; CipherStream.cpp:125 turns the parallel mode off *)
Definition OFB_engine (E D : list Z -> list Z) (s : nat) (p : prof) (sched : nat -> nat -> list nat) (enc : bool) : engine :=
  Engine (fun at_ l io out oo len st => OFB_Transform E (Some l) io out oo len st)
         (fun l io out oo st => OFB_Encrypt128 E (Some l) io out oo st)
         (fun l io out oo st => OFB_Encrypt128 E (Some l) io out oo st) false (pblk p) 16.
(** CTR.cpp:154-180, 221-251 *)
Definition CTR_engine (E D : list Z -> list Z) (s : nat) (p : prof) (sched : nat -> nat -> list nat) (enc : bool) : engine :=
  Engine (fun at_ l io out oo len st => CTR_Transform E s p (sched at_) (Some l) io out oo len st)
         (fun l io out oo st => CM_EncryptBlock E Model_IntegerTools.BeIncrement8 (Some l) io out oo st)
         (fun l io out oo st => CM_EncryptBlock E Model_IntegerTools.BeIncrement8 (Some l) io out oo st) (par p) (pblk p) 16.
(** ICM.cpp:154-180, 221-251 *)
Definition ICM_engine (E D : list Z -> list Z) (s : nat) (p : prof) (sched : nat -> nat -> list nat) (enc : bool) : engine :=
  Engine (fun at_ l io out oo len st => ICM_Transform E s p (sched at_) (Some l) io out oo len st)
         (fun l io out oo st => CM_EncryptBlock E Model_IntegerTools.LeIncrement (Some l) io out oo st)
         (fun l io out oo st => CM_EncryptBlock E Model_IntegerTools.LeIncrement (Some l) io out oo st) (par p) (pblk p) 16.

(** IPadding: AddPadding(Input, Offset, Length) and GetBlockLength(Input) *)
Record padding := Padding { pd_add : list Z -> nat -> nat -> res (list Z); pd_len : list Z -> res Z }.
Definition PKCS7_pad := Padding PKCS7_AddPadding PKCS7_GetBlockLength.
Definition X923_pad := Padding X923_AddPadding X923_GetBlockLength.
Definition ESP_pad := Padding ESP_AddPadding ESP_GetBlockLength.
Definition ZeroOne_pad := Padding ZeroOne_AddPadding ZeroOne_GetBlockLength.
(** a call through m_cipherPadding; a null pointer (CipherStream.cpp:53, :63) is undefined behaviour *)
Definition the_padding (pd : option padding) : res padding := match pd with Some p => Ok p | None => UB end.

(** CipherStream.cpp:185, :278 PRCLEN; a zero divisor is undefined *)
Definition prc_len (counter enc : bool) (n pb : nat) : nat :=
  if (negb (n mod pb =? 0)%nat || counter || enc)%bool then (n / pb * pb)%nat else (n / pb * pb - pb)%nat.
(** CipherStream.cpp:199, :294 ALNLEN *)
Definition aln_len (counter enc : bool) (n b : nat) : nat :=
  if (counter || enc)%bool then (n / b * b)%nat else if (n <? b)%nat then 0%nat else (n / b * b - b)%nat.

(** CipherStream.cpp:187-194, :203-210: [while (plen != END) { Transform(.., STEP); offsets and plen += STEP }].
    If plen passes END the accesses leave the arrays; the fuel is the length of the input, and running out of it is UB. *)
Fixpoint cs_loop (fuel : nat) (en : engine) (step end_ : nat) (inp : list Z) (io : nat) (out : list Z) (oo plen : nat) (st : list Z) : res (list Z * list Z) :=
  if (plen =? end_)%nat then Ok (out, st) else
  match fuel with
  | O => UB
  | S f => r <- en_T en plen inp (io + plen) out (oo + plen) step st ;;
           cs_loop f en step end_ inp io (fst r) oo (plen + step) (snd r)
  end.

(** CipherStream.cpp:165-172, 176-266 Write and BlockTransform on arrays.
    InOffset beyond Input makes the length wrap: UB. *)
Definition CipherStream_Write (en : engine) (pd : option padding) (counter enc : bool)
    (inp : list Z) (io : nat) (out : list Z) (oo : nat) (st : list Z) : res (list Z * list Z) :=
  _ <- safe (io <=? length inp)%nat ;;
  let n := (length inp - io)%nat in
  let b := en_bs en in
  r <- (if en_par en && (en_pblk en <? n)%nat then
          _ <- safe (negb (en_pblk en =? 0)%nat) ;;
          let e := prc_len counter enc n (en_pblk en) in
          r <- cs_loop n en (en_pblk en) e inp io out oo 0 st ;; Ok (r, e)
        else Ok ((out, st), 0%nat)) ;;
  let plen := snd r in
  _ <- safe (negb (b =? 0)%nat) ;;
  let aln := aln_len counter enc n b in
  s <- (if (b <? n)%nat then
          s <- cs_loop n en b aln inp io (fst (fst r)) oo plen (snd (fst r)) ;; Ok (s, aln)
        else Ok (fst r, plen)) ;;
  let '(out, st) := fst s in
  let plen := snd s in
  if (aln =? n)%nat then Ok (out, st) else
  if counter then
    let fnl := (n - aln)%nat in
    blk0 <- wcopy inp (io + plen) (zeros b) 0 fnl ;;
    r <- en_T en plen blk0 0 (zeros b) 0 fnl st ;;
    out <- wcopy (fst r) 0 out (oo + plen) fnl ;;
    Ok (out, snd r)
  else if enc then
    let fnl := (n - aln)%nat in
    blk0 <- wcopy inp (io + plen) (zeros b) 0 fnl ;;
    blk0 <- (if (fnl =? b)%nat then Ok blk0 else pd <- the_padding pd ;; pd_add pd blk0 fnl (length blk0)) ;;
    en_EB en blk0 0 (resized out (plen + b)) (oo + plen) st
  else
    r <- en_DB en inp (io + plen) (zeros b) 0 st ;;
    pd <- the_padding pd ;;
    k <- pd_len pd (fst r) ;;
    out <- wcopy (fst r) 0 out (oo + plen) (Z.to_nat k) ;;
    Ok (resized out (plen + Z.to_nat k), snd r).

(** CipherStream.cpp:282-289, :300-307: the loops over streams; [inp] and [otp] are the two buffers *)
Fixpoint cs_stream_loop (fuel : nat) (en : engine) (step end_ : nat) (x : mstream * mstream * list Z * list Z) (plen : nat) (st : list Z)
    : res (mstream * mstream * list Z * list Z * list Z) :=
  if (plen =? end_)%nat then Ok (x, st) else
  match fuel with
  | O => UB
  | S f =>
    let '(ins, outs, inp, otp) := x in
    r <- MemoryStream_Read ins inp 0 (Z.of_nat step) ;;
    let '(ins, inp, n) := r in
    r <- en_T en plen inp 0 otp 0 (Z.to_nat n) st ;;
    let '(otp, st) := r in
    outs <- MemoryStream_Write outs otp 0 n ;;
    cs_stream_loop f en step end_ (ins, outs, inp, otp) (plen + Z.to_nat n) st
  end.
(** CipherStream.cpp:150-163, 268-342 Write and BlockTransform on streams *)
Definition CipherStream_WriteStream (en : engine) (pd : option padding) (counter enc : bool)
    (ins outs : mstream) (st : list Z) : res (mstream * mstream * list Z) :=
  _ <- safe (ms_pos ins <=? msize ins) ;;
  let n := Z.to_nat (msize ins - ms_pos ins) in
  let b := en_bs en in
  r <- (if en_par en && (en_pblk en <? n)%nat then
          _ <- safe (negb (en_pblk en =? 0)%nat) ;;
          let e := prc_len counter enc n (en_pblk en) in
          r <- cs_stream_loop n en (en_pblk en) e (ins, outs, zeros (en_pblk en), zeros (en_pblk en)) 0 st ;; Ok (r, e)
        else Ok ((ins, outs, [], [], st), 0%nat)) ;;
  let plen := snd r in
  _ <- safe (negb (b =? 0)%nat) ;;
  let aln := aln_len counter enc n b in
  let '(ins, outs, inp, otp, st) := fst r in
  let inp := resized inp b in
  let otp := resized otp b in
  s <- (if (b <? n)%nat then cs_stream_loop n en b aln (ins, outs, inp, otp) plen st
        else Ok (ins, outs, inp, otp, st)) ;;
  let '(ins, outs, inp, otp, st) := s in
  r <- (if (aln =? n)%nat then Ok (ins, outs, st) else
    if counter then
      let fnl := (n - aln)%nat in
      r <- MemoryStream_Read ins (zeros (length inp)) 0 (Z.of_nat fnl) ;;
      let '(ins, inp, k) := r in
      r <- en_T en aln inp 0 (zeros (length otp)) 0 (Z.to_nat k) st ;;
      outs <- MemoryStream_Write outs (fst r) 0 k ;;
      Ok (ins, outs, snd r)
    else if enc then
      let fnl := (n - aln)%nat in
      r <- MemoryStream_Read ins inp 0 (Z.of_nat fnl) ;;
      let '(ins, inp, k) := r in
      inp <- (if (fnl =? b)%nat then Ok inp else pd <- the_padding pd ;; pd_add pd inp (Z.to_nat k) (length inp)) ;;
      r <- en_EB en inp 0 otp 0 st ;;
      outs <- MemoryStream_Write outs (fst r) 0 (Z.of_nat b) ;;
      Ok (ins, outs, snd r)
    else
      r <- MemoryStream_Read ins inp 0 (Z.of_nat b) ;;
      let '(ins, inp, _) := r in
      r <- en_DB en inp 0 otp 0 st ;;
      pd <- the_padding pd ;;
      k <- pd_len pd (fst r) ;;
      outs <- MemoryStream_Write outs (fst r) 0 k ;;
      Ok (ins, outs, snd r)) ;;
  let '(ins, outs, st) := r in
  outs <- (if ms_pos outs =? msize outs then Ok outs else MemoryStream_SetLength outs (ms_pos outs)) ;;
  Ok (ins, outs, st).
