(** Model of CEX/PKCS7.cpp, X923.cpp, ESP.cpp, ZeroOne.cpp.
    [size_t] values are Z modulo 2^64; int-promoted complements are [Z.lnot]. *)
From Verif Require Import Base Model_IntegerTools.
Open Scope Z_scope.

Definition sz (n : nat) : Z := Z.of_nat n.
(** masks of a bool: ExpandMask<size_t> (k = 6), ExpandMask<uint8_t> (k = 3) *)
Definition mask64 (b : bool) : Z := ExpandMask 6 (Z.b2z b).
Definition mask8 (b : bool) : Z := ExpandMask 3 (Z.b2z b).

(** fill [a, a+n) with f i *)
Definition fill (l : list Z) (a n : nat) (f : nat -> Z) : res (list Z) :=
  for_up a n (fun i l => put l i (f i)) l.

(** PKCS7.cpp:28-44 AddPadding *)
Definition PKCS7_AddPadding (inp : list Z) (o len : nat) : res (list Z) :=
  _ <- guard (len <=? length inp)%nat InvalidSize ;;
  let code := u8 (sz len - sz o) in
  fill inp o (len - o) (fun _ => code).

(** the loops [ctr = BLKLEN - 2; while (ctr != Offset)]: ctr = o + n, n > 0 *)
Fixpoint pk_loop (chk : Z -> Z) (n : nat) (inp : list Z) (o : nat) (pos acc : Z) : res Z :=
  match n with
  | O => Ok acc
  | S m =>
    b <- get inp (o + n) ;;
    pk_loop chk m inp o pos (Z.lor acc (Z.land (chk b) (mask8 (pos <=? sz (o + n)))))
  end.

(** PKCS7.cpp:71-99 GetBlockLength(Input, Offset, Length). When BLKLEN - 2 is below Offset the
    counter never meets Offset before leaving the array: UB. *)
Definition PKCS7_GetBlockLength_range (inp : list Z) (o len : nat) : res Z :=
  _ <- guard (len <=? length inp)%nat InvalidSize ;;
  _ <- safe (1 <=? len)%nat ;;
  fnl <- get inp (len - 1) ;;
  _ <- safe (o + 2 <=? len)%nat ;;
  let pos := u64 (sz len - fnl) in
  let inp0 := mask64 (sz len <? fnl) in
  bad <- pk_loop (fun b => Z.lnot (IsEqual 3 b fnl)) (len - 2 - o) inp o pos inp0 ;;
  Ok (ConditionalCopy1 6 bad (sz len) pos).
(** PKCS7.cpp:46-69 GetBlockLength(Input): same body with BLKLEN = Input.size(), Offset = 0 *)
Definition PKCS7_GetBlockLength (inp : list Z) : res Z := PKCS7_GetBlockLength_range inp 0 (length inp).

(** X923.cpp:30-45 AddPadding. With Length = 0, Length - 1 wraps: UB. *)
Definition X923_AddPadding (inp : list Z) (o len : nat) : res (list Z) :=
  _ <- guard (len <=? length inp)%nat InvalidSize ;;
  _ <- safe (1 <=? len)%nat ;;
  l <- fill inp o (len - 1 - o) (fun _ => 0) ;;
  put l (len - 1) (u8 (sz len - sz o)).
(** X923.cpp:71-98 *)
Definition X923_GetBlockLength_range (inp : list Z) (o len : nat) : res Z :=
  _ <- guard (len <=? length inp)%nat InvalidSize ;;
  _ <- safe (1 <=? len)%nat ;;
  fnl <- get inp (len - 1) ;;
  _ <- safe (o + 2 <=? len)%nat ;;
  let pos := u64 (sz len - fnl) in
  let inp0 := mask64 (sz len <? fnl) in
  bad <- pk_loop (fun b => Z.lnot (IsZero 3 b)) (len - 2 - o) inp o pos inp0 ;;
  Ok (ConditionalCopy1 6 bad (sz len) pos).
(** X923.cpp:47-69 *)
Definition X923_GetBlockLength (inp : list Z) : res Z := X923_GetBlockLength_range inp 0 (length inp).

(** ESP.cpp:28-45 AddPadding *)
Definition ESP_AddPadding (inp : list Z) (o len : nat) : res (list Z) :=
  _ <- guard (len <=? length inp)%nat InvalidSize ;;
  fill inp o (len - o) (fun i => u8 (sz i - sz o + 1)).
(** ESP.cpp:89-93: ctr = o + n *)
Fixpoint esp_loop (n : nat) (inp : list Z) (o : nat) (pos acc : Z) : res Z :=
  match n with
  | O => Ok acc
  | S m =>
    a <- get inp (o + m) ;; b <- get inp (o + n) ;;
    esp_loop m inp o pos
      (Z.lor acc (Z.land (Z.lnot (IsEqual 3 (u8 a) (u8 (b - 1)))) (mask8 (pos <? sz (o + n)))))
  end.
(** ESP.cpp:71-98 *)
Definition ESP_GetBlockLength_range (inp : list Z) (o len : nat) : res Z :=
  _ <- guard (len <=? length inp)%nat InvalidSize ;;
  _ <- safe (1 <=? len)%nat ;;
  fnl <- get inp (len - 1) ;;
  _ <- safe (o + 1 <=? len)%nat ;;
  let pos := u64 (sz len - fnl) in
  let inp0 := mask64 (sz len <? fnl) in
  bad <- esp_loop (len - 1 - o) inp o pos inp0 ;;
  Ok (ConditionalCopy1 6 bad (sz len) pos).
(** ESP.cpp:47-69 *)
Definition ESP_GetBlockLength (inp : list Z) : res Z := ESP_GetBlockLength_range inp 0 (length inp).

(** ZeroOne.cpp:28-43 AddPadding; [for (i = Offset + 1; i % Length; ++i)]. Length = 0 divides by zero.
    For Offset < Length the loop ends at i = Length; for Offset >= Length it runs to the next
    multiple of Length. *)
Fixpoint zo_fill (fuel : nat) (l : list Z) (i len : nat) : res (list Z) :=
  match fuel with
  | O => UB
  | S f => if (i mod len =? 0)%nat then Ok l else l <- put l i 0 ;; zo_fill f l (S i) len
  end.
Definition ZeroOne_AddPadding (inp : list Z) (o len : nat) : res (list Z) :=
  _ <- guard (len <=? length inp)%nat InvalidSize ;;
  l <- put inp o 128 ;;
  _ <- safe (1 <=? len)%nat ;;
  zo_fill (S len) l (o + 1) len.
(** ZeroOne.cpp:90-96: ctr = o + n; state (seen, pos, inp) *)
Fixpoint zo_loop (n : nat) (inp : list Z) (o : nat) (seen pos acc : Z) : res (Z * Z * Z) :=
  match n with
  | O => Ok (seen, pos, acc)
  | S m =>
    b <- get inp (o + m) ;;
    let seen' := u8 (Z.lor seen (IsEqual 3 b 128)) in
    let pos' := u64 (pos - Select 3 (u8 (Z.lnot seen')) 1 0) in
    let acc' := u8 (Z.lor acc (Z.land (Z.lnot (IsZero 3 b)) (Z.lnot seen'))) in
    zo_loop m inp o seen' pos' acc'
  end.
(** ZeroOne.cpp:72-102 *)
Definition ZeroOne_GetBlockLength_range (inp : list Z) (o len : nat) : res Z :=
  _ <- guard (len <=? length inp)%nat InvalidSize ;;
  _ <- safe (o <=? len)%nat ;;
  st <- zo_loop (len - o) inp o 0 (u64 (sz len - 1)) 0 ;;
  let '(seen, pos, acc) := st in
  let acc := u8 (Z.lor acc (Z.lnot seen)) in
  Ok (ConditionalCopy1 6 acc (sz len) pos).
(** ZeroOne.cpp:45-70 *)
Definition ZeroOne_GetBlockLength (inp : list Z) : res Z := ZeroOne_GetBlockLength_range inp 0 (length inp).
