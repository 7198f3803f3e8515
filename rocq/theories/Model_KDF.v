(** Model of CEX/HKDF.cpp, CEX/KDF2.cpp and CEX/PBKDF2.cpp over the HMAC object of Model_HMAC and an arbitrary digest object.
    Parameters is the triple (key, IV, info) of the ISymmetricKey; an exception is returned beside the state it leaves. *)
From Verif Require Import Base Model_IntegerTools Model_Modes Model_HMAC.
Open Scope Z_scope.

(** std::vector::resize: shorter keeps a prefix, longer appends zeros *)
Definition resized (l : list Z) (k : nat) : list Z := firstn k l ++ zeros (k - length l).
(** Output.size() - OutOffset < Length in size_t; for OutOffset > size the difference wraps and the test passes *)
Definition out_short (out : list Z) (oo len : nat) : bool := (oo <=? length out)%nat && (length out - oo <? len)%nat.

Section hkdf.
Context {D : Type} (rate n : nat) (dupd : D -> list Z -> nat -> nat -> res D) (dfin : D -> list Z -> nat -> res (D * list Z)) (dnew : D).
Notation hinit := (HMAC_Initialize rate n dupd dfin dnew).
Notation hupd := (HMAC_Update dupd).
Notation hfin := (HMAC_Finalize n dupd dfin).
Notation hsec := (HMAC_FinalizeS n dupd dfin).

(** ** HKDF *)
(** HKDF.cpp:11-40 HkdfState and the generator *)
Record hkdf_obj := HKDFo { hk_gen : hmac_obj D; hk_info : list Z; hk_state : list Z; hk_init : bool }.
(** HKDF.cpp:44-65: State has TagSize + 1 bytes, the last one is the counter *)
Definition HKDF_new : hkdf_obj := HKDFo (HMAC_new rate dnew) [] (zeros (n + 1)) false.
(** HKDF.cpp:261-266 Reset, :33-39: Info keeps its size *)
Definition HKDF_Reset (o : hkdf_obj) : res hkdf_obj :=
  g <- HMAC_Reset dnew (hk_gen o) ;;
  Ok (HKDFo g (zeros (length (hk_info o))) (zeros (length (hk_state o))) false).
(** HKDF.cpp:124-139 Extract, up to Finalize; [None] when HMAC::Initialize throws *)
Definition HKDF_rekey (g : hmac_obj D) (salt : list Z) : res (hmac_obj D * option err) :=
  if negb (length salt =? 0)%nat then hinit g salt else hinit g (zeros n).
(** HKDF.cpp:124-139 Extract(std::vector) as called by a user: the state after an exception is returned too *)
Definition HKDF_Extract (o : hkdf_obj) (key salt out : list Z) : res (hkdf_obj * list Z) :=
  r <- HKDF_rekey (hk_gen o) salt ;;
  let '(g, e) := r in
  match e with
  | Some e => Throw e
  | None =>
    g <- hupd g key 0 (length key) ;;
    r <- hfin g out 0 ;;
    Ok (HKDFo (fst r) (hk_info o) (hk_state o) (hk_init o), snd r)
  end.
(** HKDF.cpp:222-259 Initialize *)
Definition HKDF_Initialize (o : hkdf_obj) (key iv info : list Z) : res (hkdf_obj * option err) :=
  if (length key <? 16)%nat then Ok (o, Some InvalidKey)
  else
    o <- (if hk_init o then HKDF_Reset o else Ok o) ;;
    inf <- (if negb (length info =? 0)%nat then wcopy info 0 (resized (hk_info o) (length info)) 0 (length info) else Ok (hk_info o)) ;;
    if negb (length iv =? 0)%nat then
      if (length iv + length info <? 4)%nat then Ok (HKDFo (hk_gen o) inf (hk_state o) (hk_init o), Some InvalidSalt)
      else
        r <- HKDF_rekey (hk_gen o) iv ;;
        let '(g, e) := r in
        match e with
        | Some e => Ok (HKDFo g inf (hk_state o) (hk_init o), Some e)
        | None =>
          g <- hupd g key 0 (length key) ;;
          r <- hsec g (zeros n) 0 ;;
          let '(g, prk) := r in
          r <- hinit g prk ;;
          let '(g, e) := r in
          Ok (HKDFo g inf (hk_state o) (match e with None => true | Some _ => hk_init o end), e)
        end
    else
      r <- hinit (hk_gen o) key ;;
      let '(g, e) := r in
      Ok (HKDFo g inf (hk_state o) (match e with None => true | Some _ => hk_init o end), e).
(** HKDF.cpp:270-301 Expand: the while loop, [rem] = Length - plen; every pass writes at least one byte *)
Fixpoint hkdf_expand_loop (fuel : nat) (g : hmac_obj D) (st info out : list Z) (oo rem : nat) : res (hmac_obj D * list Z * list Z) :=
  match rem with
  | O => Ok (g, st, out)
  | _ =>
    match fuel with
    | O => UB
    | S fuel =>
      c <- get st n ;;
      g <- (if negb (c =? 0) then hupd g st 0 (length st - 1) else Ok g) ;;
      g <- (if negb (length info =? 0)%nat then hupd g info 0 (length info) else Ok g) ;;
      st <- put st n (u8 (c + 1)) ;;
      g <- hupd g st n 1 ;;
      r <- hfin g st 0 ;;
      let '(g, st) := r in
      let len := Nat.min n rem in
      out <- wcopy st 0 out oo len ;;
      hkdf_expand_loop fuel g st info out (oo + len) (rem - len)
    end
  end.
Definition HKDF_Expand (o : hkdf_obj) (out : list Z) (oo len : nat) : res (hkdf_obj * list Z) :=
  r <- hkdf_expand_loop len (hk_gen o) (hk_state o) (hk_info o) out oo len ;;
  let '(g, st, out) := r in
  Ok (HKDFo g (hk_info o) st (hk_init o), out).
(** HKDF.cpp:303-308 Expand(SecureVector): the temporary has Length bytes and is written at OutOffset *)
Definition HKDF_ExpandS (o : hkdf_obj) (out : list Z) (oo len : nat) : res (hkdf_obj * list Z) :=
  r <- HKDF_Expand o (zeros len) oo len ;;
  let '(o, tmps) := r in
  out <- wcopy tmps 0 out oo len ;;
  Ok (o, out).
(** HKDF.cpp:164, 178, 192, 210: the counter is one byte, MAXGEN_REQUESTS is 255 *)
Definition hkdf_over (o : hkdf_obj) (len : nat) : res bool :=
  c <- get (hk_state o) n ;; Ok (255 <? c + Z.of_nat (len / n)).
(** HKDF.cpp:158-170 Generate(std::vector), :172-184 Generate(SecureVector) *)
Definition HKDF_GenAll (o : hkdf_obj) (out : list Z) : res (hkdf_obj * list Z) :=
  _ <- guard (hk_init o) NotInitialized ;;
  ov <- hkdf_over o (length out) ;;
  _ <- guard (negb ov) MaxExceeded ;;
  HKDF_Expand o out 0 (length out).
Definition HKDF_GenAllS (o : hkdf_obj) (out : list Z) : res (hkdf_obj * list Z) :=
  _ <- guard (hk_init o) NotInitialized ;;
  ov <- hkdf_over o (length out) ;;
  _ <- guard (negb ov) MaxExceeded ;;
  HKDF_ExpandS o out 0 (length out).
(** HKDF.cpp:186-202 Generate(std::vector, OutOffset, Length), :204-220 Generate(SecureVector, OutOffset, Length) *)
Definition HKDF_Gen (o : hkdf_obj) (out : list Z) (oo len : nat) : res (hkdf_obj * list Z) :=
  _ <- guard (hk_init o) NotInitialized ;;
  ov <- hkdf_over o len ;;
  _ <- guard (negb ov) MaxExceeded ;;
  _ <- guard (negb (out_short out oo len)) InvalidSize ;;
  HKDF_Expand o out oo len.
Definition HKDF_GenS (o : hkdf_obj) (out : list Z) (oo len : nat) : res (hkdf_obj * list Z) :=
  _ <- guard (hk_init o) NotInitialized ;;
  ov <- hkdf_over o len ;;
  _ <- guard (negb ov) MaxExceeded ;;
  _ <- guard (negb (out_short out oo len)) InvalidSize ;;
  HKDF_ExpandS o out oo len.

(** ** KDF2 *)
(** KDF2.cpp:12-48 Kdf2State and the digest *)
Record kdf2_obj := KDF2o { k2_gen : D; k2_ctr : list Z; k2_salt : list Z; k2_state : list Z; k2_init : bool }.
(** KDF2.cpp:52-73 *)
Definition KDF2_new : kdf2_obj := KDF2o dnew [0; 0; 0; 1] [] [] false.
(** KDF2.cpp:263-268 Reset, :40-47: Salt and State keep their sizes *)
Definition KDF2_Reset (o : kdf2_obj) : res kdf2_obj :=
  c <- wr (k2_ctr o) 0 (zeros (length (k2_ctr o) - 1)) ;;
  c <- put c (length c - 1) 1 ;;
  Ok (KDF2o dnew c (zeros (length (k2_salt o))) (zeros (length (k2_state o))) false).
(** KDF2.cpp:191-261 Initialize *)
Definition KDF2_Initialize (o : kdf2_obj) (key iv info : list Z) : res (kdf2_obj * option err) :=
  if (length key <? 16)%nat then Ok (o, Some InvalidKey)
  else
    o <- (if k2_init o then KDF2_Reset o else Ok o) ;;
    if negb (length iv =? 0)%nat then
      if (length iv + length info <? 4)%nat then Ok (o, Some InvalidSalt)
      else
        st <- wcopy key 0 (resized (k2_state o) (length key)) 0 (length key) ;;
        let sl := resized (k2_salt o) (length iv + length info) in
        sl <- wcopy iv 0 sl 0 (length sl) ;;
        sl <- (if (0 <? length info)%nat then wcopy info 0 sl (length iv) (length info) else Ok sl) ;;
        Ok (KDF2o (k2_gen o) (k2_ctr o) sl st true, None)
    else if (length key <=? rate)%nat then
      st <- wcopy key 0 (resized (k2_state o) rate) 0 (length key) ;;
      Ok (KDF2o (k2_gen o) (k2_ctr o) (k2_salt o) st true, None)
    else
      st <- wcopy key 0 (resized (k2_state o) rate) 0 rate ;;
      let sl := resized (k2_salt o) (length key - rate) in
      sl <- wcopy key rate sl 0 (length sl) ;;
      sl <- (if (0 <? length info)%nat then
               let sl' := resized sl (length sl + length info) in wcopy info 0 sl' (length sl) (length info)
             else Ok sl) ;;
      Ok (KDF2o (k2_gen o) (k2_ctr o) sl st true, None).
(** KDF2.cpp:272-299 Expand: do ... while(Length != 0) *)
Fixpoint kdf2_loop (fuel : nat) (g : D) (ctr salt st out : list Z) (oo rem : nat) : res (D * list Z * list Z) :=
  match fuel with
  | O => UB
  | S fuel =>
    g <- dupd g st 0 (length st) ;;
    g <- dupd g ctr 0 4 ;;
    g <- (if negb (length salt =? 0)%nat then dupd g salt 0 (length salt) else Ok g) ;;
    r <- dfin g (zeros n) 0 ;;
    let '(g, tmph) := r in
    ctr <- BeIncrement8_range ctr 0 4 ;;
    let len := Nat.min n rem in
    out <- wcopy tmph 0 out oo len ;;
    if (rem - len =? 0)%nat then Ok (g, ctr, out) else kdf2_loop fuel g ctr salt st out (oo + len) (rem - len)
  end.
Definition KDF2_Expand (o : kdf2_obj) (out : list Z) (oo len : nat) : res (kdf2_obj * list Z) :=
  r <- kdf2_loop (S len) (k2_gen o) (k2_ctr o) (k2_salt o) (k2_state o) out oo len ;;
  let '(g, ctr, out) := r in
  Ok (KDF2o g ctr (k2_salt o) (k2_state o) (k2_init o), out).
(** KDF2.cpp:301-306 Expand(SecureVector) *)
Definition KDF2_ExpandS (o : kdf2_obj) (out : list Z) (oo len : nat) : res (kdf2_obj * list Z) :=
  r <- KDF2_Expand o (zeros len) oo len ;;
  let '(o, tmps) := r in
  out <- wcopy tmps 0 out oo len ;;
  Ok (o, out).
(** KDF2.cpp:133, 147, 161, 179: MAXGEN_REQUESTS is 255 *)
Definition kdf2_over (o : kdf2_obj) (len : nat) : res bool :=
  c <- BeBytesTo32 (k2_ctr o) 0 ;; Ok (255 <? c + Z.of_nat (len / n)).
(** KDF2.cpp:127-139, 141-153, 155-171, 173-189 Generate *)
Definition KDF2_GenAll (o : kdf2_obj) (out : list Z) : res (kdf2_obj * list Z) :=
  _ <- guard (k2_init o) NotInitialized ;;
  ov <- kdf2_over o (length out) ;;
  _ <- guard (negb ov) MaxExceeded ;;
  KDF2_Expand o out 0 (length out).
Definition KDF2_GenAllS (o : kdf2_obj) (out : list Z) : res (kdf2_obj * list Z) :=
  _ <- guard (k2_init o) NotInitialized ;;
  ov <- kdf2_over o (length out) ;;
  _ <- guard (negb ov) MaxExceeded ;;
  KDF2_ExpandS o out 0 (length out).
Definition KDF2_Gen (o : kdf2_obj) (out : list Z) (oo len : nat) : res (kdf2_obj * list Z) :=
  _ <- guard (k2_init o) NotInitialized ;;
  ov <- kdf2_over o len ;;
  _ <- guard (negb ov) MaxExceeded ;;
  _ <- guard (negb (out_short out oo len)) InvalidSize ;;
  KDF2_Expand o out oo len.
Definition KDF2_GenS (o : kdf2_obj) (out : list Z) (oo len : nat) : res (kdf2_obj * list Z) :=
  _ <- guard (k2_init o) NotInitialized ;;
  ov <- kdf2_over o len ;;
  _ <- guard (negb ov) MaxExceeded ;;
  _ <- guard (negb (out_short out oo len)) InvalidSize ;;
  KDF2_ExpandS o out oo len.

(** ** PBKDF2 *)
(** PBKDF2.cpp:13-52 Pbkdf2State and the generator; Iterations is a uint32_t *)
Record pbkdf2_obj := PBo { pb_gen : hmac_obj D; pb_ctr : list Z; pb_salt : list Z; pb_state : list Z; pb_iter : Z; pb_init : bool }.
(** PBKDF2.cpp:56-77 *)
Definition PBKDF2_new (iter : Z) : pbkdf2_obj := PBo (HMAC_new rate dnew) [0; 0; 0; 1] [] [] iter false.
(** PBKDF2.cpp:250-255 Reset, :44-51 *)
Definition PBKDF2_Reset (o : pbkdf2_obj) : res pbkdf2_obj :=
  g <- HMAC_Reset dnew (pb_gen o) ;;
  c <- wr (pb_ctr o) 0 (zeros (length (pb_ctr o) - 1)) ;;
  c <- put c (length c - 1) 1 ;;
  Ok (PBo g c (zeros (length (pb_salt o))) (zeros (length (pb_state o))) (pb_iter o) false).
(** PBKDF2.cpp:201-248 Initialize *)
Definition PBKDF2_Initialize (o : pbkdf2_obj) (key iv info : list Z) : res (pbkdf2_obj * option err) :=
  if (length key <? 4)%nat then Ok (o, Some InvalidKey)
  else
    o <- (if pb_init o then PBKDF2_Reset o else Ok o) ;;
    st <- wcopy key 0 (resized (pb_state o) (length key)) 0 (length key) ;;
    if negb (length iv + length info =? 0)%nat then
      if (length iv + length info <? 4)%nat then Ok (PBo (pb_gen o) (pb_ctr o) (pb_salt o) st (pb_iter o) (pb_init o), Some InvalidSalt)
      else
        let sl := resized (pb_salt o) (length iv + length info) in
        sl <- (if negb (length iv =? 0)%nat then wcopy iv 0 sl 0 (length sl) else Ok sl) ;;
        sl <- (if (0 <? length info)%nat then wcopy info 0 sl (length iv) (length info) else Ok sl) ;;
        Ok (PBo (pb_gen o) (pb_ctr o) sl st (pb_iter o) true, None)
    else Ok (PBo (pb_gen o) (pb_ctr o) (pb_salt o) st (pb_iter o) true, None).
(** PBKDF2.cpp:277-285: the passes left of "for (i = 1; i != Iterations; ++i)"; i is a size_t, so for Iterations = 0 the
    loop runs until i wraps to 0 *)
Fixpoint pbkdf2_inner (c : nat) (g : hmac_obj D) (key tmps out : list Z) (oo len : nat) : res (hmac_obj D * list Z * list Z) :=
  match c with
  | O => Ok (g, tmps, out)
  | S c =>
    r <- hinit g key ;;
    let '(g, e) := r in
    match e with
    | Some e => Throw e
    | None =>
      g <- hupd g tmps 0 (length tmps) ;;
      r <- hfin g tmps 0 ;;
      let '(g, tmps) := r in
      out <- wxor tmps 0 out oo len ;;
      pbkdf2_inner c g key tmps out oo len
    end
  end.
Definition pbkdf2_count (iter : Z) : nat := Z.to_nat ((iter - 1) mod 2 ^ 64).
(** PBKDF2.cpp:259-292 Expand.  An exception of HMAC::Initialize comes before any output or counter change *)
Fixpoint pbkdf2_loop (fuel : nat) (iter : Z) (g : hmac_obj D) (ctr salt key out : list Z) (oo rem : nat) : res (hmac_obj D * list Z * list Z) :=
  match fuel with
  | O => UB
  | S fuel =>
    let len := Nat.min n rem in
    r <- hinit g key ;;
    let '(g, e) := r in
    match e with
    | Some e => Throw e
    | None =>
      g <- hupd g salt 0 (length salt) ;;
      g <- hupd g ctr 0 4 ;;
      r <- hfin g (zeros n) 0 ;;
      let '(g, tmps) := r in
      out <- wcopy tmps 0 out oo len ;;
      r <- pbkdf2_inner (pbkdf2_count iter) g key tmps out oo len ;;
      let '(g, _, out) := r in
      ctr <- BeIncrement8_range ctr 0 4 ;;
      if (rem - len =? 0)%nat then Ok (g, ctr, out) else pbkdf2_loop fuel iter g ctr salt key out (oo + len) (rem - len)
    end
  end.
Definition PBKDF2_Expand (o : pbkdf2_obj) (out : list Z) (oo len : nat) : res (pbkdf2_obj * list Z) :=
  r <- pbkdf2_loop (S len) (pb_iter o) (pb_gen o) (pb_ctr o) (pb_salt o) (pb_state o) out oo len ;;
  let '(g, ctr, out) := r in
  Ok (PBo g ctr (pb_salt o) (pb_state o) (pb_iter o) (pb_init o), out).
(** PBKDF2.cpp:294-299 Expand(SecureVector) *)
Definition PBKDF2_ExpandS (o : pbkdf2_obj) (out : list Z) (oo len : nat) : res (pbkdf2_obj * list Z) :=
  r <- PBKDF2_Expand o (zeros len) oo len ;;
  let '(o, tmps) := r in
  out <- wcopy tmps 0 out oo len ;;
  Ok (o, out).
(** PBKDF2.cpp:143, 157, 175, 193: MAXGEN_REQUESTS is 1024000 *)
Definition pbkdf2_over (o : pbkdf2_obj) (len : nat) : res bool :=
  c <- BeBytesTo32 (pb_ctr o) 0 ;; Ok (1024000 <? c + Z.of_nat (len / n)).
(** PBKDF2.cpp:137-149, 151-163, 165-181, 183-199 Generate: here the size is checked first *)
Definition PBKDF2_GenAll (o : pbkdf2_obj) (out : list Z) : res (pbkdf2_obj * list Z) :=
  _ <- guard (pb_init o) NotInitialized ;;
  ov <- pbkdf2_over o (length out) ;;
  _ <- guard (negb ov) MaxExceeded ;;
  PBKDF2_Expand o out 0 (length out).
Definition PBKDF2_GenAllS (o : pbkdf2_obj) (out : list Z) : res (pbkdf2_obj * list Z) :=
  _ <- guard (pb_init o) NotInitialized ;;
  ov <- pbkdf2_over o (length out) ;;
  _ <- guard (negb ov) MaxExceeded ;;
  PBKDF2_ExpandS o out 0 (length out).
Definition PBKDF2_Gen (o : pbkdf2_obj) (out : list Z) (oo len : nat) : res (pbkdf2_obj * list Z) :=
  _ <- guard (pb_init o) NotInitialized ;;
  _ <- guard (negb (out_short out oo len)) InvalidSize ;;
  ov <- pbkdf2_over o len ;;
  _ <- guard (negb ov) MaxExceeded ;;
  PBKDF2_Expand o out oo len.
Definition PBKDF2_GenS (o : pbkdf2_obj) (out : list Z) (oo len : nat) : res (pbkdf2_obj * list Z) :=
  _ <- guard (pb_init o) NotInitialized ;;
  _ <- guard (negb (out_short out oo len)) InvalidSize ;;
  ov <- pbkdf2_over o len ;;
  _ <- guard (negb ov) MaxExceeded ;;
  PBKDF2_ExpandS o out oo len.
End hkdf.
Arguments hkdf_obj : clear implicits. Arguments kdf2_obj : clear implicits. Arguments pbkdf2_obj : clear implicits.
