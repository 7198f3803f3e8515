(** Model of CEX/BCG.cpp, the block cipher counter generator, in the configuration without vector instructions. *)
From Verif Require Import Base Model_IntegerTools Model_Modes Model_KDF Model_SHAKE Model_ChaCha Model_RCS.
Open Scope Z_scope.

(** BCG.cpp:23-26 BCG_INFO: "BCG version 1.0b" *)
Definition BCG_INFO : list Z := [0x42; 0x43; 0x47; 0x20; 0x76; 0x65; 0x72; 0x73; 0x69; 0x6F; 0x6E; 0x20; 0x31; 0x2E; 0x30; 0x62].
(** Drbgs.cpp:11-12 Name(): "BCG" *)
Definition BCG_name : list Z := [0x42; 0x43; 0x47].
(** BCG.cpp:28-87 BcgState: RoundKeys, Custom, Nonce, Counter, Reseed, Rounds, IsInitialized.  Name and KeySize are written by
    Initialize and used there only.  [bg_calls] counts the calls of the provider *)
Record bcg := Bcg { bg_rk : list Z; bg_custom : list Z; bg_nonce : list Z; bg_counter : Z; bg_reseed : Z; bg_rounds : nat; bg_ready : bool; bg_calls : nat }.
(** the constructors :91-129 *)
Definition BCG_new : bcg := Bcg [] [] (zeros 32) 0 0 0 false 0.
(** BCG.cpp:74-86 Reset: Reseed is left *)
Definition BCG_Reset (o : bcg) : bcg :=
  Bcg (zeros (length (bg_rk o))) (zeros (length (bg_custom o))) (zeros (length (bg_nonce o))) 0 (bg_reseed o) 0 false (bg_calls o).
(** BCG.cpp:584-610 Transform256 is the text of RCS.cpp:984-1013, [R_block rcs_fam]; 404-540 Transform without the vector
    blocks is that of RCS.cpp:736-755 Generate, [W_Generate] *)
Definition BCG_Transform (o : bcg) (out : list Z) (oo len : nat) (ctr : list Z) : res (list Z * list Z) :=
  W_Generate 32 (R_block rcs_fam (bg_rk o) (bg_rounds o)) out oo len ctr.
(** BCG.cpp:542-582 Process: Output and the new Nonce.  [ord]: the order in which the workers run, a worker is atomic; a
    degree of 0 would be a division by zero *)
Definition BCG_Process (p : sprof) (ord : list nat) (o : bcg) (out : list Z) (oo len : nat) : res (list Z * list Z) :=
  if negb (sp_par p) || (len <? sp_blk p)%nat then BCG_Transform o out oo len (bg_nonce o)
  else
    _ <- safe (negb (sp_deg p =? 0)%nat) ;;
    let cnk := (sp_blk p / sp_deg p)%nat in
    let ctrlen := (cnk / 32)%nat in
    st <- for_list ord (fun i st => let '(out, tmpc) := st in
      thdc <- BeIncrease8 4 (bg_nonce o) (zeros 32) (u32 (Z.of_nat (ctrlen * i))) ;;
      st <- BCG_Transform o out (oo + i * cnk) cnk thdc ;;
      let '(out, thdc) := st in
      tmpc <- (if (i =? sp_deg p - 1)%nat then wcopy thdc 0 tmpc 0 32 else Ok tmpc) ;;
      Ok (out, tmpc)) (out, zeros 32) ;;
    let '(out, tmpc) := st in
    nonce <- wcopy tmpc 0 (bg_nonce o) 0 (length (bg_nonce o)) ;;
    let aln := (cnk * sp_deg p)%nat in
    if (aln <? len)%nat then BCG_Transform o out (oo + aln) (len - aln) nonce else Ok (out, nonce).
Definition set_nonce (o : bcg) (nonce : list Z) : bcg :=
  Bcg (bg_rk o) (bg_custom o) nonce (bg_counter o) (bg_reseed o) (bg_rounds o) (bg_ready o) (bg_calls o).
Definition set_counts (o : bcg) (counter reseed : Z) : bcg :=
  Bcg (bg_rk o) (bg_custom o) (bg_nonce o) counter reseed (bg_rounds o) (bg_ready o) (bg_calls o).
(** BCG.cpp:261-322 Initialize: key, IV and info of the key object; the rate of SHAKE256 is 136 *)
Definition BCG_Initialize (o : bcg) (key iv info : list Z) : res bcg :=
  let ks := length key in
  _ <- guard (existsb (Nat.eqb ks) [32; 64; 128]%nat) InvalidKey ;;
  _ <- guard (length iv =? 32)%nat InvalidNonce ;;
  let o := if bg_ready o then BCG_Reset o else o in
  let rounds := (if negb (ks =? 128) then Z.to_nat (u16 (Z.of_nat (ks / 4))) + 14 else 38)%nat in
  let cust := resized (bg_custom o) (length info + length BCG_INFO) in
  cust <- wcopy BCG_INFO 0 cust 0 (length BCG_INFO) ;;
  cust <- wcopy info 0 cust (length BCG_INFO) (length info) ;;
  let nm := le_bytes 2 (u16 (Z.of_nat (ks * 8))) ++ BCG_name in
  nonce <- wcopy iv 0 (bg_nonce o) 0 32 ;;
  gen <- SHAKE_Initialize 136 SHAKE_new key cust nm ;;
  let rnklen := (32 / 4 * (rounds + 1))%nat in
  r <- SHAKE_Generate 136 gen (zeros (rnklen * 4)) 0 (rnklen * 4) ;;
  rk <- be_words (snd r) 0 rnklen ;;
  Ok (Bcg rk cust nonce (bg_counter o) (bg_reseed o) rounds true (bg_calls o)).

(** [prov]: the random provider if there is one; its k-th call for n bytes gives [f k n].
    [thr]: ReseedThreshold().  CyclicReseed() is always false (DrbgBase.cpp:12, no setter) *)
Section obj.
Context (p : sprof) (prov : option (nat -> nat -> list Z)) (thr : Z).
(** BCG.cpp:383-394 Derive: SHAKE256 with the bytes of the provider as customization *)
Definition BCG_Derive (f : nat -> nat -> list Z) (o : bcg) (key : list Z) : res (bcg * list Z) :=
  let tmpc := f (bg_calls o) 32%nat in
  gen <- SHAKE_Initialize 136 SHAKE_new key tmpc [] ;;
  r <- SHAKE_Generate 136 gen key 0 (length key) ;;
  Ok (Bcg (bg_rk o) (bg_custom o) (bg_nonce o) (bg_counter o) (bg_reseed o) (bg_rounds o) (bg_ready o) (S (bg_calls o)), snd r).
(** BCG.cpp:342-379 Update; the std::vector form :334-340 copies the key.  The object, and the exception if one is thrown
    after Reseed was counted *)
Definition BCG_Update (o : bcg) (key : list Z) : res (bcg * option err) :=
  _ <- guard (negb (length key <? 16)%nat) InvalidKey ;;
  let o := set_counts o (bg_counter o) (bg_reseed o + 1) in
  if 10000 <? bg_reseed o then Ok (o, Some MaxExceeded) else
  r <- match prov with Some f => BCG_Derive f o key | None => Ok (o, key) end ;;
  let '(o, tmpk) := r in
  match BCG_Initialize o tmpk (bg_nonce o) (bg_custom o) with
  | Ok o => Ok (set_counts o 0 (bg_reseed o), None)
  | Throw e => Ok (o, Some e)
  | UB => UB
  end.
(** BCG.cpp:195-239 Generate(SecureVector Output, OutOffset, Length); MAX_REQUEST 102400000, MAX_THRESHOLD 10000 (BCG.h).  The
    std::vector form :241-259 goes through a temporary of Length bytes.  The second Process makes 32 bytes; it is parallel
    only if the parallel block size is at most 32, and would then run in the same order.  The result is the object, the
    exception if one was thrown after the first Process, and Output *)
Definition BCG_Generate (o : bcg) (out : list Z) (oo len : nat) (ord : list nat) : res (bcg * option err * list Z) :=
  _ <- guard (bg_ready o) NotInitialized ;;
  _ <- guard (negb ((oo <=? length out)%nat && (length out - oo <? len)%nat)) InvalidSize ;;
  _ <- guard (Z.of_nat len <=? 102400000) MaxExceeded ;;
  r <- BCG_Process p ord o out oo len ;;
  let '(out, nonce) := r in
  let o := set_nonce o nonce in
  match prov with
  | None => Ok (o, None, out)
  | Some f =>
    let o := set_counts o (bg_counter o + Z.of_nat len) (bg_reseed o) in
    if thr <=? bg_counter o then
      let o := set_counts o (bg_counter o) (bg_reseed o + 1) in
      if 10000 <? bg_reseed o then Ok (o, Some MaxExceeded, out) else
      r <- BCG_Process p ord o (zeros 32) 0 32 ;;
      let '(tmpk, nonce) := r in
      r <- BCG_Update (set_nonce o nonce) tmpk ;;
      match r with
      | (o, Some e) => Ok (o, Some e, out)
      | (o, None) => Ok (set_counts o 0 (bg_reseed o), None, out)
      end
    else Ok (o, None, out)
  end.
End obj.
