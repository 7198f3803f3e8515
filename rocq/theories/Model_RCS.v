(** Model of CEX/RCS.cpp and CEX/RWS.cpp in the configuration without vector instructions.  Both files have the same
    shape; what differs is collected in [rfam].  Simplified: allocation, the recalculation of the parallel profile in
    Reset, key sizes are below 2^16 (SymmetricKey cuts longer ones, Model_Keys). *)
From Verif Require Import Base Model_IntegerTools Model_Modes Model_KDF Model_SHAKE Model_ChaCha Model_CSX Model_Rijndael.
Open Scope Z_scope.

(** BLOCK_SIZE, ShiftRows, the first value of Counter, the legal key sizes, and by key size in bytes: rounds, KmacModes,
    ShakeModes; the name by authenticator (0: none); STATE_THRESHOLD *)
Record rfam := RFam { f_B : nat; f_shift : list Z -> res (list Z); f_start : Z; f_legal : list nat; f_rounds : nat -> nat;
  f_amode : nat -> Z; f_smode : nat -> Z; f_name : Z -> list Z; f_thresh : nat }.
(** RCS.h:132-147, RCS.cpp:55-57 LegalKeySizes, 427 Counter, 430-434 Rounds, 438-442 Authenticator, 474-475 Mode;
    Name() is RCS.cpp:298-310 with StreamCiphers.cpp:42-56 and ToName: "RCS", "RCSK256", "RCSK512" *)
Definition rcs_fam : rfam :=
  RFam 32 ShiftRows256 1 [32; 64]%nat
    (fun k => if (k =? 32)%nat then 22%nat else if (k =? 64)%nat then 30%nat else 38%nat)
    (fun k => if (k =? 16)%nat then 16 else if (k =? 64)%nat then 18 else 17)
    (fun k => if (k =? 64)%nat then 10 else 9)
    (fun a => if a =? 17 then [82; 67; 83; 75; 50; 53; 54] else if a =? 18 then [82; 67; 83; 75; 53; 49; 50] else [82; 67; 83])
    343.
(** RWS.h:131-146, RWS.cpp Initialize 380-411; StreamCiphers.cpp:58-72: "RWS", "RWSK256", "RWSK512"; there is no name
    for KMAC128 *)
Definition rws_fam : rfam :=
  RFam 64 ShiftRows512 0 [16; 32; 64]%nat
    (fun k => if (k =? 16)%nat then 20%nat else if (k =? 32)%nat then 40%nat else 80%nat)
    (fun k => if (k =? 16)%nat then 16 else if (k =? 32)%nat then 17 else 18)
    (fun k => if (k =? 16)%nat then 8 else if (k =? 32)%nat then 9 else 10)
    (fun a => if a =? 17 then [82; 87; 83; 75; 50; 53; 54] else if a =? 18 then [82; 87; 83; 75; 53; 49; 50] else [82; 87; 83])
    838.
(** Digests.h:45-53 SHAKE128 = 8, SHAKE256 = 9, SHAKE512 = 10: rate *)
Definition shake_rate (m : Z) : nat := if m =? 8 then 168%nat else if m =? 9 then 136%nat else 72%nat.
(** Macs.h:80-88 KMAC128 = 16, KMAC256 = 17, KMAC512 = 18: rate, and the size of tag and key (LegalKeySizes()[0]) *)
Definition kmac_rate (m : Z) : nat := if m =? 16 then 168%nat else if m =? 17 then 136%nat else 72%nat.
Definition kmac_tag (m : Z) : nat := if m =? 16 then 16%nat else if m =? 17 then 32%nat else 64%nat.

(** * the block function and the counter loops; [B]: BLOCK_SIZE, [blk ctr out oo]: Transform256 / Transform512 *)
(** RCS.cpp:984-1013, RWS.cpp:846-872 *)
Definition R_block (fam : rfam) (rk : list Z) (rounds : nat) (ctr out : list Z) (oo : nat) : res (list Z) :=
  let w := (f_B fam / 4)%nat in
  s <- wcopy ctr 0 (zeros (f_B fam)) 0 (f_B fam) ;;
  s <- KeyAddition s rk 0 ;;
  s <- for_up 1 (rounds - 1) (fun i s =>
    s <- Substitution s ;; s <- f_shift fam s ;; s <- MixColumns s ;; KeyAddition s rk (i * w)) s ;;
  s <- Substitution s ;; s <- f_shift fam s ;; s <- KeyAddition s rk (rounds * w) ;;
  wcopy s 0 out oo (f_B fam).
Section stream.
Context (B : nat) (blk : list Z -> list Z -> nat -> res (list Z)).
(** RCS.cpp:736-755, RWS.cpp:700-717 Generate; LeIncrement(Counter, 16) counts on the first 16 bytes *)
Definition W_Generate (out : list Z) (oo len : nat) (ctr : list Z) : res (list Z * list Z) :=
  st <- for_up 0 (len / B) (fun k st => let '(out, ctr) := st in
    out <- blk ctr out (oo + B * k) ;; ctr <- LeIncrement_len ctr 16 ;; Ok (out, ctr)) (out, ctr) ;;
  let '(out, ctr) := st in
  let rmd := (len mod B)%nat in
  if (rmd =? 0)%nat then Ok (out, ctr)
  else
    otp <- blk ctr (zeros B) 0%nat ;;
    ctr <- LeIncrement_len ctr 16 ;;
    out <- wcopy otp 0 out (oo + (len - rmd)) rmd ;;
    Ok (out, ctr).
(** RCS.cpp:869-891, RWS.cpp:803-825 ProcessSequential; [inp = None]: Input and Output are one array *)
Definition W_Sequential (inp : option (list Z)) (io : nat) (out : list Z) (oo len : nat) (ctr : list Z) : res (list Z * list Z) :=
  st <- W_Generate out oo len ctr ;;
  let '(out, ctr) := st in
  let aln := (len - len mod B)%nat in
  out <- (if (aln =? 0)%nat then Ok out else wxor (src inp out) io out oo aln) ;;
  out <- for_up aln (len - aln) (fun i out =>
    a <- get (src inp out) (i + io) ;; b <- get out (i + oo) ;; put out (i + oo) (Z.lxor b a)) out ;;
  Ok (out, ctr).
(** RCS.cpp:824-867, RWS.cpp:756-801 ProcessParallel; [ord] is the order in which the workers run, a worker is atomic;
    the difference Output.size() - OutOffset is a size_t and wraps *)
Definition W_Parallel (p : sprof) (ord : list nat) (inp : option (list Z)) (io : nat) (out : list Z) (oo len : nat) (ctr : list Z) : res (list Z * list Z) :=
  let avail := (Z.of_nat (length out) - Z.of_nat oo) mod 2 ^ 64 in
  let outlen := if avail <? Z.of_nat len then Z.to_nat avail else len in
  _ <- safe (negb (sp_deg p =? 0)%nat) ;;
  let cnk := (sp_blk p / sp_deg p)%nat in
  let ctrlen := (cnk / B)%nat in
  st <- for_list ord (fun i st => let '(out, tmpc) := st in
    thdc <- LeIncrease8 4 ctr (zeros B) (u32 (Z.of_nat (ctrlen * i))) ;;
    st <- W_Generate out (oo + i * cnk) cnk thdc ;;
    let '(out, thdc) := st in
    out <- wxor (src inp out) (io + i * cnk) out (oo + i * cnk) cnk ;;
    tmpc <- (if (i =? sp_deg p - 1)%nat then wcopy thdc 0 tmpc 0 B else Ok tmpc) ;;
    Ok (out, tmpc)) (out, zeros B) ;;
  let '(out, tmpc) := st in
  ctr <- wcopy tmpc 0 ctr 0 B ;;
  let aln := (cnk * sp_deg p)%nat in
  if (aln <? outlen)%nat then
    let fnl := (outlen - aln)%nat in
    st <- W_Generate out (oo + aln) fnl ctr ;;
    let '(out, ctr) := st in
    out <- for_up 0 fnl (fun i out =>
      a <- get (src inp out) (io + aln + i) ;; b <- get out (oo + aln + i) ;; put out (oo + aln + i) (Z.lxor b a)) out ;;
    Ok (out, ctr)
  else Ok (out, ctr).
(** RCS.cpp:796-822, RWS.cpp:727-754 Process; the calls of ProcessParallel take their orders from [ord] one after the
    other; [Length / PRLBLK] with PRLBLK 0 is undefined *)
Definition W_Process (p : sprof) (ord : list nat) (inp : option (list Z)) (io : nat) (out : list Z) (oo len : nat) (ctr : list Z) : res (list Z * list Z) :=
  let P := sp_blk p in
  if sp_par p && (P <=? len)%nat then
    _ <- safe (negb (P =? 0)%nat) ;;
    let n := (len / P)%nat in
    st <- for_up 0 n (fun k st => let '(out, ctr) := st in
      W_Parallel p (slice ord (k * sp_deg p) (sp_deg p)) inp (io + k * P) out (oo + k * P) P ctr) (out, ctr) ;;
    let '(out, ctr) := st in
    let rmd := (len - P * n)%nat in
    if (rmd =? 0)%nat then Ok (out, ctr) else W_Sequential inp (io + P * n) out (oo + P * n) rmd ctr
  else W_Sequential inp io out oo len ctr.
End stream.

(** * the objects *)
(** RCS.cpp:39-66, RWS.cpp:23-45: RoundKeys, Custom, MacKey, MacTag, Name, Nonce, Counter, Rounds, Authenticator, Mode,
    IsAuthenticated, IsEncryption, IsInitialized; and m_macAuthenticator with its mode *)
Record robj := RObj { r_rk : list Z; r_custom : list Z; r_mkey : list Z; r_mtag : list Z; r_name : list Z; r_nonce : list Z;
  r_count : Z; r_rounds : nat; r_amode : Z; r_smode : Z; r_auth : bool; r_enc : bool; r_init : bool; r_mac : option (Z * kmac_obj) }.
Definition set_rmac (o : robj) (m : option (Z * kmac_obj)) : robj :=
  RObj (r_rk o) (r_custom o) (r_mkey o) (r_mtag o) (r_name o) (r_nonce o) (r_count o) (r_rounds o) (r_amode o) (r_smode o)
    (r_auth o) (r_enc o) (r_init o) m.
(** RCS.cpp:262-268, RWS.cpp:221-227 constructor *)
Definition R_new (fam : rfam) (auth : bool) : robj := RObj [] [] [] [] [] (zeros (f_B fam)) 0 0 0 0 auth false false None.
(** RCS.cpp:167-185 and 893-903, RWS.cpp Reset: the vectors keep their sizes; a null authenticator is dereferenced *)
Definition R_Reset (o : robj) : res robj :=
  mac <- (if r_auth o then match r_mac o with Some (m, _) => Ok (Some (m, KMAC_new)) | None => UB end else Ok (r_mac o)) ;;
  Ok (RObj (zeros (length (r_rk o))) (zeros (length (r_custom o))) (zeros (length (r_mkey o))) (zeros (length (r_mtag o)))
    (zeros (length (r_name o))) (zeros (length (r_nonce o))) 0 0 (r_amode o) (r_smode o) (r_auth o) false false mac).
(** [for (i = 0; i < n; ++i) RoundKeys[i] = BeBytesTo32(tmpr, i * 4)] *)
Fixpoint be_words (inp : list Z) (o cnt : nat) : res (list Z) :=
  match cnt with
  | O => Ok []
  | S k => x <- BeBytesTo32 inp o ;; t <- be_words inp (o + 4) k ;; Ok (x :: t)
  end.
(** RCS.cpp:393-534, RWS.cpp:351-470 Initialize: the object, and the exception if there is one.  The exceptions of
    SHAKE::Initialize leave when half of the members are set *)
Definition R_Initialize (fam : rfam) (p : sprof) (o : robj) (enc : bool) (key iv info : list Z) : res (robj * option err) :=
  let B := f_B fam in
  let ks := length key in
  if negb (existsb (Nat.eqb ks) (f_legal fam)) then Ok (o, Some InvalidKey) else
  if negb (length iv =? B)%nat then Ok (o, Some InvalidNonce) else
  if sp_par p && ((sp_blk p <? sp_min p)%nat || (max_alloc <? Z.of_nat (sp_blk p))) then Ok (o, Some InvalidSize) else
  _ <- safe (negb (sp_par p && (sp_min p =? 0)%nat)) ;;
  if sp_par p && negb (sp_blk p mod sp_min p =? 0)%nat then Ok (o, Some InvalidParam) else
  o <- (if r_init o then R_Reset o else Ok o) ;;
  let auth := r_auth o in
  let count := f_start fam in
  let rounds := f_rounds fam ks in
  let amode := if auth then f_amode fam ks else r_amode o in
  let mac := if auth then Some (amode, KMAC_new) else r_mac o in
  cust <- (if (length info =? 0)%nat then Ok (r_custom o)
           else wcopy info 0 (resized (r_custom o) (length info)) 0 (length info)) ;;
  let nm := le_bytes 8 count ++ le_bytes 2 (u16 (Z.of_nat (ks * 8))) ++ f_name fam (if auth then amode else 0) in
  nonce <- wcopy iv 0 (r_nonce o) 0 B ;;
  let smode := f_smode fam ks in
  let rate := shake_rate smode in
  match SHAKE_Initialize rate SHAKE_new key cust nm with
  | UB => UB
  | Throw e => Ok (RObj (r_rk o) cust (r_mkey o) (r_mtag o) nm nonce count rounds amode smode auth (r_enc o) (r_init o) mac, Some e)
  | Ok g =>
    let n := (B / 4 * (rounds + 1))%nat in
    r <- SHAKE_Generate rate g (zeros (n * 4)) 0 (n * 4) ;;
    let '(g, tmpr) := r in
    rk <- be_words tmpr 0 n ;;
    if auth then
      let t := kmac_tag amode in
      r <- SHAKE_Generate rate g (zeros t) 0 t ;;
      let '(g, mack) := r in
      m <- KMAC_Initialize (kmac_rate amode) KMAC_new mack [] [] ;;
      Ok (RObj rk cust mack (resized (r_mtag o) t) nm nonce count rounds amode smode auth enc true (Some (amode, m)), None)
    else
      Ok (RObj rk cust (r_mkey o) (r_mtag o) nm nonce count rounds amode smode auth enc true mac, None)
  end.

(** ** calls that may stop half way: the object and the output array at the point where the exception leaves *)
Definition rres : Type := res (robj * list Z * option err).
Definition rthen (r : rres) (f : robj -> list Z -> rres) : rres :=
  match r with Ok (o, out, None) => f o out | _ => r end.
(** m_macAuthenticator->Update; KMAC::Update checks before it changes anything *)
Definition R_mac (o : robj) (out inp : list Z) (io len : nat) : rres :=
  match r_mac o with
  | None => UB
  | Some (a, m) =>
    match KMAC_Update (kmac_rate a) m inp io len with
    | Ok m => Ok (set_rmac o (Some (a, m)), out, None)
    | Throw e => Ok (o, out, Some e)
    | UB => UB
    end
  end.
(** RCS.cpp:630-645, RWS.cpp:565-579 Finalize *)
Definition R_Finalize (o : robj) (out : list Z) : rres :=
  rthen (R_mac o out (le_bytes 8 (u64 (r_count o + Z.of_nat (length (r_nonce o)) + 8))) 0 8) (fun o out =>
    match r_mac o with
    | None => UB
    | Some (a, m) =>
      match KMAC_Finalize (kmac_rate a) (kmac_tag a) m (r_mtag o) 0 with
      | Ok (m, t) => Ok (RObj (r_rk o) (r_custom o) (r_mkey o) t (r_name o) (r_nonce o) (r_count o) (r_rounds o) (r_amode o) (r_smode o)
          (r_auth o) (r_enc o) (r_init o) (Some (a, m)), out, None)
      | Throw e => Ok (o, out, Some e)
      | UB => UB
      end
    end).
(** Process on the object *)
Definition R_proc (fam : rfam) (p : sprof) (ord : list nat) (o : robj) (inp : option (list Z)) (io : nat) (out : list Z) (oo len : nat) : rres :=
  r <- W_Process (f_B fam) (R_block fam (r_rk o) (r_rounds o)) p ord inp io out oo len (r_nonce o) ;;
  let '(out, ctr) := r in
  Ok (RObj (r_rk o) (r_custom o) (r_mkey o) (r_mtag o) (r_name o) ctr (r_count o) (r_rounds o) (r_amode o) (r_smode o)
    (r_auth o) (r_enc o) (r_init o) (r_mac o), out, None).
(** Counter += Length *)
Definition R_add (o : robj) (len : nat) : robj :=
  RObj (r_rk o) (r_custom o) (r_mkey o) (r_mtag o) (r_name o) (r_nonce o) (u64 (r_count o + Z.of_nat len)) (r_rounds o) (r_amode o) (r_smode o)
    (r_auth o) (r_enc o) (r_init o) (r_mac o).
(** RCS.cpp:573-626, RWS.cpp:507-561 Transform *)
Definition R_Transform (fam : rfam) (p : sprof) (ord : list nat) (o : robj) (inp : option (list Z)) (io : nat) (out : list Z) (oo len : nat) : rres :=
  if r_enc o then
    if r_auth o then
      match r_mac o with None => UB | Some (a, _) =>
      if Z.of_nat (length out) <? u64 (Z.of_nat len + Z.of_nat oo + Z.of_nat (kmac_tag a)) then Ok (o, out, Some InvalidSize) else
      rthen (R_mac o out (r_nonce o) 0 (f_B fam)) (fun o out =>
      rthen (R_proc fam p ord o inp io out oo len) (fun o out =>
      rthen (R_mac o out out oo len) (fun o out =>
      rthen (R_Finalize (R_add o len) out) (fun o out =>
        out <- wcopy (r_mtag o) 0 out (oo + len) (length (r_mtag o)) ;; Ok (o, out, None)))))
      end
    else R_proc fam p ord o inp io out oo len
  else if r_auth o then
    rthen (R_mac o out (r_nonce o) 0 (f_B fam)) (fun o out =>
    rthen (R_mac o out (src inp out) io len) (fun o out =>
    rthen (R_Finalize (R_add o len) out) (fun o out =>
      b <- Compare (src inp out) (io + len) (r_mtag o) 0 (length (r_mtag o)) ;;
      if b then R_proc fam p ord o inp io out oo len else Ok (o, out, Some AuthenticationFailure))))
  else R_proc fam p ord o inp io out oo len.
(** RCS.cpp:546-571, RWS.cpp:482-505 SetAssociatedData *)
Definition R_SetAssociatedData (o : robj) (inp : list Z) (off len : nat) : rres :=
  if negb (r_init o) then Ok (o, [], Some NotInitialized) else
  match r_mac o with
  | None => Ok (o, [], Some IllegalOperation)
  | Some _ =>
    if (len =? 0)%nat then Ok (o, [], Some InvalidSize) else
    if r_auth o then
      rthen (R_mac o [] inp off len) (fun o out => R_mac o [] (le_bytes 4 (u32 (Z.of_nat len))) 0 4)
    else Ok (o, [], None)
  end.
(** RCS.cpp:362-370, RWS.cpp:319-327 Tag *)
Definition R_Tag (o : robj) : res (list Z) :=
  _ <- guard (negb ((length (r_mtag o) =? 0)%nat || negb (r_auth o))) NotInitialized ;; Ok (r_mtag o).

(** ** Serialize *)
Definition vec_bytes (l : list Z) : list Z := le_bytes 2 (u16 (Z.of_nat (length l))) ++ l.
(** RCS.cpp:187-257, RWS.cpp Serialize; STALEN counts seven lengths for six vectors, so two zero bytes follow *)
Definition R_Serialize (o : robj) : list Z :=
  vec_bytes (concat (map (le_bytes 4) (r_rk o))) ++ vec_bytes (r_custom o) ++ vec_bytes (r_mkey o) ++ vec_bytes (r_mtag o) ++
  vec_bytes (r_name o) ++ vec_bytes (r_nonce o) ++ le_bytes 8 (r_count o) ++ le_bytes 4 (u32 (Z.of_nat (r_rounds o))) ++
  [u8 (r_amode o); u8 (r_smode o); flag (r_auth o); flag (r_enc o); flag (r_init o)] ++ zeros 2.
(** RCS.cpp:107-165 DeSerialize and 270-287 constructor, RWS.cpp 229-244; the round keys are read as a vector of bytes
    whose length is cut to whole words; a KMAC of another mode than 16, 17, 18 cannot be constructed *)
Definition R_restore (fam : rfam) (l : list Z) : res robj :=
  _ <- guard (f_thresh fam <? length l)%nat InvalidKey ;;
  r <- vec16 l 0 ;; let '(rkb, o) := r in
  _ <- safe (length rkb mod 4 =? 0)%nat ;;
  rk <- words 4 rkb 0 (length rkb / 4) ;;
  r <- vec16 l o ;; let '(cust, o) := r in
  r <- vec16 l o ;; let '(mkey, o) := r in
  r <- vec16 l o ;; let '(mtag, o) := r in
  r <- vec16 l o ;; let '(nm, o) := r in
  r <- vec16 l o ;; let '(nonce, o) := r in
  cnt <- LeBytesTo 8 l o ;;
  rounds <- LeBytesTo 4 l (o + 8) ;;
  a <- get l (o + 12) ;; s <- get l (o + 13) ;;
  au <- flag_of l (o + 14) ;; e <- flag_of l (o + 15) ;; i <- flag_of l (o + 16) ;;
  mac <- (if a =? 0 then Ok None
          else
            _ <- guard ((a =? 16) || (a =? 17) || (a =? 18)) InvalidParam ;;
            _ <- guard (negb (length mkey =? 0)%nat) InvalidParam ;;
            m <- KMAC_Initialize (kmac_rate a) KMAC_new mkey [] [] ;; Ok (Some (a, m))) ;;
  Ok (RObj rk cust mkey mtag nm nonce cnt (Z.to_nat rounds) a s au e i mac).
