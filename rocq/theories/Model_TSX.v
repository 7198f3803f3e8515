(** Model of the stream cipher objects of CEX/TSX256.cpp, CEX/TSX512.cpp and CEX/TSX1024.cpp, which have the same shape;
    what differs is collected in [tconf].  Simplified: allocation, the vector kernels; the exceptions of SHAKE and KMAC
    inside Initialize, which cannot occur with the fixed sizes used there, leave the object unchanged. *)
From Verif Require Import Base Model_IntegerTools Model_Modes Model_KDF Model_SHAKE Model_ChaCha Model_CSX Model_Threefish.
Open Scope Z_scope.

(** the permutation on (key, counter, tweak), BLOCK_SIZE = KEY_SIZE, whether Info sizes below 16 are refused,
    OMEGA_INFO, Name() with authentication, rate of SHAKE and KMAC, TagSize() and key size of KMAC, TAG_SIZE *)
Record tconf := TConf { f_perm : list Z -> list Z -> list Z -> res (list Z); f_B : nat; f_strict : bool; f_omega : list Z;
  f_name : list Z; f_rate : nat; f_mac : nat; f_tag : nat }.
(** TSX256.cpp:22, :141-153, :202, :251, :264; TSX256.h:122-134 *)
Definition tsx256_conf : tconf := TConf PemuteR72P256U 32 true
  [0x54; 0x68; 0x72; 0x65; 0x65; 0x66; 0x69; 0x73; 0x68; 0x50; 0x32; 0x35; 0x36; 0x52; 0x37; 0x32]
  [84; 83; 88; 50; 53; 54; 45; 75; 77; 65; 67; 50; 53; 54] 136 32 32.
(** TSX512.cpp:21, :140-152, :201, :254, :266; TSX512.h:122-134 *)
Definition tsx512_conf : tconf := TConf PemuteR96P512U 64 false
  [0x54; 0x68; 0x72; 0x65; 0x65; 0x66; 0x69; 0x73; 0x68; 0x50; 0x35; 0x31; 0x32; 0x52; 0x39; 0x36]
  [84; 83; 88; 53; 49; 50; 45; 75; 77; 65; 67; 53; 49; 50] 72 64 64.
(** TSX1024.cpp:21, :140-152, :201, :262, :274; TSX1024.h:122-133 *)
Definition tsx1024_conf : tconf := TConf PemuteR120P1024U 128 false
  [0x54; 0x68; 0x72; 0x65; 0x65; 0x66; 0x69; 0x73; 0x68; 0x31; 0x30; 0x32; 0x34; 0x31; 0x32; 0x30]
  [84; 83; 88; 49; 48; 50; 52; 45; 75; 77; 65; 67; 53; 49; 50] 72 64 128.

(** * Generate and Process.  [B]: BLOCK_SIZE, [perm out oo ctr]: the permutation with the cipher's key and tweak and
    the Copy of its result *)
Section stream.
Context (B : nat) (perm : list Z -> nat -> list Z -> res (list Z)).
(** TSX256.cpp:397-505, TSX512.cpp:404-512, TSX1024.cpp:420-528 Generate without the vector kernels *)
Definition T_Generate := S_Generate 64 B perm 0.
(** TSX256.cpp:507-576, TSX512.cpp:514-583, TSX1024.cpp:530-599 Process; [ord] is the order in which the workers run,
    a worker is atomic; [inp = None]: Input and Output are one array *)
Definition T_Process (p : sprof) (ord : list nat) (inp : option (list Z)) (io : nat) (out : list Z) (oo len : nat) (ctr : list Z) : res (list Z * list Z) :=
  if negb (sp_par p) || (len <? sp_min p)%nat then
    st <- T_Generate out oo len ctr ;;
    let '(out, ctr) := st in
    let aln := (len - len mod B)%nat in
    out <- (if (aln =? 0)%nat then Ok out else wxor (src inp out) io out oo aln) ;;
    out <- for_up aln (len - aln) (fun i out =>
      a <- get (src inp out) (i + io) ;; b <- get out (i + oo) ;; put out (i + oo) (Z.lxor b a)) out ;;
    Ok (out, ctr)
  else
    _ <- safe (negb (sp_deg p =? 0)%nat) ;;
    let cnk := (len / B / sp_deg p * B)%nat in
    let aln := (cnk * sp_deg p)%nat in
    st <- for_list ord (fun i st => let '(out, tmpc) := st in
      thdc <- LeIncreaseW 64 ctr (zeros 2) (Z.of_nat (cnk / B * i)) ;;
      st <- T_Generate out (oo + i * cnk) cnk thdc ;;
      let '(out, thdc) := st in
      out <- wxor (src inp out) (io + i * cnk) out (oo + i * cnk) cnk ;;
      tmpc <- (if (i =? sp_deg p - 1)%nat then wcopy thdc 0 tmpc 0 2 else Ok tmpc) ;;
      Ok (out, tmpc)) (out, zeros 2) ;;
    let '(out, tmpc) := st in
    ctr <- wcopy tmpc 0 ctr 0 2 ;;
    if (aln <? len)%nat then
      let fnl := (len - aln)%nat in
      let io := (io + aln)%nat in
      let oo := (oo + aln)%nat in
      st <- T_Generate out oo fnl ctr ;;
      let '(out, ctr) := st in
      out <- for_up 0 fnl (fun i out =>
        a <- get (src inp out) (i + io) ;; b <- get out (i + oo) ;; put out (i + oo) (Z.lxor b a)) out ;;
      Ok (out, ctr)
    else Ok (out, ctr).
End stream.

(** TSX256.cpp:24-48, TSX512.cpp:23-47, TSX1024.cpp:23-47: Key, Nonce (the counter), Tweak, Custom, MacKey, MacTag,
    Counter, IsAuthenticated, IsEncryption, IsInitialized; and m_macAuthenticator *)
Record tobj := TObj { o_key : list Z; o_ctr : list Z; o_tweak : list Z; o_custom : list Z; o_mkey : list Z; o_mtag : list Z; o_count : Z;
  o_auth : bool; o_enc : bool; o_init : bool; o_mac : option kmac_obj }.
(** TSX256.cpp:81-87, TSX512.cpp:80-86, TSX1024.cpp:80-86 constructor *)
Definition T_new (cf : tconf) (auth : bool) : tobj := TObj (zeros (f_B cf / 8)) (zeros 2) (zeros 2) [] [] [] 0 auth false false None.
(** TSX256.cpp:65-76 and 578-586, TSX512.cpp:64-75 and 585-593, TSX1024.cpp:64-75 and 601-609 Reset; a null
    authenticator is dereferenced *)
Definition T_Reset (cf : tconf) (o : tobj) : res tobj :=
  mac <- (if o_auth o then match o_mac o with Some _ => Ok (Some KMAC_new) | None => UB end else Ok (o_mac o)) ;;
  Ok (TObj (zeros (f_B cf / 8)) (zeros 2) (zeros 2) (zeros (length (o_custom o))) (zeros (length (o_mkey o))) (zeros (length (o_mtag o))) 0
    (o_auth o) false false mac).
(** TSX256.cpp:192-291, TSX512.cpp:191-298, TSX1024.cpp:191-314 Initialize; key, iv, info: the arrays of the key object;
    the SHAKE call is the two-argument form *)
Definition T_Initialize (cf : tconf) (p : sprof) (o : tobj) (enc : bool) (key iv info : list Z) : res tobj :=
  _ <- guard (length key =? f_B cf)%nat InvalidKey ;;
  _ <- guard (length iv =? 16)%nat InvalidNonce ;;
  _ <- guard (negb ((0 <? length info)%nat && (if f_strict cf then negb (length info =? 16)%nat else (16 <? length info)%nat))) InvalidInfo ;;
  _ <- (if sp_par p then
          _ <- guard (negb ((sp_blk p <? sp_min p)%nat || (max_alloc <? Z.of_nat (sp_blk p)))) InvalidSize ;;
          _ <- safe (negb (sp_min p =? 0)%nat) ;;
          guard (sp_blk p mod sp_min p =? 0)%nat InvalidParam
        else Ok tt) ;;
  o <- (if o_init o then T_Reset cf o else Ok o) ;;
  ctr <- words 8 iv 0 2 ;;
  tweak <- (if negb (length info =? 0)%nat then words 8 info 0 2 else words 8 (f_omega cf) 0 2) ;;
  if o_auth o then
    let cust := resized (o_custom o) (8 + length (f_name cf)) in
    cust <- wr cust 0 (le_bytes 8 1) ;;
    cust <- wcopy (f_name cf) 0 cust 8 (length (f_name cf)) ;;
    g <- SHAKE_Initialize (f_rate cf) SHAKE_new key cust [] ;;
    r <- SHAKE_Generate (f_rate cf) g (zeros (f_B cf)) 0 (f_B cf) ;;
    let '(g, ck) := r in
    k <- words 8 ck 0 (f_B cf / 8) ;;
    r <- SHAKE_Generate (f_rate cf) g (zeros (f_mac cf)) 0 (f_mac cf) ;;
    let '(g, mack) := r in
    m <- KMAC_Initialize (f_rate cf) KMAC_new mack [] [] ;;
    Ok (TObj k ctr tweak cust mack (resized (o_mtag o) (f_tag cf)) 1 (o_auth o) enc true (Some m))
  else
    k <- words 8 key 0 (f_B cf / 8) ;;
    Ok (TObj k ctr tweak (o_custom o) (o_mkey o) (o_mtag o) (o_count o) (o_auth o) enc true (o_mac o)).

(** ** calls that may stop half way: the object and the output array at the point where the exception leaves *)
Definition tres : Type := res (tobj * list Z * option err).
Definition tthen (r : tres) (f : tobj -> list Z -> tres) : tres :=
  match r with Ok (o, out, None) => f o out | _ => r end.
(** m_macAuthenticator->Update on this object; KMAC::Update checks before it changes anything *)
Definition T_mac (cf : tconf) (o : tobj) (out inp : list Z) (io len : nat) : tres :=
  match o_mac o with
  | None => UB
  | Some m =>
    match KMAC_Update (f_rate cf) m inp io len with
    | Ok m => Ok (TObj (o_key o) (o_ctr o) (o_tweak o) (o_custom o) (o_mkey o) (o_mtag o) (o_count o) (o_auth o) (o_enc o) (o_init o) (Some m), out, None)
    | Throw e => Ok (o, out, Some e)
    | UB => UB
    end
  end.
(** TSX256.cpp:385-395, TSX512.cpp:392-402, TSX1024.cpp:408-418 Finalize *)
Definition T_Finalize (cf : tconf) (o : tobj) (out : list Z) : tres :=
  cust <- wr (o_custom o) 0 (le_bytes 8 (o_count o)) ;;
  let o := TObj (o_key o) (o_ctr o) (o_tweak o) cust (o_mkey o) (o_mtag o) (o_count o) (o_auth o) (o_enc o) (o_init o) (o_mac o) in
  tthen (T_mac cf o out cust 0 (length cust)) (fun o out =>
    match o_mac o with
    | None => UB
    | Some m =>
      match KMAC_Finalize (f_rate cf) (f_mac cf) m (o_mtag o) 0 with
      | Ok (m, t) => Ok (TObj (o_key o) (o_ctr o) (o_tweak o) (o_custom o) (o_mkey o) t (o_count o) (o_auth o) (o_enc o) (o_init o) (Some m), out, None)
      | Throw e => Ok (o, out, Some e)
      | UB => UB
      end
    end).
(** the two Updates with the words of the counter, TSX256.cpp:340-341, :363-364 *)
Definition T_nonce (cf : tconf) (o : tobj) (out : list Z) : tres :=
  a <- get (o_ctr o) 0 ;; b <- get (o_ctr o) 1 ;;
  tthen (T_mac cf o out (le_bytes 8 a) 0 8) (fun o out => T_mac cf o out (le_bytes 8 b) 0 8).
(** the permutation and the Copy of its words, TSX256.cpp:481-486 *)
Definition T_perm (cf : tconf) (key tweak : list Z) (out : list Z) (oo : nat) (ctr : list Z) : res (list Z) :=
  t <- f_perm cf key ctr tweak ;; wr out oo (concat (map (le_bytes 8) t)).
(** Process on the object *)
Definition T_proc (cf : tconf) (p : sprof) (ord : list nat) (o : tobj) (inp : option (list Z)) (io : nat) (out : list Z) (oo len : nat) : tres :=
  r <- T_Process (f_B cf) (T_perm cf (o_key o) (o_tweak o)) p ord inp io out oo len (o_ctr o) ;;
  let '(out, ctr) := r in
  Ok (TObj (o_key o) ctr (o_tweak o) (o_custom o) (o_mkey o) (o_mtag o) (o_count o) (o_auth o) (o_enc o) (o_init o) (o_mac o), out, None).
(** Counter += Length *)
Definition T_add (o : tobj) (len : nat) : tobj :=
  TObj (o_key o) (o_ctr o) (o_tweak o) (o_custom o) (o_mkey o) (o_mtag o) (u64 (o_count o + Z.of_nat len)) (o_auth o) (o_enc o) (o_init o) (o_mac o).
(** TSX256.cpp:328-381, TSX512.cpp:335-388, TSX1024.cpp:351-404 Transform; the room checked is that of KMAC's tag, what
    is copied is MacTag *)
Definition T_Transform (cf : tconf) (p : sprof) (ord : list nat) (o : tobj) (inp : option (list Z)) (io : nat) (out : list Z) (oo len : nat) : tres :=
  if o_enc o then
    if o_auth o then
      match o_mac o with None => UB | Some _ =>
      if Z.of_nat (length out) <? u64 (Z.of_nat len + Z.of_nat oo + Z.of_nat (f_mac cf)) then Ok (o, out, Some InvalidSize) else
      tthen (T_nonce cf o out) (fun o out =>
      tthen (T_proc cf p ord o inp io out oo len) (fun o out =>
      tthen (T_mac cf o out out oo len) (fun o out =>
      tthen (T_Finalize cf (T_add o len) out) (fun o out =>
        out <- wcopy (o_mtag o) 0 out (oo + len) (length (o_mtag o)) ;; Ok (o, out, None)))))
      end
    else T_proc cf p ord o inp io out oo len
  else if o_auth o then
    tthen (T_nonce cf o out) (fun o out =>
    tthen (T_mac cf o out (src inp out) io len) (fun o out =>
    tthen (T_Finalize cf (T_add o len) out) (fun o out =>
      b <- Compare (src inp out) (io + len) (o_mtag o) 0 (length (o_mtag o)) ;;
      if b then T_proc cf p ord o inp io out oo len else Ok (o, out, Some AuthenticationFailure))))
  else T_proc cf p ord o inp io out oo len.
(** TSX256.cpp:303-326, TSX512.cpp:310-333, TSX1024.cpp:326-349 SetAssociatedData *)
Definition T_SetAssociatedData (cf : tconf) (o : tobj) (inp : list Z) (off len : nat) : tres :=
  if negb (o_init o) then Ok (o, [], Some NotInitialized) else
  if negb (o_auth o) then Ok (o, [], Some IllegalOperation) else
  if (len =? 0)%nat then Ok (o, [], Some InvalidSize) else
  tthen (T_mac cf o [] inp off len) (fun o out => T_mac cf o [] (le_bytes 4 (u32 (Z.of_nat len))) 0 4).
(** TSX256.cpp:175-178 Tag: no check *)
Definition T_Tag (o : tobj) : list Z := o_mtag o.
