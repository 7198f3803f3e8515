(** Model of the stream cipher objects of CEX/ChaChaP20.cpp and CEX/CSX512.cpp.  Both files have the same shape; what
    differs is collected in [sconf].  Simplified: allocation, Name(), the vector kernels (Model_ChaCha), and the
    exceptions of SHAKE and KMAC inside Initialize, which cannot occur with the fixed sizes used there, leave the
    object unchanged. *)
From Verif Require Import Base Model_IntegerTools Model_Modes Model_KDF Model_SHAKE Model_ChaCha.
Open Scope Z_scope.

(** word bits and bytes, BLOCK_SIZE, the permutation on (Output, OutOffset, counter, State), key, nonce and
    distribution code sizes, whether another size of the code is refused, SIGMA_INFO, the name as bytes, rate and tag
    size of KMAC, whether SetAssociatedData appends the length and refuses 0, whether Reset clears Custom and MacKey,
    whether the nonce is the counter or part of the state, STATE_THRESHOLD *)
Record sconf := SConf {
  c_w : Z; c_wb : nat; c_B : nat; c_perm : list Z -> nat -> list Z -> list Z -> res (list Z);
  c_key : nat; c_iv : nat; c_info : nat; c_strict : bool; c_sigma : list Z; c_name : list Z;
  c_rate : nat; c_tag : nat; c_aadlen : bool; c_wipe : bool; c_ivctr : bool; c_thresh : nat }.
(** ChaChaP20.cpp:24-25 SIGMA_INFO, ChaChaP20.h:131-142 sizes, ChaChaP20.cpp:252-267 Name *)
Definition chacha_conf : sconf :=
  SConf 32 4 64 PermuteR20P512U 32 8 16 true
    [0x65; 0x78; 0x70; 0x61; 0x6E; 0x64; 0x20; 0x33; 0x32; 0x2D; 0x62; 0x79; 0x74; 0x65; 0x20; 0x6B]
    [67; 104; 97; 67; 104; 97; 80; 50; 48; 45; 75; 77; 65; 67; 50; 53; 54]
    136 32 false true false 155.
(** CSX512.cpp:165-168, CSX512.h:128-142; ROUND_COUNT is 40 *)
Definition csx_conf : sconf :=
  SConf 64 8 128 (fun out oo ctr st => PermuteP1024C out oo ctr st 40) 64 16 48 false
    [0x43; 0x53; 0x58; 0x35; 0x31; 0x32; 0x20; 0x4B; 0x4D; 0x41; 0x43; 0x20; 0x61; 0x75; 0x74; 0x68;
     0x65; 0x6E; 0x74; 0x69; 0x63; 0x61; 0x74; 0x69; 0x6F; 0x6E; 0x20; 0x76; 0x65; 0x72; 0x2E; 0x20;
     0x31; 0x63; 0x20; 0x43; 0x45; 0x58; 0x2B; 0x2B; 0x20; 0x6C; 0x69; 0x62; 0x72; 0x61; 0x72; 0x79]
    [67; 83; 88; 53; 49; 50; 45; 75; 77; 65; 67; 53; 49; 50]
    72 64 true false true 243.

(** ChaChaP20.cpp:27-41, CSX512.cpp:23-37: Nonce (the counter), State, Custom, MacKey, MacTag, Counter,
    IsAuthenticated, IsEncryption, IsInitialized; and m_macAuthenticator *)
Record sobj := SObj { s_ctr : list Z; s_st : list Z; s_custom : list Z; s_mkey : list Z; s_mtag : list Z; s_count : Z;
  s_auth : bool; s_enc : bool; s_init : bool; s_mac : option kmac_obj }.
(** ChaChaP20.cpp:179-185, CSX512.cpp:172-178 constructor *)
Definition S_new (auth : bool) : sobj := SObj (zeros 2) (zeros 14) [] [] [] 0 auth false false None.
(** ChaChaP20.cpp:118-128 and 761-769, CSX512.cpp:108-116 and 699-707 Reset; a null authenticator is dereferenced *)
Definition S_Reset (cf : sconf) (o : sobj) : res sobj :=
  mac <- (if s_auth o then match s_mac o with Some _ => Ok (Some KMAC_new) | None => UB end else Ok (s_mac o)) ;;
  Ok (SObj (zeros 2) (zeros 14)
    (if c_wipe cf then zeros (length (s_custom o)) else s_custom o)
    (if c_wipe cf then zeros (length (s_mkey o)) else s_mkey o)
    (zeros (length (s_mtag o))) 0 (s_auth o) false false mac).
(** a run of LeBytesTo32 / LeBytesTo64 *)
Fixpoint words (n : nat) (inp : list Z) (o cnt : nat) : res (list Z) :=
  match cnt with
  | O => Ok []
  | S k => x <- LeBytesTo n inp o ;; t <- words n inp (o + n) k ;; Ok (x :: t)
  end.
(** ChaChaP20.cpp:675-691, CSX512.cpp:604-629 Load: (State, Nonce) *)
Definition S_Load (cf : sconf) (key iv code ctr : list Z) : res (list Z * list Z) :=
  let n := c_wb cf in
  if c_ivctr cf then
    k <- words n key 0 (length key / n) ;; c <- words n code 0 (length code / n) ;; v <- words n iv 0 (length iv / n) ;;
    _ <- safe ((length k + length c =? 14) && (length v =? 2))%nat ;; Ok (k ++ c, v)
  else
    c <- words n code 0 4 ;; k <- words n key 0 8 ;; v <- words n iv 0 2 ;; Ok (c ++ k ++ v, ctr).
(** ParallelOptions.h:54 MAX_PRLALLOC, ParallelOptions.cpp ParallelMaximumSize; DEF_DATACACHE is 16384 *)
Definition max_alloc : Z := 16384 * 2000.
(** ChaChaP20.cpp:316-405, CSX512.cpp:306-392 Initialize; key, iv, info: the arrays of the key object *)
Definition S_Initialize (cf : sconf) (p : sprof) (o : sobj) (enc : bool) (key iv info : list Z) : res sobj :=
  _ <- guard (length key =? c_key cf)%nat InvalidKey ;;
  _ <- guard (length iv =? c_iv cf)%nat InvalidNonce ;;
  _ <- guard (negb (c_strict cf && (0 <? length info)%nat && negb (length info =? c_info cf)%nat)) InvalidInfo ;;
  _ <- (if sp_par p then
          _ <- guard (negb ((sp_blk p <? sp_min p)%nat || (max_alloc <? Z.of_nat (sp_blk p)))) InvalidSize ;;
          _ <- safe (negb (sp_min p =? 0)%nat) ;;
          guard (sp_blk p mod sp_min p =? 0)%nat InvalidParam
        else Ok tt) ;;
  o <- (if s_init o then S_Reset cf o else Ok o) ;;
  let cust := resized (s_custom o) (c_info cf) in
  cust <- (if (length info =? 0)%nat then wcopy (c_sigma cf) 0 cust 0 (length (c_sigma cf))
           else wcopy info 0 cust 0 (Nat.min (length info) (length cust))) ;;
  if s_auth o then
    g <- SHAKE_Initialize (c_rate cf) SHAKE_new key [] (c_name cf) ;;
    r <- SHAKE_Generate (c_rate cf) g (zeros (c_key cf)) 0 (c_key cf) ;;
    let '(g, cprk) := r in
    r <- S_Load cf cprk iv cust (s_ctr o) ;;
    let '(st, ctr) := r in
    r <- SHAKE_Generate (c_rate cf) g (zeros (c_tag cf)) 0 (c_tag cf) ;;
    let '(g, mack) := r in
    m <- KMAC_Initialize (c_rate cf) KMAC_new mack [] [] ;;
    Ok (SObj ctr st cust mack (resized (s_mtag o) (c_tag cf)) (s_count o) (s_auth o) enc true (Some m))
  else
    r <- S_Load cf key iv cust (s_ctr o) ;;
    let '(st, ctr) := r in
    Ok (SObj ctr st cust (s_mkey o) (s_mtag o) (s_count o) (s_auth o) enc true (s_mac o)).

(** ** calls that may stop half way: the object and the output array at the point where the exception leaves *)
Definition sres : Type := res (sobj * list Z * option err).
Definition andthen (r : sres) (f : sobj -> list Z -> sres) : sres :=
  match r with Ok (o, out, None) => f o out | _ => r end.
(** m_macAuthenticator->Update on this object; KMAC::Update checks before it changes anything *)
Definition S_mac (cf : sconf) (o : sobj) (out inp : list Z) (io len : nat) : sres :=
  match s_mac o with
  | None => UB
  | Some m =>
    match KMAC_Update (c_rate cf) m inp io len with
    | Ok m => Ok (SObj (s_ctr o) (s_st o) (s_custom o) (s_mkey o) (s_mtag o) (s_count o) (s_auth o) (s_enc o) (s_init o) (Some m), out, None)
    | Throw e => Ok (o, out, Some e)
    | UB => UB
    end
  end.
(** ChaChaP20.cpp:496-508, CSX512.cpp:493-505 Finalize *)
Definition S_Finalize (cf : sconf) (o : sobj) (out : list Z) : sres :=
  andthen (S_mac cf o out (le_bytes 8 (s_count o)) 0 8) (fun o out =>
    match s_mac o with
    | None => UB
    | Some m =>
      match KMAC_Finalize (c_rate cf) (c_tag cf) m (s_mtag o) 0 with
      | Ok (m, t) => Ok (SObj (s_ctr o) (s_st o) (s_custom o) (s_mkey o) t (s_count o) (s_auth o) (s_enc o) (s_init o) (Some m), out, None)
      | Throw e => Ok (o, out, Some e)
      | UB => UB
      end
    end).
(** the two Updates with the words of the counter, ChaChaP20.cpp:451-452, CSX512.cpp:448-449 *)
Definition S_nonce (cf : sconf) (o : sobj) (out : list Z) : sres :=
  a <- get (s_ctr o) 0 ;; b <- get (s_ctr o) 1 ;;
  andthen (S_mac cf o out (le_bytes (c_wb cf) a) 0 (c_wb cf)) (fun o out => S_mac cf o out (le_bytes (c_wb cf) b) 0 (c_wb cf)).
(** Process on the object, see Model_ChaCha.S_Process *)
Definition S_proc (cf : sconf) (s : nat) (p : sprof) (ord : list nat) (o : sobj) (inp : option (list Z)) (io : nat) (out : list Z) (oo len : nat) : sres :=
  r <- S_Process (c_w cf) (c_B cf) (fun out oo ctr => c_perm cf out oo ctr (s_st o)) s p ord inp io out oo len (s_ctr o) ;;
  let '(out, ctr) := r in
  Ok (SObj ctr (s_st o) (s_custom o) (s_mkey o) (s_mtag o) (s_count o) (s_auth o) (s_enc o) (s_init o) (s_mac o), out, None).
(** Counter += Length *)
Definition S_add (o : sobj) (len : nat) : sobj :=
  SObj (s_ctr o) (s_st o) (s_custom o) (s_mkey o) (s_mtag o) (u64 (s_count o + Z.of_nat len)) (s_auth o) (s_enc o) (s_init o) (s_mac o).
(** ChaChaP20.cpp:439-492, CSX512.cpp:436-489 Transform; [inp = None]: Input and Output are one array *)
Definition S_Transform (cf : sconf) (s : nat) (p : sprof) (ord : list nat) (o : sobj) (inp : option (list Z)) (io : nat) (out : list Z) (oo len : nat) : sres :=
  if s_enc o then
    if s_auth o then
      match s_mac o with None => UB | Some _ =>
      if Z.of_nat (length out) <? u64 (Z.of_nat len + Z.of_nat oo + Z.of_nat (c_tag cf)) then Ok (o, out, Some InvalidSize) else
      andthen (S_nonce cf o out) (fun o out =>
      andthen (S_proc cf s p ord o inp io out oo len) (fun o out =>
      andthen (S_mac cf o out out oo len) (fun o out =>
      andthen (S_Finalize cf (S_add o len) out) (fun o out =>
        out <- wcopy (s_mtag o) 0 out (oo + len) (length (s_mtag o)) ;; Ok (o, out, None)))))
      end
    else S_proc cf s p ord o inp io out oo len
  else if s_auth o then
    andthen (S_nonce cf o out) (fun o out =>
    andthen (S_mac cf o out (src inp out) io len) (fun o out =>
    andthen (S_Finalize cf (S_add o len) out) (fun o out =>
      b <- Compare (src inp out) (io + len) (s_mtag o) 0 (length (s_mtag o)) ;;
      if b then S_proc cf s p ord o inp io out oo len else Ok (o, out, Some AuthenticationFailure))))
  else S_proc cf s p ord o inp io out oo len.
(** ChaChaP20.cpp:424-437, CSX512.cpp:411-434 SetAssociatedData *)
Definition S_SetAssociatedData (cf : sconf) (o : sobj) (inp : list Z) (off len : nat) : sres :=
  if negb (s_init o) then Ok (o, [], Some NotInitialized) else
  if negb (s_auth o) then Ok (o, [], Some IllegalOperation) else
  if c_aadlen cf && (len =? 0)%nat then Ok (o, [], Some InvalidSize) else
  andthen (S_mac cf o [] inp off len) (fun o out =>
    if c_aadlen cf then S_mac cf o [] (le_bytes 4 (u32 (Z.of_nat len))) 0 4 else Ok (o, [], None)).
(** ChaChaP20.cpp:289-297, CSX512.cpp Tag *)
Definition S_Tag (o : sobj) : res (list Z) :=
  _ <- guard (negb ((length (s_mtag o) =? 0)%nat || negb (s_auth o))) NotInitialized ;; Ok (s_mtag o).

(** ** Serialize *)
Definition flag (b : bool) : Z := if b then 1 else 0.
(** ChaChaP20.cpp:130-174, CSX512.cpp:118-162; the array has exactly this length *)
Definition S_Serialize (cf : sconf) (o : sobj) : list Z :=
  concat (map (le_bytes (c_wb cf)) (s_st o)) ++
  le_bytes 2 (u16 (Z.of_nat (length (s_custom o)))) ++ s_custom o ++
  le_bytes 2 (u16 (Z.of_nat (length (s_mkey o)))) ++ s_mkey o ++
  le_bytes 2 (u16 (Z.of_nat (length (s_mtag o)))) ++ s_mtag o ++
  concat (map (le_bytes (c_wb cf)) (s_ctr o)) ++ le_bytes 8 (s_count o) ++
  [flag (s_auth o); flag (s_enc o); flag (s_init o)].
(** a bool with another representation than 0 or 1 is undefined *)
Definition flag_of (l : list Z) (o : nat) : res bool :=
  b <- get l o ;; _ <- safe ((b =? 0) || (b =? 1)) ;; Ok (b =? 1).
(** a vector with its 16-bit length in front: (vector, next offset) *)
Definition vec16 (l : list Z) (o : nat) : res (list Z * nat) :=
  n <- LeBytesTo 2 l o ;; v <- rd l (o + 2) (Z.to_nat n) ;; Ok (v, (o + 2 + Z.to_nat n)%nat).
(** ChaChaP20.cpp:75-116 DeSerialize and 187-202 constructor, CSX512.cpp:65-106 and 180-195 *)
Definition S_restore (cf : sconf) (l : list Z) : res sobj :=
  _ <- guard (c_thresh cf <=? length l)%nat InvalidKey ;;
  let n := c_wb cf in
  st <- words n l 0 14 ;;
  r <- vec16 l (14 * n) ;; let '(cust, o) := r in
  r <- vec16 l o ;; let '(mkey, o) := r in
  r <- vec16 l o ;; let '(mtag, o) := r in
  ctr <- words n l o 2 ;;
  let o := (o + 2 * n)%nat in
  cnt <- LeBytesTo 8 l o ;;
  a <- flag_of l (o + 8) ;; e <- flag_of l (o + 9) ;; i <- flag_of l (o + 10) ;;
  mac <- (if a then
            _ <- guard (negb (length mkey =? 0)%nat) InvalidParam ;;
            m <- KMAC_Initialize (c_rate cf) KMAC_new mkey [] [] ;; Ok (Some m)
          else Ok None) ;;
  Ok (SObj ctr st cust mkey mtag cnt a e i mac).
