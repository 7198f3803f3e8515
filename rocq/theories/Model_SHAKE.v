(** Model of CEX/SHAKE.cpp and CEX/KMAC.cpp. *)
From Verif Require Import Base Model_IntegerTools Model_Modes Model_Absorb Model_Keccak.
Open Scope Z_scope.

(** * SHAKE *)
(** SHAKE.cpp:11-47 ShakeState: (State, Counter, Domain, IsInitialized); the rate is fixed by the constructor *)
Record shake_obj := Shake { sk_state : list Z; sk_counter : nat; sk_domain : Z; sk_init : bool }.
(** SHAKE.cpp:40-46 Reset, also the constructor :51-85 *)
Definition SHAKE_new : shake_obj := Shake (zeros 25) 0 0x1F false.
(** SHAKE.cpp:271-302 Initialize(Key, Customization, Information): MinimumKeySize 4, MinimumSaltSize 4.
    Initialize(Key) :175-196 is the case of two empty arrays, Initialize(Key, Customization) :224-256 that of an
    empty Information *)
Definition SHAKE_Initialize (rate : nat) (o : shake_obj) (key cust info : list Z) : res shake_obj :=
  _ <- guard (negb (length key <? 4)%nat) InvalidKey ;;
  _ <- guard (negb (negb (length cust =? 0)%nat && (length cust <? 4)%nat)) InvalidSalt ;;
  let o := if sk_init o then SHAKE_new else o in
  o <- (if (negb (length cust =? 0) || negb (length info =? 0))%nat then
          st <- Customize 24 cust info rate (sk_state o) ;; Ok (Shake st (sk_counter o) 4 (sk_init o))
        else Ok o) ;;
  st <- Absorb 24 key 0 (length key) rate (sk_domain o) (sk_state o) ;;
  Ok (Shake st (sk_counter o) (sk_domain o) true).
(** SHAKE.cpp:324-347 Expand and Permute *)
Definition SHAKE_Expand (rate : nat) (o : shake_obj) (out : list Z) (oo len : nat) : res (shake_obj * list Z) :=
  r <- (if (rate <=? len)%nat then
          let blkcnt := (len / rate)%nat in
          r <- Squeeze 24 (sk_state o) out oo blkcnt rate ;;
          Ok (fst r, snd r, (oo + blkcnt * rate)%nat, (len - blkcnt * rate)%nat)
        else Ok (sk_state o, out, oo, len)) ;;
  let '(st, out, oo, len) := r in
  if (len =? 0)%nat then Ok (Shake st (sk_counter o) (sk_domain o) (sk_init o), out) else
  let st := Permute 24 st in
  out <- wcopy (u64_bytes st) 0 out oo len ;;
  Ok (Shake st (sk_counter o + 1) (sk_domain o) (sk_init o), out).
(** SHAKE.cpp:144-160 Generate(SecureVector Output, OutOffset, Length); MAXGEN_REQUESTS = 1024000.  The
    std::vector forms :109-115 and :131-142 go through a temporary of the same length: same bytes.  *)
Definition SHAKE_Generate (rate : nat) (o : shake_obj) (out : list Z) (oo len : nat) : res (shake_obj * list Z) :=
  _ <- guard (sk_init o) NotInitialized ;;
  _ <- guard (negb ((oo <=? length out)%nat && (length out - oo <? len)%nat)) InvalidSize ;;
  _ <- guard (Z.of_nat (sk_counter o) + Z.of_nat len / Z.of_nat rate <=? 1024000) MaxExceeded ;;
  SHAKE_Expand rate o out oo len.

(** * KMAC *)
(** KMAC.cpp:14-52 KmacState: (State, Buffer, Position) and IsInitialized *)
Record kmac_obj := Kmac { km_st : list Z * list Z * nat; km_init : bool }.
(** KMAC.cpp:46-51 and 223-227 Reset; also a new object *)
Definition KMAC_new : kmac_obj := Kmac (zeros 25, zeros 200, 0%nat) false.
(** KMAC.cpp:185-221 Initialize: MinimumKeySize 16, MinimumSaltSize 4; key, IV (salt) and info of the key object *)
Definition KMAC_Initialize (rate : nat) (o : kmac_obj) (key salt info : list Z) : res kmac_obj :=
  _ <- guard (negb (length key <? 16)%nat) InvalidKey ;;
  _ <- guard (negb (negb (length salt =? 0)%nat && (length salt <? 4)%nat)) InvalidSalt ;;
  let o := if km_init o then KMAC_new else o in
  let '(st, buf, pos) := km_st o in
  st <- Customize 24 salt (if (0 <? length info)%nat then info else [0x4B; 0x4D; 0x41; 0x43]) rate st ;;
  r <- load_key 24 key rate st ;;
  Ok (Kmac (snd r, buf, pos) true).
(** KMAC.cpp:229-274 Update *)
Definition KMAC_Update (rate : nat) (o : kmac_obj) (inp : list Z) (io len : nat) : res kmac_obj :=
  _ <- guard (km_init o) NotInitialized ;;
  _ <- guard (negb ((io <=? length inp)%nat && (length inp - io <? len)%nat)) InvalidSize ;;
  s <- eager_update rate (absorb_step (Permute 24) rate) (km_st o) inp io len ;;
  Ok (Kmac s true).
(** the loops [for (i = 0; i < n; ++i) Le64ToBytes(State[i], Output, OutOffset + 8 * i)] *)
Definition put_words (st out : list Z) (oo n : nat) : res (list Z) :=
  for_up 0 n (fun i out => x <- get st i ;; Le64ToBytes x out (oo + 8 * i)) out.
(** KMAC.cpp:320-353 Squeeze; the fuel of [while (Length >= Rate)] is Length *)
Fixpoint kmac_blocks (fuel rate : nat) (st out : list Z) (oo len : nat) : res (list Z * list Z * nat * nat) :=
  match fuel with
  | O => Ok (st, out, oo, len)
  | S k =>
    if (rate <=? len)%nat then
      let st := Permute 24 st in
      out <- put_words st out oo (rate / 8) ;;
      kmac_blocks k rate st out (oo + rate) (len - rate)
    else Ok (st, out, oo, len)
  end.
Definition KMAC_Squeeze (rate : nat) (st out : list Z) (oo len : nat) : res (list Z * list Z) :=
  r <- kmac_blocks len rate st out oo len ;;
  let '(st, out, oo, len) := r in
  if (len =? 0)%nat then Ok (st, out) else
  let st := Permute 24 st in
  out <- put_words st out oo (len / 8) ;;
  let rest := (len - 8 * (len / 8))%nat in
  if (rest =? 0)%nat then Ok (st, out) else
  x <- get st (len / 8) ;;
  out <- wr out (oo + 8 * (len / 8)) (firstn rest (le_bytes 8 x)) ;;
  Ok (st, out).
(** KMAC.cpp:142-183 Finalize(SecureVector Output, OutOffset); [tag] is TagSize().  The whole rest of Output is
    filled and its length enters the encoding.  The object stays initialized, State is left as squeezed *)
Definition KMAC_Finalize (rate tag : nat) (o : kmac_obj) (out : list Z) (oo : nat) : res (kmac_obj * list Z) :=
  _ <- guard (km_init o) NotInitialized ;;
  _ <- safe (oo <=? length out)%nat ;;
  _ <- guard (negb (length out - oo <? tag)%nat) InvalidSize ;;
  let '(st, buf, pos) := km_st o in
  buf <- (if (pos =? length buf)%nat then Ok buf else clear_from buf pos) ;;
  let olen := (length out - oo)%nat in
  r <- RightEncode (zeros 9) 0 (u64 (Z.of_nat olen * 8)) ;;
  let '(enc, blen) := r in
  buf <- for_up 0 blen (fun i buf => x <- get enc i ;; put buf (pos + i) x) buf ;;
  let pos := (pos + blen)%nat in
  buf <- put buf pos 4 ;;
  buf <- set_top rate buf ;;
  st <- FastAbsorb buf 0 rate st ;;
  r <- KMAC_Squeeze rate st out oo olen ;;
  let '(st, out) := r in
  Ok (Kmac (st, zeros (length buf), 0%nat) true, out).
(** KMAC.cpp:117-130 Compute; the std::vector Finalize it calls (:132-140) uses a temporary of the same length *)
Definition KMAC_Compute (rate tag : nat) (o : kmac_obj) (inp out : list Z) : res (kmac_obj * list Z) :=
  _ <- guard (km_init o) NotInitialized ;;
  _ <- guard (negb (length out <? tag)%nat) InvalidSize ;;
  o <- KMAC_Update rate o inp 0 (length inp) ;;
  KMAC_Finalize rate tag o out 0.
