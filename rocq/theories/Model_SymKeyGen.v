(** Model of CEX/SymmetricKeyGenerator.cpp: keys made by SHAKE from a seed of an entropy provider. *)
From Verif Require Import Base Model_IntegerTools Model_Modes Model_Keys Model_AsymmetricSecureKey Model_SHAKE.
Open Scope Z_scope.

(** Providers.h, Providers.cpp:5-32 ToName, the bytes of the name; ProviderBase.cpp:37-40 Name *)
Inductive providers := PNone | ACP | CJP | CSP | ECP | RDP.
Definition provider_name (t : providers) : list Z :=
  match t with ACP => [65; 67; 80] | CJP => [67; 74; 80] | CSP => [67; 83; 80] | ECP => [69; 67; 80] | RDP => [82; 68; 80] | PNone => [78; 111; 110; 101] end.
(** the machine: ProviderFromName.cpp:17-66 makes an object of the type asked for, or ECP for CJP and RDP where the processor has no time
    stamp counter or no random numbers ([mc_tsc], [mc_rdrand]); [mc_bytes t c n] are the [n] bytes of the [c]-th request to a provider in the process *)
Record machine := Machine { mc_tsc : bool; mc_rdrand : bool; mc_bytes : providers -> nat -> nat -> res (list Z) }.
Definition ProviderFromName_GetInstance (M : machine) (t : providers) : res providers :=
  match t with
  | PNone => Throw InvalidParam
  | CJP => Ok (if mc_tsc M then CJP else ECP)
  | RDP => Ok (if mc_rdrand M then RDP else ECP)
  | t => Ok t
  end.
(** SymmetricKeyGenerator.cpp:11 CLASS_NAME *)
Definition generator_name : list Z := [83; 121; 109; 109; 101; 116; 114; 105; 99; 75; 101; 121; 71; 101; 110; 101; 114; 97; 116; 111; 114].
(** Digests.cpp ToName through ShakeModes.cpp:5-8, SHAKE.cpp:67; Keccak.h KECCAK256_RATE_SIZE, KECCAK512_RATE_SIZE *)
Definition shake_name (m : shake) : list Z := match m with SHAKE256 => [83; 72; 65; 75; 69; 50; 53; 54] | SHAKE512 => [83; 72; 65; 75; 69; 53; 49; 50] end.
Definition shake_rate (m : shake) : nat := match m with SHAKE256 => 136 | SHAKE512 => 72 end.

(** SymmetricKeyGenerator.cpp:15-22 the object *)
Record keygen := KeyGen { kg_prov : providers; kg_pol : policy }.
Definition SymmetricKeyGenerator_new (p : policy) (t : providers) : res keygen :=
  match t with PNone => Throw InvalidParam | _ => if policy_none p then Throw InvalidParam else Ok (KeyGen t p) end.
(** SymmetricKeyGenerator.cpp:162-188: mode and klen *)
Definition generator_mode (p : policy) : shake * nat :=
  match p with
  | SPL256 | SPL256AE => (SHAKE256, 32%nat)
  | SPL512 | SPL512AE => (SHAKE512, 64%nat)
  | _ => (SHAKE256, 32%nat)
  end.
(** SymmetricKeyGenerator.cpp:160-205 Generate(Provider, Policy, Output, Offset, Length).  [c] requests were made before.  The provider object
    is never deleted: not represented *)
Definition generate (M : machine) (g : keygen) (c : nat) (out : list Z) (oo len : nat) : res (nat * list Z) :=
  let '(mode, klen) := generator_mode (kg_pol g) in
  t <- ProviderFromName_GetInstance M (kg_prov g) ;;
  tmpk <- mc_bytes M t c klen ;;
  let tmpc := generator_name ++ provider_name t ++ shake_name mode in
  gen <- SHAKE_Initialize (shake_rate mode) SHAKE_new tmpk tmpc [] ;;
  r <- SHAKE_Generate (shake_rate mode) gen out oo len ;;
  Ok (S c, snd r).
(** SymmetricKeyGenerator.cpp:46-79 and 93-125: the arrays of a key object; the sizes are those of a SymmetricKeySize *)
Definition key_arrays (M : machine) (g : keygen) (c : nat) (k v i : nat) : res (nat * (list Z * list Z * list Z)) :=
  _ <- guard (negb (k =? 0)%nat) InvalidSize ;;
  if negb (v =? 0)%nat then
    if negb (i =? 0)%nat then
      r <- generate M g c (zeros k) 0 k ;;
      let '(c, tmpk) := r in
      r <- generate M g c (zeros v) 0 v ;;
      let '(c, tmpn) := r in
      r <- generate M g c (zeros i) 0 i ;;
      let '(c, tmpi) := r in
      Ok (c, (tmpk, tmpn, tmpi))
    else
      r <- generate M g c (zeros k) 0 k ;;
      let '(c, tmpk) := r in
      r <- generate M g c (zeros v) 0 v ;;
      let '(c, tmpn) := r in
      Ok (c, (tmpk, tmpn, []))
  else
    r <- generate M g c (zeros k) 0 k ;;
    let '(c, tmpk) := r in
    Ok (c, (tmpk, [], [])).
(** SymmetricKeyGenerator.cpp:37-82 *)
Definition GetSymmetricKey (M : machine) (g : keygen) (c k v i : nat) : res (nat * skey) :=
  r <- key_arrays M g c k v i ;;
  let '(c, (tmpk, tmpn, tmpi)) := r in
  s <- SymmetricKey_new tmpk tmpn tmpi ;; Ok (c, s).
(** SymmetricKeyGenerator.cpp:84-128; [new] is the constructor of SymmetricSecureKey (SecureKey_new of Model_Keys.v) *)
Definition GetSecureKey {K : Type} (new : list Z -> list Z -> list Z -> res K) (M : machine) (g : keygen) (c k v i : nat) : res (nat * K) :=
  r <- key_arrays M g c k v i ;;
  let '(c, (tmpk, tmpn, tmpi)) := r in
  s <- new tmpk tmpn tmpi ;; Ok (c, s).
(** SymmetricKeyGenerator.cpp:130-142 Generate(Output, Offset, Length): the sum of two size_t *)
Definition Generate_at (M : machine) (g : keygen) (c : nat) (out : list Z) (oo len : nat) : res (nat * list Z) :=
  _ <- guard (negb (len =? 0)%nat) InvalidSize ;;
  _ <- guard (negb (Z.of_nat (length out) <? (Z.of_nat oo + Z.of_nat len) mod 2 ^ 64)) InvalidSize ;;
  generate M g c out oo len.
(** SymmetricKeyGenerator.cpp:144-156 Generate(Length) *)
Definition Generate_new (M : machine) (g : keygen) (c len : nat) : res (nat * list Z) :=
  _ <- guard (negb (len =? 0)%nat) InvalidSize ;;
  generate M g c (zeros len) 0 len.
