(** C82 the symmetric key generator *)
From Coq Require Import String.
From Verif Require Import Base BaseLemmas Spec_Common Model_Keys Model_AsymmetricSecureKey Model_SymKeyGen Spec_SymKeyGen Proofs_SymKeyGen ProofsP_SymKeyGen.
Open Scope string_scope.
Open Scope list_scope.
Open Scope Z_scope.

(** C82: a generated key object holds a key of the size asked for, and a nonce and an information string of the sizes asked for; each is the output of cSHAKE
    for its own request to the provider.  A secure key is made from the same arrays.  (Without a nonce there is no information string: see below) *)
Theorem C82_key : forall (M : machine) (g : keygen) (c k v i : nat),
  machine_ok M -> kg_prov g <> PNone -> (0 < k)%nat -> not_too_long g k -> not_too_long g v -> not_too_long g i ->
  exists c' key iv info, GetSymmetricKey M g c k v i = Ok (c', SKey key iv info) /\
    (forall (K : Type) (new : list Z -> list Z -> list Z -> res K) s, new key iv info = Ok s -> GetSecureKey new M g c k v i = Ok (c', s)) /\
    length key = k /\ output_of M g c k key /\
    (if (v =? 0)%nat then iv = [] else length iv = v /\ output_of M g (c + 1) v iv) /\
    (if ((v =? 0) || (i =? 0))%nat then info = [] else length info = i /\ output_of M g (c + 2) i info).
Proof. exact c82_key. Qed.
Print Assumptions C82_key.
Example C82_case : machine_ok toym /\ not_too_long (KeyGen CJP SPL512AE) 64 /\ used toym CJP = ECP /\ mc_bytes toym ECP 5 2 = Ok [5; 5] /\
  text (String.append "SymmetricKeyGenerator" (String.append (called ECP) "SHAKE512")) = generator_name ++ [69; 67; 80] ++ [83; 72; 65; 75; 69; 53; 49; 50].
Proof. split; [exact toym_ok|]. split; [vm_compute; discriminate|]. repeat split. Qed.

(** C82: Generate returns, or writes to exactly its window, cSHAKE of one request; a window that does not fit is refused *)
Theorem C82_bytes : forall (M : machine) (g : keygen) (c n : nat), machine_ok M -> kg_prov g <> PNone -> (0 < n)%nat -> not_too_long g n ->
  (exists x, Generate_new M g c n = Ok (S c, x) /\ length x = n /\ output_of M g c n x) /\
  (forall out oo, Z.of_nat (length out) < 2 ^ 64 -> (oo + n <= length out)%nat ->
     exists x out', Generate_at M g c out oo n = Ok (S c, out') /\ output_of M g c n x /\ length x = n /\ written out out' oo x) /\
  (forall out oo, Z.of_nat oo + Z.of_nat n < 2 ^ 64 -> (length out < oo + n)%nat -> Generate_at M g c out oo n = Throw InvalidSize).
Proof. exact c82_bytes. Qed.
Print Assumptions C82_bytes.
Example C82_bytes_case : not_too_long (KeyGen ACP SPL256) 200 /\ Generate_at toym (KeyGen ACP SPL256) 0 (zeros 10) 4 7 = Throw InvalidSize.
Proof. split; [vm_compute; discriminate|reflexivity]. Qed.

(** C82: None is refused by the constructor, a size of zero by every function *)
Theorem C82_guards : forall (p : policy) (t : providers) (M : machine) (g : keygen) (c v i : nat) (out : list Z) (oo : nat),
  (SymmetricKeyGenerator_new p t = Throw InvalidParam <-> p = SPNone \/ t = PNone) /\
  GetSymmetricKey M g c 0 v i = Throw InvalidSize /\ (forall (K : Type) (new : list Z -> list Z -> list Z -> res K), GetSecureKey new M g c 0 v i = Throw InvalidSize) /\
  Generate_new M g c 0 = Throw InvalidSize /\ Generate_at M g c out oo 0 = Throw InvalidSize.
Proof. exact c82_guards. Qed.
Print Assumptions C82_guards.

(** C82: an information string is asked for without a nonce: the key has none *)
Theorem C82_info_refuted : forall (M : machine) (g : keygen) (c k i : nat), machine_ok M -> kg_prov g <> PNone -> (0 < k)%nat -> not_too_long g k -> not_too_long g i ->
  exists c' key, GetSymmetricKey M g c k 0 i = Ok (c', SKey key [] []) /\ length key = k.
Proof. exact c82_info. Qed.
Print Assumptions C82_info_refuted.

(** C82: the 1024-bit policies make the keys of the 256-bit policy, from seeds of 256 bits *)
Theorem C82_policies_refuted : forall (M : machine) (t : providers) (c k v i : nat) (p : policy), p = SPL256AE \/ p = SPL1024 \/ p = SPL1024AE ->
  GetSymmetricKey M (KeyGen t p) c k v i = GetSymmetricKey M (KeyGen t SPL256) c k v i.
Proof. exact c82_policies. Qed.
Print Assumptions C82_policies_refuted.

(** C82: with an offset so large that offset and length wrap around, Generate writes outside of the array *)
Theorem C82_window_refuted : forall (M : machine) (g : keygen) (c : nat) (out : list Z) (oo n : nat), machine_ok M -> kg_prov g <> PNone -> (0 < n < 72)%nat -> (length out < oo)%nat ->
  (Z.of_nat oo + Z.of_nat n) mod 2 ^ 64 <= Z.of_nat (length out) -> Generate_at M g c out oo n = UB.
Proof. exact c82_window. Qed.
Print Assumptions C82_window_refuted.
Example C82_window_case : exists oo : nat, (length (zeros 16) < oo)%nat /\ (Z.of_nat oo + Z.of_nat 16) mod 2 ^ 64 <= Z.of_nat (length (zeros 16)).
Proof. exists (Z.to_nat (2 ^ 64 - 8)). rewrite length_zeros. rewrite Z2Nat.id by lia. split; [lia|]. vm_compute. discriminate. Qed.
