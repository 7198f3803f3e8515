(** C43, C52, C55: the key containers *)
From Verif Require Import Base Model_Keys Spec_Keys ProofsP_Keys.
Open Scope Z_scope.

(** C43: a key whose parts each have fewer than 65536 bytes serializes to the documented form *)
Theorem C43_format : forall key iv info : list Z,
  (length key < 256 * 256)%nat -> (length iv < 256 * 256)%nat -> (length info < 256 * 256)%nat ->
  SymmetricKey_Serialize (SKey key iv info) = Ok (key_stream key iv info).
Proof. exact c43_format. Qed.
Print Assumptions C43_format.

(** C43: ... and DeSerialize gives the same key back, whatever follows it in the stream *)
Theorem C43_round_trip : forall key iv info rest s : list Z,
  bytes key -> bytes iv -> bytes info -> bytes rest ->
  (length key < 256 * 256)%nat -> (length iv < 256 * 256)%nat -> (length info < 256 * 256)%nat ->
  (0 < length key + length iv + length info)%nat ->
  SymmetricKey_Serialize (SKey key iv info) = Ok s ->
  SymmetricKey_DeSerialize (s ++ rest) = Ok (SKey key iv info).
Proof. exact c43_round_trip. Qed.
Print Assumptions C43_round_trip.
Example C43_round_trip_case :
  exists s, SymmetricKey_Serialize (SKey [1; 2; 3] [9] []) = Ok s /\ s = [3; 0; 1; 0; 0; 0; 1; 2; 3; 9] /\
  SymmetricKey_DeSerialize (s ++ [7; 7]) = Ok (SKey [1; 2; 3] [9] []).
Proof. eexists. split; [reflexivity|]. split; reflexivity. Qed.

(** C43: two such keys with the same serialization are the same key *)
Theorem C43_injective : forall k1 v1 i1 k2 v2 i2 s : list Z,
  bytes k1 -> bytes v1 -> bytes i1 -> bytes k2 -> bytes v2 -> bytes i2 ->
  Forall (fun l => length l < 256 * 256)%nat [k1; v1; i1; k2; v2; i2] ->
  SymmetricKey_Serialize (SKey k1 v1 i1) = Ok s -> SymmetricKey_Serialize (SKey k2 v2 i2) = Ok s ->
  k1 = k2 /\ v1 = v2 /\ i1 = i2.
Proof. exact c43_injective. Qed.
Print Assumptions C43_injective.

(** C43: DeSerialize on every byte string.  A string shorter than its header says is read out of bounds *)
Theorem C43_every_stream : forall s : list Z, bytes s ->
  let k := size_at s 0 in let v := size_at s 2 in let i := size_at s 4 in
  (* undefined: the header is cut, or the arrays are *)
  (SymmetricKey_DeSerialize s = UB <-> (length s < 6 \/ 0 < k + v + i /\ length s < 6 + k + v + i)%nat) /\
  (* refused: nothing in it *)
  (SymmetricKey_DeSerialize s = Throw InvalidParam <-> (6 <= length s /\ k + v + i = 0)%nat) /\
  (* accepted: the three arrays are the three stretches after the header *)
  (forall key iv info, SymmetricKey_DeSerialize s = Ok (SKey key iv info) <->
     (0 < k + v + i)%nat /\ length key = k /\ length iv = v /\ length info = i /\
     exists h rest, length h = 6%nat /\ s = h ++ key ++ iv ++ info ++ rest).
Proof. exact c43_every_stream. Qed.
Print Assumptions C43_every_stream.
Example C43_every_stream_case :
  SymmetricKey_DeSerialize [2; 0; 0; 0; 1; 0; 5; 6; 7; 8] = Ok (SKey [5; 6] [] [7]) /\
  SymmetricKey_DeSerialize [2; 0; 0; 0; 1; 0; 5; 6] = UB /\ SymmetricKey_DeSerialize [0; 0; 0; 0; 0; 0; 9] = Throw InvalidParam.
Proof. repeat split. Qed.

(** C43: a key longer than 65535 bytes comes back cut to its length modulo 65536 *)
Theorem C43_long_key_refuted : forall (key : list Z) (j : nat),
  bytes key -> (0 < j < 256 * 256)%nat -> length key = (256 * 256 + j)%nat ->
  exists s, SymmetricKey_Serialize (SKey key [] []) = Ok s /\ SymmetricKey_DeSerialize s = Ok (SKey (firstn j key) [] []).
Proof. exact c43_long. Qed.
Print Assumptions C43_long_key_refuted.
(** C43: a key of exactly 65536 bytes with an IV is dropped *)
Theorem C43_exact_65536_refuted : forall key iv : list Z,
  bytes key -> bytes iv -> length key = (256 * 256)%nat -> (0 < length iv < 256 * 256)%nat ->
  exists s, SymmetricKey_Serialize (SKey key iv []) = Ok s /\ SymmetricKey_DeSerialize s = Ok (SKey [] iv []).
Proof. exact c43_exact. Qed.
Print Assumptions C43_exact_65536_refuted.
Example C43_long_case : bytes (repeat 7 (256 * 256 + 5)) /\ length (repeat 7 (256 * 256 + 5)) = (256 * 256 + 5)%nat.
Proof. exact c43_long_case. Qed.

(** C43: the key-size triple: its twelve bytes give it back; anything shorter is refused *)
Theorem C43_key_sizes : forall (k v i : Z) (rest : list Z), 0 <= k < 2 ^ 32 -> 0 <= v < 2 ^ 32 -> 0 <= i < 2 ^ 32 ->
  exists s, KeySize_ToBytes (KeySize_new k v i) = Ok s /\ length s = 12%nat /\ KeySize_of (s ++ rest) = Ok (KSize k v i) /\
  forall cut, (length cut < 12)%nat -> KeySize_of cut = Throw InvalidSize.
Proof. exact c43_sizes. Qed.
Print Assumptions C43_key_sizes.
Example C43_key_sizes_case : KeySize_ToBytes (KeySize_new 32 16 0) = Ok [0; 0; 0; 0; 32; 0; 0; 0; 16; 0; 0; 0].
Proof. reflexivity. Qed.

(** C52: an asymmetric key made by the constructor round-trips *)
Theorem C52_round_trip : forall (poly : list Z) (prim class params : Z) (k : akey) (s : list Z),
  is_byte prim -> is_byte class -> is_byte params ->
  AsymmetricKey_new poly prim class params = Ok k -> AsymmetricKey_Serialize k = Ok s ->
  s = asym_stream poly prim class params /\ AsymmetricKey_DeSerialize s = Ok k.
Proof. exact c52_round_trip. Qed.
Print Assumptions C52_round_trip.
Example C52_case : exists k s, AsymmetricKey_new [11; 12] 3 2 5 = Ok k /\ AsymmetricKey_Serialize k = Ok s /\ s = [2; 5; 3; 11; 12].
Proof. eexists. eexists. split; [reflexivity|]. split; reflexivity. Qed.

(** C52: the constructor takes exactly a nonempty polynomial and three names that are not None *)
Theorem C52_constructor : forall (poly : list Z) (prim class params : Z),
  (poly <> [] /\ prim <> 0 /\ class <> 0 /\ params <> 0 -> AsymmetricKey_new poly prim class params = Ok (AKey poly prim class params)) /\
  (poly = [] \/ prim = 0 \/ class = 0 \/ params = 0 -> AsymmetricKey_new poly prim class params = Throw InvalidParam).
Proof. exact c52_new. Qed.
Print Assumptions C52_constructor.

(** C52: DeSerialize on every byte string: fewer than three bytes is undefined, an empty polynomial or a None is refused, the rest is taken *)
Theorem C52_every_stream : forall s : list Z,
  (AsymmetricKey_DeSerialize s = UB <-> (length s < 3)%nat) /\
  (forall class params prim poly, s = class :: params :: prim :: poly ->
     poly <> [] /\ prim <> 0 /\ class <> 0 /\ params <> 0 -> AsymmetricKey_DeSerialize s = Ok (AKey poly prim class params)) /\
  (forall class params prim poly, s = class :: params :: prim :: poly ->
     poly = [] \/ prim = 0 \/ class = 0 \/ params = 0 -> AsymmetricKey_DeSerialize s = Throw InvalidParam).
Proof. exact c52_every_stream. Qed.
Print Assumptions C52_every_stream.

(** C55: the encrypting key container gives back what was put in, for any cipher that decrypts what it encrypts
    (with or without a tag appended), any machine key and salt *)
Theorem C55_contents : forall (P : Type) (isnone : P -> bool) (default : P) (sys : P -> list Z -> res (list Z)) (enc dec : P -> list Z -> list Z -> res (list Z)),
  (forall p seed pt ct, enc p seed pt = Ok ct -> dec p seed ct = Ok pt /\ (length pt <= length ct)%nat) ->
  forall (key iv info salt : list Z) (pol : P) (s : sskey P),
  Z.of_nat (length key) < 2 ^ 32 -> Z.of_nat (length iv) < 2 ^ 32 -> Z.of_nat (length info) < 2 ^ 32 ->
  SecureKey_new default sys enc key iv info = Ok s \/ SecureKey_new_salted isnone sys enc key iv info pol salt = Ok s ->
  SecureKey_Key sys dec s = Ok key /\ SecureKey_IV sys dec s = Ok iv /\ SecureKey_Info sys dec s = Ok info /\
  SecureKey_Serialize sys dec s = SymmetricKey_Serialize (SKey key iv info).
Proof. exact c55_contents. Qed.
Print Assumptions C55_contents.
(** C55: Clone of a salted key is the same key *)
Theorem C55_clone : forall (P : Type) (isnone : P -> bool) (sys : P -> list Z -> res (list Z)) (enc dec : P -> list Z -> list Z -> res (list Z)),
  (forall p seed pt ct, enc p seed pt = Ok ct -> dec p seed ct = Ok pt /\ (length pt <= length ct)%nat) ->
  forall (key iv info salt : list Z) (pol : P) (s : sskey P),
  Z.of_nat (length key) < 2 ^ 32 -> Z.of_nat (length iv) < 2 ^ 32 -> Z.of_nat (length info) < 2 ^ 32 ->
  SecureKey_new_salted isnone sys enc key iv info pol salt = Ok s -> SecureKey_Clone isnone sys enc dec s = Ok s.
Proof. exact c55_clone. Qed.
Print Assumptions C55_clone.
(** C55: Clone of a key made without a salt always throws *)
Theorem C55_clone_unsalted_refuted : forall (P : Type) (isnone : P -> bool) (default : P) (sys : P -> list Z -> res (list Z)) (enc dec : P -> list Z -> list Z -> res (list Z)),
  (forall p seed pt ct, enc p seed pt = Ok ct -> dec p seed ct = Ok pt /\ (length pt <= length ct)%nat) ->
  forall (key iv info : list Z) (s : sskey P),
  Z.of_nat (length key) < 2 ^ 32 -> Z.of_nat (length iv) < 2 ^ 32 -> Z.of_nat (length info) < 2 ^ 32 ->
  SecureKey_new default sys enc key iv info = Ok s -> SecureKey_Clone isnone sys enc dec s = Throw InvalidParam.
Proof. exact c55_clone_unsalted. Qed.
Print Assumptions C55_clone_unsalted_refuted.
(** a cipher that meets the hypothesis: xor with the seed, two bytes of tag *)
Example C55_case : (forall (p : bool) seed pt ct, toy_enc p seed pt = Ok ct -> toy_dec p seed ct = Ok pt /\ (length pt <= length ct)%nat) /\
  exists s, SecureKey_new_salted (fun _ => false) (fun _ _ => Ok [85; 3]) toy_enc [1; 2; 3] [4] [5] true [9] = Ok s.
Proof. exact c55_case. Qed.
