(** HKDF (RFC 5869), KDF2 (ISO 18033-2) and PBKDF2 (RFC 2898). *)
From Verif Require Import Base.
Open Scope Z_scope.

(** ** RFC 5869 over the MAC [HM key message] with tags of [n] bytes *)
(** 2.2: PRK = HMAC-Hash(salt, IKM) *)
Definition hkdf_extract (HM : list Z -> list Z -> list Z) (salt ikm : list Z) : list Z := HM salt ikm.
(** the pseudo-random key when the salt is optional and its absence means that the key is used as it is (section 3.3) *)
Definition hkdf_prk (HM : list Z -> list Z -> list Z) (ikm salt : list Z) : list Z := match salt with [] => ikm | _ => hkdf_extract HM salt ikm end.
(** 2.3: T(0) is empty, T(i) = HMAC-Hash(PRK, T(i-1) | info | i), the counter i being one byte *)
Fixpoint hkdf_T (HM : list Z -> list Z -> list Z) (prk info : list Z) (i : nat) : list Z :=
  match i with
  | O => []
  | S j => HM prk (hkdf_T HM prk info j ++ info ++ [Z.of_nat i mod 256])
  end.
(** the blocks T(a+1) | ... | T(a+count) of a sequence *)
Definition blocks_from (T : nat -> list Z) (a count : nat) : list Z := concat (map T (seq a count)).
(** the number of blocks of [n] bytes that hold [len] bytes *)
Definition blocks_for (n len : nat) : nat := ((len + n - 1) / n)%nat.
(** OKM = first L octets of T(1) | T(2) | ... *)
Definition hkdf_expand (HM : list Z -> list Z -> list Z) (n : nat) (prk info : list Z) (len : nat) : list Z :=
  firstn len (blocks_from (hkdf_T HM prk info) 1 (blocks_for n len)).

(** ** ISO 18033-2 6.2.3, over the hash [H]: block i is Hash(Z | i as four bytes | other info), i = 1, 2, ... *)
Definition kdf2_block (H : list Z -> list Z) (z other : list Z) (i : nat) : list Z := H (z ++ be_bytes 4 (Z.of_nat i) ++ other).
Definition kdf2 (H : list Z -> list Z) (n : nat) (z other : list Z) (len : nat) : list Z :=
  firstn len (blocks_from (kdf2_block H z other) 1 (blocks_for n len)).

(** ** RFC 2898 5.2, PRF = [HM] *)
(** U_1 = PRF(P, S | INT(i)), U_(j+1) = PRF(P, U_j) *)
Fixpoint pbkdf2_U (HM : list Z -> list Z -> list Z) (p s : list Z) (i j : nat) : list Z :=
  match j with
  | O => HM p (s ++ be_bytes 4 (Z.of_nat i))
  | S j' => HM p (pbkdf2_U HM p s i j')
  end.
(** F = U_1 xor ... xor U_c; the argument is c - 1 *)
Fixpoint pbkdf2_F (HM : list Z -> list Z -> list Z) (p s : list Z) (c' i : nat) : list Z :=
  match c' with
  | O => pbkdf2_U HM p s i 0
  | S j => xorl (pbkdf2_F HM p s j i) (pbkdf2_U HM p s i (S j))
  end.
Definition pbkdf2 (HM : list Z -> list Z -> list Z) (n : nat) (p s : list Z) (c len : nat) : list Z :=
  firstn len (blocks_from (pbkdf2_F HM p s (c - 1)) 1 (blocks_for n len)).
