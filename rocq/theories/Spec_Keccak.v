(** FIPS 202: the Keccak-p[1600] permutations, the sponge, SHA3 and SHAKE; SP 800-185: the string
    encodings, cSHAKE and KMAC.  No model definition is used here.
    A state is a list of 25 lanes of 64 bits; lane (x, y) is number x + 5 * y. *)
From Verif Require Import Base.
Open Scope Z_scope.

Definition rotl64 (n x : Z) : Z := Z.lor ((Z.shiftl x n) mod 2 ^ 64) (Z.shiftr x (64 - n)).
Definition not64 (x : Z) : Z := (- x - 1) mod 2 ^ 64.
Definition lane (A : list Z) (x y : nat) : Z := nth (x mod 5 + 5 * (y mod 5)) A 0.
(** the state whose lane (x, y) is [f x y] *)
Definition lanes (f : nat -> nat -> Z) : list Z := map (fun i => f (i mod 5)%nat (i / 5)%nat) (seq 0 25).

(** the 1600-bit states *)
Definition is_state (A : list Z) : Prop := length A = 25%nat /\ Forall (fun x => 0 <= x < 2 ^ 64) A.

(** 3.2.1 *)
Definition column (A : list Z) (x : nat) : Z :=
  Z.lxor (Z.lxor (Z.lxor (Z.lxor (lane A x 0) (lane A x 1)) (lane A x 2)) (lane A x 3)) (lane A x 4).
Definition theta (A : list Z) : list Z :=
  lanes (fun x y => Z.lxor (lane A x y) (Z.lxor (column A (x + 4)) (rotl64 1 (column A (x + 1))))).
(** 3.2.2: the offsets, by the walk (x, y) -> (y, 2 x + 3 y) that starts at (1, 0) *)
Fixpoint rho_walk (n : nat) (t x y : nat) : list (nat * nat * nat) :=
  match n with
  | O => []
  | S k => (x, y, ((t + 1) * (t + 2) / 2) mod 64)%nat :: rho_walk k (t + 1) y ((2 * x + 3 * y) mod 5)
  end.
Definition rho_offset (x y : nat) : nat :=
  match find (fun e => Nat.eqb (fst (fst e)) x && Nat.eqb (snd (fst e)) y) (rho_walk 24 0 1 0) with
  | Some e => snd e | None => 0 end.
Definition rho (A : list Z) : list Z := lanes (fun x y => rotl64 (Z.of_nat (rho_offset x y)) (lane A x y)).
(** 3.2.3 *)
Definition pi (A : list Z) : list Z := lanes (fun x y => lane A (x + 3 * y) x).
(** 3.2.4 *)
Definition chi (A : list Z) : list Z :=
  lanes (fun x y => Z.lxor (lane A x y) (Z.land (not64 (lane A (x + 1) y)) (lane A (x + 2) y))).
(** 3.2.5: the bits of the round constants come from a linear feedback shift register *)
Definition lfsr_step (r : list bool) : list bool :=
  match r with
  | [r0; r1; r2; r3; r4; r5; r6; r7] => [r7; r0; r1; r2; xorb r3 r7; xorb r4 r7; xorb r5 r7; r6]
  | _ => r
  end.
Definition rc (t : nat) : bool := hd false (Nat.iter (t mod 255) lfsr_step [true; false; false; false; false; false; false; false]).
Definition RC (i : nat) : Z :=
  fold_right Z.add 0 (map (fun j => if rc (j + 7 * i) then 2 ^ (2 ^ Z.of_nat j - 1) else 0) (seq 0 7)).
Definition iota (c : Z) (A : list Z) : list Z := lanes (fun x y => if Nat.eqb (x + 5 * y) 0 then Z.lxor (lane A 0 0) c else lane A x y).
(** 3.3: rounds 0 .. n - 1; FIPS 202 has n = 24 *)
Definition keccak_round (A : list Z) (i : nat) : list Z := iota (RC i) (chi (pi (rho (theta A)))).
Definition keccak (n : nat) (A : list Z) : list Z := fold_left keccak_round (seq 0 n) A.

(** * the sponge, 4 *)
Definition lane_words (b : list Z) : list Z := map le_val (chunks 8 b).
Definition lane_bytes (A : list Z) : list Z := concat (map (le_bytes 8) A).
Definition xor_lanes (A B : list Z) : list Z := map (fun p => Z.lxor (fst p) (snd p)) (combine A B).
Definition zero_state : list Z := zeros 25.
(** pad10*1 after the domain bits; [dom] is the byte that starts with them (FIPS 202, B.2) *)
Definition sponge_pad (rate : nat) (dom : Z) (m : list Z) : list Z :=
  let q := (rate - length m mod rate)%nat in
  m ++ (if (q =? 1)%nat then [Z.lor dom 128] else dom :: zeros (q - 2) ++ [128]).
Section sponge.
Variables (f : list Z -> list Z) (rate : nat).
(** xor a block of [rate] bytes into the state and permute *)
Definition absorb_block (A b : list Z) : list Z := f (xor_lanes A (lane_words (b ++ zeros (200 - rate)))).
Definition absorb (A : list Z) (m : list Z) : list Z := fold_left absorb_block (chunks rate m) A.
(** the output stream: [rate] bytes of the state, permute, and so on *)
Fixpoint squeeze (k : nat) (A : list Z) : list Z :=
  match k with O => [] | S k => firstn rate (lane_bytes A) ++ squeeze k (f A) end.
Definition sponge (A0 : list Z) (dom : Z) (m : list Z) (n : nat) : list Z :=
  firstn n (squeeze (n / rate + 1) (absorb A0 (sponge_pad rate dom m))).
End sponge.

(** 6.1, 6.2 *)
Definition sha3_256 (m : list Z) : list Z := sponge (keccak 24) 136 zero_state 6 m 32.
Definition sha3_512 (m : list Z) : list Z := sponge (keccak 24) 72 zero_state 6 m 64.
Definition shake (rounds rate : nat) (m : list Z) (n : nat) : list Z := sponge (keccak rounds) rate zero_state 31 m n.

(** * SP 800-185 *)
(** 2.3.1: the value in the least number of bytes, at least one, with that number in front or behind *)
Definition byte_len (x : Z) : nat := Z.to_nat (Z.log2 x / 8 + 1).
Definition left_encode (x : Z) : list Z := Z.of_nat (byte_len x) :: be_bytes (byte_len x) x.
Definition right_encode (x : Z) : list Z := be_bytes (byte_len x) x ++ [Z.of_nat (byte_len x)].
(** 2.3.2 *)
Definition encode_string (s : list Z) : list Z := left_encode (8 * Z.of_nat (length s)) ++ s.
(** 2.3.3 *)
Definition bytepad (x : list Z) (w : nat) : list Z :=
  let z := left_encode (Z.of_nat w) ++ x in z ++ zeros ((w - length z mod w) mod w).
(** 3.3: [n] bytes of cSHAKE, function name [name], customization [cust] *)
Definition cshake (rounds rate : nat) (x : list Z) (n : nat) (name cust : list Z) : list Z :=
  if (length name + length cust =? 0)%nat then shake rounds rate x n
  else sponge (keccak rounds) rate zero_state 4 (bytepad (encode_string name ++ encode_string cust) rate ++ x) n.
(** 4.3: [n] bytes; "KMAC" = 4B 4D 41 43 *)
Definition kmac (rounds rate : nat) (key m : list Z) (n : nat) (cust : list Z) : list Z :=
  cshake rounds rate (bytepad (encode_string key) rate ++ m ++ right_encode (8 * Z.of_nat n)) n [75; 77; 65; 67] cust.
