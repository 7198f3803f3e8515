(** FIPS 197 (AES) and the Rijndael round structure for any number of columns, written from the standard; nothing
    here mentions CEX. *)
From Verif Require Import Base.
Open Scope Z_scope.

(** * GF(2^8) with x^8 + x^4 + x^3 + x + 1, FIPS 197 section 4.2 *)
Definition xtime (a : Z) : Z := if a <? 128 then 2 * a else Z.lxor (2 * a) 0x11B.
(** sum over the bits of [b] of [a] times x^i *)
Fixpoint gmul_bits (n : nat) (a b : Z) : Z :=
  match n with O => 0 | S k => Z.lxor (if Z.odd b then a else 0) (gmul_bits k (xtime a) (b / 2)) end.
Definition gmul (a b : Z) : Z := gmul_bits 8 a b.
(** the inverse (0 for 0): a^254 = a^2 a^4 a^8 ... a^128 *)
Definition ginv (a : Z) : Z :=
  snd (Nat.iter 7 (fun p => let q := gmul (fst p) (fst p) in (q, gmul (snd p) q)) (a, 1)).

(** * SubBytes, section 5.1.1, and its inverse, section 5.3.2: bit i of the affine map *)
Definition bit (b : Z) (i : Z) : bool := Z.testbit b (i mod 8).
Definition of_bits (f : Z -> bool) : Z := fold_left (fun a i => a + (if f i then 2 ^ i else 0)) [0; 1; 2; 3; 4; 5; 6; 7] 0.
Definition affine (b : Z) : Z := of_bits (fun i => xorb (xorb (xorb (xorb (xorb (bit b i) (bit b (i + 4))) (bit b (i + 5))) (bit b (i + 6))) (bit b (i + 7))) (bit 0x63 i)).
Definition inv_affine (b : Z) : Z := of_bits (fun i => xorb (xorb (xorb (bit b (i + 2)) (bit b (i + 5))) (bit b (i + 7))) (bit 0x05 i)).
Definition sbox (x : Z) : Z := affine (ginv x).
Definition inv_sbox (x : Z) : Z := ginv (inv_affine x).

(** * the state: a list of 4 Nb bytes, byte r + 4 c is row r, column c *)
Definition sub_bytes (s : list Z) : list Z := map sbox s.
Definition inv_sub_bytes (s : list Z) : list Z := map inv_sbox s.
(** ShiftRows, section 5.1.2: row r is rotated left by [nth r offs]; AES: 0, 1, 2, 3 *)
Definition shift_rows (offs : list nat) (s : list Z) : list Z :=
  let nb := (length s / 4)%nat in
  map (fun i => nth (i mod 4 + 4 * ((i / 4 + nth (i mod 4) offs 0) mod nb))%nat s 0) (seq 0 (length s)).
Definition inv_shift_rows (offs : list nat) (s : list Z) : list Z :=
  let nb := (length s / 4)%nat in
  map (fun i => nth (i mod 4 + 4 * ((i / 4 + nb - nth (i mod 4) offs 0) mod nb))%nat s 0) (seq 0 (length s)).
(** MixColumns, section 5.1.3: every column times the circulant matrix with first row [c] *)
Definition mix_column (c col : list Z) : list Z :=
  map (fun r => fold_left Z.lxor (map (fun j => gmul (nth ((j + 4 - r) mod 4)%nat c 0) (nth j col 0)) (seq 0 4)) 0) (seq 0 4).
Definition mix_columns (s : list Z) : list Z := concat (map (mix_column [2; 3; 1; 1]) (chunks 4 s)).
Definition inv_mix_columns (s : list Z) : list Z := concat (map (mix_column [14; 11; 13; 9]) (chunks 4 s)).

(** * Cipher, section 5.1, and InvCipher, section 5.3, on a list of round keys *)
Fixpoint rounds (offs : list nat) (ks : list (list Z)) (s : list Z) : list Z :=
  match ks with
  | [] => s
  | [k] => xorl (shift_rows offs (sub_bytes s)) k
  | k :: t => rounds offs t (xorl (mix_columns (shift_rows offs (sub_bytes s))) k)
  end.
Definition rijndael (offs : list nat) (ks : list (list Z)) (s : list Z) : list Z :=
  match ks with [] => s | k :: t => rounds offs t (xorl s k) end.
Fixpoint inv_rounds (offs : list nat) (ks : list (list Z)) (s : list Z) : list Z :=
  match ks with
  | [] => s
  | [k] => xorl (inv_sub_bytes (inv_shift_rows offs s)) k
  | k :: t => inv_rounds offs t (inv_mix_columns (xorl (inv_sub_bytes (inv_shift_rows offs s)) k))
  end.
Definition inv_rijndael (offs : list nat) (ks : list (list Z)) (s : list Z) : list Z :=
  match rev ks with [] => s | k :: t => inv_rounds offs t (xorl s k) end.

(** * KeyExpansion, section 5.2: words are lists of four bytes *)
Definition rot_word (w : list Z) : list Z := tl w ++ firstn 1 w.
Definition rcon (i : nat) : list Z := [Nat.iter (i - 1) xtime 1; 0; 0; 0].
Definition next_word (nk : nat) (ws : list (list Z)) : list (list Z) :=
  let i := length ws in
  let t := last ws [] in
  let t := if (i mod nk =? 0)%nat then xorl (map sbox (rot_word t)) (rcon (i / nk))
           else if ((6 <? nk) && (i mod nk =? 4))%nat then map sbox t else t in
  ws ++ [xorl (nth (i - nk) ws []) t].
Definition key_expansion (key : list Z) : list (list Z) :=
  let nk := (length key / 4)%nat in
  Nat.iter (4 * (nk + 6 + 1) - nk) (next_word nk) (chunks 4 key).
(** round keys: four words each *)
Definition round_keys (ws : list (list Z)) : list (list Z) := chunks 16 (concat ws).

(** * AES *)
Definition aes_offsets : list nat := [0; 1; 2; 3]%nat.
Definition aes (key block : list Z) : list Z := rijndael aes_offsets (round_keys (key_expansion key)) block.
Definition inv_aes (key block : list Z) : list Z := inv_rijndael aes_offsets (round_keys (key_expansion key)) block.

(** FIPS 197, appendix C.1, C.2 and C.3 *)
Definition fips_key (n : nat) : list Z := map Z.of_nat (seq 0 n).
Definition fips_text : list Z := map (fun i => Z.of_nat i * 17) (seq 0 16).
Example fips_c1 : aes (fips_key 16) fips_text = [0x69; 0xc4; 0xe0; 0xd8; 0x6a; 0x7b; 0x04; 0x30; 0xd8; 0xcd; 0xb7; 0x80; 0x70; 0xb4; 0xc5; 0x5a].
Proof. vm_compute. reflexivity. Qed.
Example fips_c2 : aes (fips_key 24) fips_text = [0xdd; 0xa9; 0x7c; 0xa4; 0x86; 0x4c; 0xdf; 0xe0; 0x6e; 0xaf; 0x70; 0xa0; 0xec; 0x0d; 0x71; 0x91].
Proof. vm_compute. reflexivity. Qed.
Example fips_c3 : aes (fips_key 32) fips_text = [0x8e; 0xa2; 0xb7; 0xca; 0x51; 0x67; 0x45; 0xbf; 0xea; 0xfc; 0x49; 0x90; 0x4b; 0x49; 0x60; 0x89].
Proof. vm_compute. reflexivity. Qed.
