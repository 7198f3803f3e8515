(** A random generator on HMAC: what its calls should compute.  No model definition is used here. *)
From Verif Require Import Base Spec_Common Spec_MAC.
Open Scope Z_scope.

(** a hash with [rate]-byte blocks and [n]-byte digests, and the name of the generator *)
Section hmacgen.
Context (H : list Z -> list Z) (rate n : nat) (name : list Z).
Let mac := hmac H rate.
(** the counter moves on by the block size and a block is made of the last block, the code and the counter *)
Definition next_block (K code : list Z) (x : Z * list Z) : Z * list Z :=
  let c := (fst x + Z.of_nat rate) mod 2 ^ 64 in (c, mac K (snd x ++ code ++ be_bytes 8 c)).
Fixpoint next_blocks (K code : list Z) (k : nat) (x : Z * list Z) : list Z :=
  match k with O => [] | S k => let y := next_block K code x in snd y ++ next_blocks K code k y end.

(** the generator: HMAC key, code, counter and last block, of which [left] bytes have not been given out *)
Record hgen := HGen { hg_ready : bool; hg_key : list Z; hg_code : list Z; hg_x : Z * list Z; hg_left : nat; hg_since : Z; hg_reseeds : Z; hg_calls : nat }.
Definition hgen_new : hgen := HGen false [] [] (0, zeros n) 0 0 0 0.
(** blocks made for a request of [len] bytes *)
Definition needed (g : hgen) (len : nat) : nat := ((len - hg_left g + n - 1) / n)%nat.
Definition hnext_bytes (g : hgen) (len : nat) : list Z :=
  firstn len (skipn (n - hg_left g) (snd (hg_x g)) ++ next_blocks (hg_key g) (hg_code g) (needed g len) (hg_x g)).
(** after the request: when a block was made and only part of it was given out, that part is set to zero in the
    last block *)
Definition hadvance (g : hgen) (len : nat) : hgen :=
  let k := needed g len in
  let left := (hg_left g + k * n - len)%nat in
  let x := Nat.iter k (next_block (hg_key g) (hg_code g)) (hg_x g) in
  let V := if ((k =? 0) || (left =? 0))%nat then snd x else zeros (n - left) ++ skipn (n - left) (snd x) in
  HGen (hg_ready g) (hg_key g) (hg_code g) (fst x, V) left (hg_since g) (hg_reseeds g) (hg_calls g).
(** a new seed of half a block: it is the first half of the new key; the second half is the MAC of the next block *)
Definition hreseed (g : hgen) (seed : list Z) : hgen :=
  let x := next_block (hg_key g) (hg_code g) (hg_x g) in
  let K := seed ++ mac (hg_key g) (snd x) in
  HGen (hg_ready g) K (hg_code g) (next_block K (hg_code g) x) n (hg_since g) (hg_reseeds g) (hg_calls g).
(** a seed from the caller *)
Definition hupdated (g : hgen) (key : list Z) : hgen := hreseed g (mac (hg_key g) key).
(** a seed from the provider *)
Definition hprovided (p : nat -> nat -> list Z) (g : hgen) : hgen :=
  let g' := hreseed g (p (hg_calls g) (rate / 2)%nat) in
  HGen (hg_ready g') (hg_key g') (hg_code g') (hg_x g') (hg_left g') (hg_since g') (hg_reseeds g') (S (hg_calls g)).
Definition hwith_counts (g : hgen) (since reseeds : Z) : hgen :=
  HGen (hg_ready g) (hg_key g) (hg_code g) (hg_x g) (hg_left g) since reseeds (hg_calls g).
(** the code: "CEX-", the name, the security strength in bits as two bytes, the info *)
Definition hcode (info : list Z) : list Z := [67; 69; 88; 45] ++ name ++ le_bytes 2 (Z.of_nat (rate / 4) * 8) ++ info.
(** a new key: the counter starts at the first 8 bytes of the IV, plus the length of the code *)
Definition hkeyed (g : hgen) (key iv info : list Z) : hgen :=
  let c := (be_val (firstn 8 (iv ++ zeros 8)) + Z.of_nat (length (hcode info))) mod 2 ^ 64 in
  HGen true key (hcode info) (c, mac key (hcode info ++ be_bytes 8 c)) 0 0 0 (hg_calls g).
End hmacgen.
