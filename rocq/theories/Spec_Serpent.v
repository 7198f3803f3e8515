(** Serpent, after R. Anderson, E. Biham, L. Knudsen, "Serpent: a proposal for the Advanced Encryption Standard" (bitslice
    description), for any number of rounds. *)
From Verif Require Import Base.
Open Scope Z_scope.

Definition S_tables : list (list Z) := [
  [3; 8; 15; 1; 10; 6; 5; 11; 14; 13; 4; 2; 7; 0; 9; 12];
  [15; 12; 2; 7; 9; 0; 5; 10; 1; 11; 14; 8; 6; 13; 3; 4];
  [8; 6; 7; 9; 3; 12; 10; 15; 13; 1; 14; 4; 0; 11; 5; 2];
  [0; 15; 11; 8; 12; 9; 6; 3; 13; 1; 2; 4; 10; 7; 5; 14];
  [1; 15; 8; 3; 12; 0; 11; 6; 2; 5; 4; 10; 9; 14; 7; 13];
  [15; 5; 2; 11; 4; 10; 9; 12; 0; 3; 14; 8; 13; 6; 7; 1];
  [7; 2; 12; 5; 8; 4; 6; 11; 14; 9; 1; 15; 13; 3; 10; 0];
  [1; 13; 15; 0; 14; 8; 2; 11; 7; 4; 12; 10; 9; 3; 5; 6]].
Definition S_box (k : nat) (x : Z) : Z := nth (Z.to_nat x) (nth k S_tables []) 0.
(** where [x] stands in the table *)
Fixpoint position (x : Z) (t : list Z) : Z := match t with [] => 0 | y :: t => if y =? x then 0 else 1 + position x t end.
Definition S_inv (k : nat) (x : Z) : Z := position x (nth k S_tables []).

(** the number with bits [b 0], [b 1], .., [b (n - 1)] *)
Fixpoint from_bits (n : nat) (b : nat -> bool) : Z := match n with O => 0 | S n => Z.b2z (b 0%nat) + 2 * from_bits n (fun j => b (S j)) end.
Definition bit (x : Z) (j : nat) : bool := Z.testbit x (Z.of_nat j).
(** an S-box on four words: 32 copies side by side; the bits at position j of words 0, 1, 2, 3 are the four bits of one input *)
Definition nibble (ws : list Z) (j : nat) : Z := from_bits 4 (fun i => bit (nth i ws 0) j).
Definition side_by_side (f : Z -> Z) (ws : list Z) : list Z := map (fun i => from_bits 32 (fun j => bit (f (nibble ws j)) i)) (seq 0 4).
Definition rotl32 (x n : Z) : Z := (x * 2 ^ n) mod 2 ^ 32 + x / 2 ^ (32 - n).
Definition rotr32 (x n : Z) : Z := rotl32 x (32 - n).
Definition shl32 (x n : Z) : Z := (x * 2 ^ n) mod 2 ^ 32.
Definition xor3 (a b c : Z) : Z := Z.lxor (Z.lxor a b) c.
Definition LT (ws : list Z) : list Z :=
  match ws with
  | [x0; x1; x2; x3] =>
    let x0 := rotl32 x0 13 in let x2 := rotl32 x2 3 in
    let x1 := xor3 x1 x0 x2 in let x3 := xor3 x3 x2 (shl32 x0 3) in
    let x1 := rotl32 x1 1 in let x3 := rotl32 x3 7 in
    let x0 := xor3 x0 x1 x3 in let x2 := xor3 x2 x3 (shl32 x1 7) in
    [rotl32 x0 5; x1; rotl32 x2 22; x3]
  | _ => ws
  end.
Definition LT_inv (ws : list Z) : list Z :=
  match ws with
  | [x0; x1; x2; x3] =>
    let x2 := rotr32 x2 22 in let x0 := rotr32 x0 5 in
    let x2 := xor3 x2 x3 (shl32 x1 7) in let x0 := xor3 x0 x1 x3 in
    let x3 := rotr32 x3 7 in let x1 := rotr32 x1 1 in
    let x3 := xor3 x3 x2 (shl32 x0 3) in let x1 := xor3 x1 x0 x2 in
    [rotr32 x0 13; x1; rotr32 x2 3; x3]
  | _ => ws
  end.
(** [ks]: one round key of four words more than rounds.  The last round has a key in place of the linear transformation *)
Definition substituted (ks : list (list Z)) (i : nat) (x : list Z) : list Z := side_by_side (S_box (i mod 8)) (xorl x (nth i ks [])).
Definition unsubstituted (ks : list (list Z)) (i : nat) (x : list Z) : list Z := xorl (side_by_side (S_inv (i mod 8)) x) (nth i ks []).
Definition serpent_words (ks : list (list Z)) (x : list Z) : list Z :=
  let last := (length ks - 2)%nat in
  xorl (substituted ks last (fold_left (fun x i => LT (substituted ks i x)) (seq 0 last) x)) (nth (last + 1) ks []).
Definition inv_serpent_words (ks : list (list Z)) (x : list Z) : list Z :=
  let last := (length ks - 2)%nat in
  fold_right (fun i x => unsubstituted ks i (LT_inv x)) (unsubstituted ks last (xorl x (nth (last + 1) ks []))) (seq 0 last).
Definition on_bytes (f : list Z -> list Z) (b : list Z) : list Z := concat (map (le_bytes 4) (f (map le_val (chunks 4 b)))).
Definition serpent (ks : list (list Z)) (b : list Z) : list Z := on_bytes (serpent_words ks) b.
Definition inv_serpent (ks : list (list Z)) (b : list Z) : list Z := on_bytes (inv_serpent_words ks) b.

(** the key schedule: the affine recurrence with the given taps, from the words of the key (a number, the most significant of
    whose added bits is one), then the S-boxes in descending order *)
Definition phi : Z := 0x9E3779B9.
Definition next_prekey (taps : list nat) (ws : list Z) (i : nat) : list Z :=
  ws ++ [rotl32 (fold_right Z.lxor (Z.lxor phi (Z.of_nat i)) (map (fun t => nth (length ws - t) ws 0) taps)) 11].
Definition prekeys (taps : list nat) (n : nat) (ws : list Z) : list Z := skipn (length ws) (fold_left (next_prekey taps) (seq 0 n) ws).
Definition scheduled (n : nat) (w : list Z) : list (list Z) :=
  map (fun i => side_by_side (S_box ((3 + 7 * i) mod 8)) (slice w (4 * i) 4)) (seq 0 n).
Definition key_number (key : list Z) : Z := le_val key + (if (length key <? 32)%nat then 256 ^ Z.of_nat (length key) else 0).
Definition words32 (n : nat) (v : Z) : list Z := map (fun i => (v / 2 ^ (32 * Z.of_nat i)) mod 2 ^ 32) (seq 0 n).
(** 32 rounds, keys of at most 32 bytes *)
Definition serpent_schedule (key : list Z) : list (list Z) := scheduled 33 (prekeys [8; 5; 3; 1]%nat 132 (words32 8 (key_number key))).

(** NESSIE, set 1, vector 0, for the three key sizes *)
Example nessie_128 : serpent (serpent_schedule (0x80 :: zeros 15)) (zeros 16) = [0x26; 0x4e; 0x54; 0x81; 0xef; 0xf4; 0x2a; 0x46; 0x06; 0xab; 0xda; 0x06; 0xc0; 0xbf; 0xda; 0x3d].
Proof. vm_compute. reflexivity. Qed.
Example nessie_192 : serpent (serpent_schedule (0x80 :: zeros 23)) (zeros 16) = [0x9e; 0x27; 0x4e; 0xad; 0x9b; 0x73; 0x7b; 0xb2; 0x1e; 0xfc; 0xfc; 0xa5; 0x48; 0x60; 0x26; 0x89].
Proof. vm_compute. reflexivity. Qed.
Example nessie_256 : serpent (serpent_schedule (0x80 :: zeros 31)) (zeros 16) = [0xa2; 0x23; 0xaa; 0x12; 0x88; 0x46; 0x3c; 0x0e; 0x2b; 0xe3; 0x8e; 0xbd; 0x82; 0x56; 0x16; 0xc0].
Proof. vm_compute. reflexivity. Qed.
