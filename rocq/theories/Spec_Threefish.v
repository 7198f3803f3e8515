(** The Threefish block cipher (Skein specification 1.3, section 3.3), with any number of rounds. *)
From Verif Require Import Base Spec_ChaCha.
Open Scope Z_scope.

(** number of words, the word permutation and the rotations of eight rounds, one per pair of words *)
Record tfish := TFish { f_n : nat; f_pi : list nat; f_rots : list (list Z) }.
Definition threefish256 : tfish := TFish 4 [0; 3; 2; 1]%nat
  [[14; 16]; [52; 57]; [23; 40]; [5; 37]; [25; 33]; [46; 12]; [58; 22]; [32; 32]].
Definition threefish512 : tfish := TFish 8 [2; 1; 4; 7; 6; 5; 0; 3]%nat
  [[46; 36; 19; 37]; [33; 27; 14; 42]; [17; 49; 36; 39]; [44; 9; 54; 56]; [39; 30; 34; 24]; [13; 50; 10; 17]; [25; 29; 39; 43]; [8; 35; 56; 22]].
Definition threefish1024 : tfish := TFish 16 [0; 9; 2; 13; 6; 11; 4; 15; 10; 7; 12; 3; 14; 5; 8; 1]%nat
  [[24; 13; 8; 47; 8; 17; 22; 37]; [38; 19; 10; 55; 49; 18; 23; 52]; [33; 4; 51; 13; 34; 41; 59; 17]; [5; 20; 48; 41; 47; 28; 16; 25];
   [41; 9; 37; 31; 12; 47; 44; 30]; [16; 34; 56; 51; 4; 53; 42; 41]; [31; 44; 47; 46; 19; 42; 44; 25]; [9; 48; 35; 52; 23; 31; 37; 20]].
(** C240 *)
Definition key_parity : Z := 0x1BD11BDAA9FC1A22.

Definition add64 : Z -> Z -> Z := plus 64.
Definition add_words (a b : list Z) : list Z := map (fun p => add64 (fst p) (snd p)) (combine a b).
(** MIX on neighbouring words *)
Fixpoint mix_words (rs v : list Z) : list Z :=
  match rs, v with
  | r :: rs, x :: y :: v => add64 x y :: Z.lxor (rotl 64 y r) (add64 x y) :: mix_words rs v
  | _, _ => v
  end.
Section cipher.
Variable F : tfish.
(** the key with its parity word, the tweak with its third word *)
Definition ext_key (key : list Z) : list Z := key ++ [Z.lxor (fold_left Z.lxor (tl key) (hd 0 key)) key_parity].
Definition ext_tweak (tw : list Z) : list Z := tw ++ [Z.lxor (nth 0 tw 0) (nth 1 tw 0)].
(** word [i] of the subkey: a key word, in the last three places plus a tweak word or the number [c]; [s] selects the
    words; in subkey [s] of the cipher [c] is [s] *)
Definition subword (key tw : list Z) (s : nat) (c : Z) (i : nat) : Z :=
  let k := nth ((s + i) mod S (f_n F)) (ext_key key) 0 in
  if (i =? f_n F - 3)%nat then add64 k (nth (s mod 3) (ext_tweak tw) 0)
  else if (i =? f_n F - 2)%nat then add64 k (nth ((s + 1) mod 3) (ext_tweak tw) 0)
  else if (i =? f_n F - 1)%nat then add64 k c
  else k.
Definition subkey (key tw : list Z) (s : nat) (c : Z) : list Z := map (subword key tw s c) (seq 0 (f_n F)).
(** round [d]: every fourth round adds a subkey first *)
Definition tf_round (key tw v : list Z) (d : nat) : list Z :=
  let v := if (d mod 4 =? 0)%nat then add_words v (subkey key tw (d / 4) (Z.of_nat (d / 4))) else v in
  let m := mix_words (nth (d mod 8) (f_rots F) []) v in
  map (fun i => nth i m 0) (f_pi F).
(** [rounds] rounds and a last subkey *)
Definition tf_encrypt (rounds : nat) (last key tw v : list Z) : list Z :=
  add_words (fold_left (tf_round key tw) (seq 0 rounds) v) last.
(** Threefish itself: the last subkey is number rounds / 4 *)
Definition threefish (rounds : nat) (key tw v : list Z) : list Z :=
  tf_encrypt rounds (subkey key tw (rounds / 4) (Z.of_nat (rounds / 4))) key tw v.
End cipher.
