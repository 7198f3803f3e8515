(** The ChaCha block function (RFC 8439 section 2.1-2.3, with Bernstein's 64-bit counter), written for any word
    size and any table of rotations. *)
From Verif Require Import Base.
Open Scope Z_scope.

Definition rotl (w x n : Z) : Z := Z.lor ((Z.shiftl x n) mod 2 ^ w) (Z.shiftr x (w - n)).
Definition plus (w a b : Z) : Z := (a + b) mod 2 ^ w.
Definition quad (A : Type) : Type := A * A * A * A.

(** a += b; d ^= a; d <<<= r1;  c += d; b ^= c; b <<<= r2;  a += b; d ^= a; d <<<= r3;  c += d; b ^= c; b <<<= r4 *)
Definition quarter_round (w : Z) (r : quad Z) (x : quad Z) : quad Z :=
  let '(r1, r2, r3, r4) := r in
  let '(a, b, c, d) := x in
  let a := plus w a b in let d := rotl w (Z.lxor d a) r1 in
  let c := plus w c d in let b := rotl w (Z.lxor b c) r2 in
  let a := plus w a b in let d := rotl w (Z.lxor d a) r3 in
  let c := plus w c d in let b := rotl w (Z.lxor b c) r4 in
  (a, b, c, d).
(** the quarter round on four words of the state *)
Definition on_words (w : Z) (X : list Z) (p : quad nat * quad Z) : list Z :=
  let '(i, j, k, l) := fst p in
  let '(a, b, c, d) := quarter_round w (snd p) (nth i X 0, nth j X 0, nth k X 0, nth l X 0) in
  upd (upd (upd (upd X i a) j b) k c) l d.
(** four columns, then four diagonals *)
Definition lines : list (quad nat) :=
  [(0, 4, 8, 12); (1, 5, 9, 13); (2, 6, 10, 14); (3, 7, 11, 15);
   (0, 5, 10, 15); (1, 6, 11, 12); (2, 7, 8, 13); (3, 4, 9, 14)]%nat.
Definition double_round (w : Z) (rots : list (quad Z)) (X : list Z) : list Z :=
  fold_left (on_words w) (combine lines rots) X.
(** [n] double rounds, then the feed-forward *)
Definition block_words (w : Z) (rots : list (quad Z)) (n : nat) (X : list Z) : list Z :=
  map (fun p => plus w (fst p) (snd p)) (combine (Nat.iter n (double_round w rots) X) X).
(** the state: 12 words, two words of counter, two more words *)
Definition input_words (st ctr : list Z) : list Z := firstn 12 st ++ ctr ++ skipn 12 st.
Definition counter_words (w : Z) (v : Z) : list Z := [v mod 2 ^ w; v / 2 ^ w mod 2 ^ w].
(** the keystream block of counter value [v], little endian *)
Definition stream_block (w : Z) (rots : list (quad Z)) (n : nat) (st : list Z) (v : Z) : list Z :=
  concat (map (le_bytes (Z.to_nat (w / 8))) (block_words w rots n (input_words st (counter_words w v)))).

(** ChaCha: 32-bit words, rotations 16, 12, 8, 7; ChaCha20 has ten double rounds *)
Definition chacha_rots : list (quad Z) := repeat (16, 12, 8, 7) 8.
Definition chacha_block (n : nat) (st : list Z) (v : Z) : list Z := stream_block 32 chacha_rots n st v.
(** CSX: 64-bit words and this table; CSX512 has twenty double rounds *)
Definition csx_rots : list (quad Z) :=
  [(38, 19, 10, 55); (33, 4, 51, 13); (16, 34, 56, 51); (4, 53, 42, 41);
   (34, 41, 59, 17); (23, 31, 37, 20); (31, 44, 47, 46); (12, 47, 44, 30)].
Definition csx_block (n : nat) (st : list Z) (v : Z) : list Z := stream_block 64 csx_rots n st v.

(** byte [i] of the keystream that starts at counter value [v]; [kb] gives a block of [B] bytes for each value *)
Definition stream_byte (B : nat) (kb : Z -> list Z) (v : Z) (i : nat) : Z := nth (i mod B) (kb (v + Z.of_nat (i / B))) 0.
Definition keystream (B : nat) (kb : Z -> list Z) (v : Z) (len : nat) : list Z := map (stream_byte B kb v) (seq 0 len).
Definition stream_crypt (B : nat) (kb : Z -> list Z) (v : Z) (m : list Z) : list Z := xorl m (keystream B kb v (length m)).
(** the number of blocks of a message *)
Definition nblocks (B len : nat) : nat := ((len + B - 1) / B)%nat.
(** the words of a little-endian byte string *)
Definition le_words (n : nat) (l : list Z) : list Z := map le_val (chunks n l).
