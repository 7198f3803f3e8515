(** BLAKE2s and BLAKE2b as in RFC 7693, with the parameter block of the BLAKE2 paper (section 2.8), written down
    from the documents.  [w] word bits, [n] = w / 8 bytes per word; a block is 16 words. *)
From Verif Require Import Base Spec_ChaCha Spec_SHA2.
Open Scope Z_scope.

(** RFC 7693 section 2.7: the message schedule *)
Definition sigma : list (list nat) := [
  [0; 1; 2; 3; 4; 5; 6; 7; 8; 9; 10; 11; 12; 13; 14; 15];
  [14; 10; 4; 8; 9; 15; 13; 6; 1; 12; 0; 2; 11; 7; 5; 3];
  [11; 8; 12; 0; 5; 2; 15; 13; 10; 14; 3; 6; 7; 1; 9; 4];
  [7; 9; 3; 1; 13; 12; 11; 14; 2; 6; 5; 10; 4; 0; 15; 8];
  [9; 0; 5; 7; 2; 4; 10; 15; 14; 1; 11; 12; 6; 8; 3; 13];
  [2; 12; 6; 10; 0; 11; 8; 3; 4; 13; 7; 5; 15; 14; 1; 9];
  [12; 5; 1; 15; 14; 13; 4; 10; 0; 7; 6; 3; 9; 2; 8; 11];
  [13; 11; 7; 14; 12; 1; 3; 9; 5; 0; 15; 4; 8; 6; 2; 10];
  [6; 15; 14; 9; 11; 3; 0; 8; 12; 2; 13; 7; 1; 4; 10; 5];
  [10; 2; 8; 4; 7; 6; 1; 5; 15; 11; 9; 14; 3; 12; 13; 0]]%nat.

Section blake2.
Context (w : Z) (n rounds : nat) (rot : quad Z) (iv : list Z).
(** section 3.1: the mixing function G on (a, b, c, d) with the message words x and y *)
Definition mix (v : quad Z) (x y : Z) : quad Z :=
  let '(a, b, c, d) := v in let '(r1, r2, r3, r4) := rot in
  let a := (a + b + x) mod 2 ^ w in let d := ROTR w r1 (Z.lxor d a) in
  let c := (c + d) mod 2 ^ w in let b := ROTR w r2 (Z.lxor b c) in
  let a := (a + b + y) mod 2 ^ w in let d := ROTR w r3 (Z.lxor d a) in
  let c := (c + d) mod 2 ^ w in let b := ROTR w r4 (Z.lxor b c) in
  (a, b, c, d).
Definition mix_at (m : list Z) (v : list Z) (p : quad nat * (nat * nat)) : list Z :=
  let '(i, j, k, l) := fst p in
  let '(a, b, c, d) := mix (nth i v 0, nth j v 0, nth k v 0, nth l v 0) (nth (fst (snd p)) m 0) (nth (snd (snd p)) m 0) in
  upd (upd (upd (upd v i a) j b) k c) l d.
(** the columns, then the diagonals *)
Definition blake_lines : list (quad nat) :=
  [(0, 4, 8, 12); (1, 5, 9, 13); (2, 6, 10, 14); (3, 7, 11, 15); (0, 5, 10, 15); (1, 6, 11, 12); (2, 7, 8, 13); (3, 4, 9, 14)]%nat.
Fixpoint pairs (l : list nat) : list (nat * nat) := match l with a :: b :: t => (a, b) :: pairs t | _ => [] end.
Definition blake_round (m : list Z) (v : list Z) (s : list nat) : list Z := fold_left (mix_at m) (combine blake_lines (pairs s)) v.
(** section 3.2: the compression function F; [t] the byte counter, [f0] the last-block flag, [f1] the last-node flag
    (tree hashing only) *)
Definition compress (h : list Z) (block : list Z) (t : Z) (f0 f1 : bool) : list Z :=
  let m := le_words n block in
  let ones := 2 ^ w - 1 in
  let v := h ++ xorl iv [0; 0; 0; 0; t mod 2 ^ w; t / 2 ^ w mod 2 ^ w; if f0 then ones else 0; if f1 then ones else 0] in
  let v := fold_left (fun v i => blake_round m v (nth (i mod 10) sigma [])) (seq 0 rounds) v in
  xorl (xorl h (firstn 8 v)) (skipn 8 v).
(** section 3.3: the blocks of the data, the last one filled with zeros; no data is one block of zeros.  [t] bytes
    have been compressed before *)
Fixpoint hash_blocks (h : list Z) (t : Z) (bs : list (list Z)) : list Z :=
  match bs with
  | [] => compress h (zeros (16 * n)) t true false
  | [b] => compress h (b ++ zeros (16 * n - length b)) (t + Z.of_nat (length b)) true false
  | b :: bs => hash_blocks (compress h b (t + Z.of_nat (16 * n)) false false) (t + Z.of_nat (16 * n)) bs
  end.
(** [param]: the parameter block, 8 words; [data]: the padded key, if any, and the message *)
Definition blake2_data (param data : list Z) : list Z :=
  concat (map (le_bytes n) (hash_blocks (xorl iv (le_words n param)) 0 (chunks (16 * n) data))).
(** the key is filled with zeros to a block and put before the message *)
Definition keyed_data (key msg : list Z) : list Z :=
  match key with [] => msg | _ => key ++ zeros (16 * n - length key) ++ msg end.
End blake2.

(** the parameter block of sequential hashing: digest length, key length, fanout 1, depth 1, leaf length 0,
    node offset 0, node depth 0, inner length 0, salt, personalization *)
Definition s_param (kk : nat) (salt pers : list Z) : list Z := [32; Z.of_nat kk; 1; 1] ++ zeros 12 ++ salt ++ pers.
Definition b_param (kk : nat) (salt pers : list Z) : list Z := [64; Z.of_nat kk; 1; 1] ++ zeros 28 ++ salt ++ pers.
(** RFC 7693 section 4: the two instances; BLAKE2s with 10 rounds, BLAKE2b with 12 *)
Definition blake2s_data : list Z -> list Z -> list Z := blake2_data 32 4 10 (16, 12, 8, 7) H256.
Definition blake2b_data : list Z -> list Z -> list Z := blake2_data 64 8 12 (32, 24, 16, 63) H512.
(** the keyed hash with salt and personalization; the key may be empty *)
Definition blake2s_with (salt pers key msg : list Z) : list Z := blake2s_data (s_param (length key) salt pers) (keyed_data 4 key msg).
Definition blake2b_with (salt pers key msg : list Z) : list Z := blake2b_data (b_param (length key) salt pers) (keyed_data 8 key msg).
(** RFC 7693: no salt, no personalization *)
Definition blake2s : list Z -> list Z -> list Z := blake2s_with (zeros 8) (zeros 8).
Definition blake2b : list Z -> list Z -> list Z := blake2b_with (zeros 16) (zeros 16).

(** RFC 7693 appendix A and B: "abc" *)
Example blake2s_abc : blake2s [] [97; 98; 99] =
  [80; 140; 94; 140; 50; 124; 20; 226; 225; 167; 43; 163; 78; 235; 69; 47; 55; 69; 139; 32; 158; 214; 58; 41; 77; 153; 155; 76; 134; 103; 89; 130].
Proof. vm_compute. reflexivity. Qed.
Example blake2b_abc : firstn 8 (blake2b [] [97; 98; 99]) = [186; 128; 165; 63; 152; 28; 77; 13].
Proof. vm_compute. reflexivity. Qed.
