(** A random generator that runs a wide Rijndael in counter mode: what its calls should compute.  No model definition is
    used here. *)
From Verif Require Import Base Spec_Common Spec_ChaCha Spec_Keccak Spec_AES Spec_RCS.
Open Scope Z_scope.

(** "BCG version 1.0b" *)
Definition version : list Z := [66; 67; 71; 32; 118; 101; 114; 115; 105; 111; 110; 32; 49; 46; 48; 98].
(** number of rounds, and the round keys: cSHAKE-256 of the key, named by the key size in bits and "BCG" *)
Definition brounds (k : nat) : nat := if (k =? 32)%nat then 22%nat else if (k =? 64)%nat then 30%nat else 38%nat.
Definition bround_keys (key custom : list Z) : list (list Z) :=
  let k := length key in chunks 32 (cshake 24 136 key (32 * (brounds k + 1)) (le_bytes 2 (8 * Z.of_nat k) ++ [66; 67; 71]) custom).
(** the block at a counter value; 256-bit Rijndael *)
Definition bblock (keys : list (list Z)) (nonce : list Z) (v : Z) : list Z := rijndael [0; 1; 3; 4]%nat keys (nonce_at (skipn 16 nonce) v).
(** [n] bytes from a nonce on: the first 16 bytes count, little endian; and the nonce after them *)
Definition start (nonce : list Z) : Z := value_le (firstn 16 nonce).
Definition bstream (keys : list (list Z)) (nonce : list Z) (n : nat) : list Z := keystream 32 (bblock keys nonce) (start nonce) n.
Definition bmoved (nonce : list Z) (n : nat) : list Z := nonce_at (skipn 16 nonce) (start nonce + Z.of_nat (nblocks 32 n)).
(** the nonce as a big endian number, plus [d] *)
Definition apart (nonce : list Z) (d : nat) : list Z := be_bytes 32 (be_val nonce + Z.of_nat d).
(** a request: the bytes and the nonce after it.  [par]: parallel block size and number of workers.  A parallel request gives
    every worker a nonce of its own, and goes on from the one of the last worker *)
Definition bnext (par : option (nat * nat)) (keys : list (list Z)) (nonce : list Z) (n : nat) : list Z * list Z :=
  match par with
  | Some (P, deg) =>
    if (P <=? n)%nat then
      let cnk := (P / deg)%nat in let q := (cnk / 32)%nat in
      let last := bmoved (apart nonce (q * (deg - 1))) cnk in let rest := (n - cnk * deg)%nat in
      (concat (map (fun i => bstream keys (apart nonce (q * i)) cnk) (seq 0 deg)) ++ bstream keys last rest, bmoved last rest)
    else (bstream keys nonce n, bmoved nonce n)
  | None => (bstream keys nonce n, bmoved nonce n)
  end.

(** the generator: round keys, customization string, nonce, bytes since the last seed, seeds, calls of the provider *)
Record bgen := BGen { b_ready : bool; b_keys : list (list Z); b_custom : list Z; b_nonce : list Z; b_since : Z; b_reseeds : Z; b_calls : nat }.
Definition bgen_new : bgen := BGen false [] [] (zeros 32) 0 0 0.
Definition bkeyed (g : bgen) (key iv info : list Z) : bgen := BGen true (bround_keys key (version ++ info)) (version ++ info) iv 0 (b_reseeds g) (b_calls g).
Definition bwith (g : bgen) (nonce : list Z) (since reseeds : Z) : bgen := BGen (b_ready g) (b_keys g) (b_custom g) nonce since reseeds (b_calls g).
(** the provider makes a new key of a key *)
Definition bmix (p : nat -> nat -> list Z) (g : bgen) (key : list Z) : list Z := cshake 24 136 key (length key) [] (p (b_calls g) 32%nat).
Definition bcalled (g : bgen) : bgen := BGen (b_ready g) (b_keys g) (b_custom g) (b_nonce g) (b_since g) (b_reseeds g) (S (b_calls g)).
(** a seed of a legal size: a new key with the nonce where it is; the version string comes in front of the customization once more *)
Definition bseeded (prov : option (nat -> nat -> list Z)) (g : bgen) (key : list Z) : bgen :=
  match prov with
  | Some p => bkeyed (bcalled g) (bmix p g key) (b_nonce g) (b_custom g)
  | None => bkeyed g key (b_nonce g) (b_custom g)
  end.
(** a seed of another size is refused after the provider was called *)
Definition bfailed (prov : option (nat -> nat -> list Z)) (g : bgen) : bgen := match prov with Some _ => bcalled g | None => g end.
Definition blegal (key : list Z) : bool := existsb (Nat.eqb (length key)) [32; 64; 128]%nat.
