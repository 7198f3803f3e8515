(** CMAC (NIST SP 800-38B) and HMAC (RFC 2104). *)
From Verif Require Import Base.
Open Scope Z_scope.

(** ** CMAC for a 128-bit block cipher [E] *)
(** multiplication by x: SP 800-38B 6.1 steps 2 and 3, R_128 = 0^120 10000111 *)
Definition dbl (b : list Z) : list Z :=
  let v := be_val b in
  be_bytes 16 (if v <? 2 ^ 127 then 2 * v else Z.lxor ((2 * v) mod 2 ^ 128) 0x87).
(** the last block: complete blocks are xored with K1, others are padded with 10..0 and xored with K2 *)
Definition last_block (E : list Z -> list Z) (b : list Z) : list Z :=
  let k1 := dbl (E (zeros 16)) in
  if (length b =? 16)%nat then xorl b k1 else xorl (b ++ 128 :: zeros (15 - length b)) (dbl k1).
(** 6.2: C_i = CIPH(C_(i-1) xor M_i) *)
Fixpoint cmac_chain (E : list Z -> list Z) (c : list Z) (blocks : list (list Z)) : list Z :=
  match blocks with
  | [] => E (xorl c (last_block E []))
  | [b] => E (xorl c (last_block E b))
  | b :: t => cmac_chain E (E (xorl c b)) t
  end.
Definition cmac (E : list Z -> list Z) (m : list Z) : list Z := cmac_chain E (zeros 16) (chunks 16 m).

(** ** HMAC over a hash [H] with block size [B] *)
Definition hmac_key (H : list Z -> list Z) (B : nat) (k : list Z) : list Z :=
  let k := if (B <? length k)%nat then H k else k in k ++ zeros (B - length k).
Definition pad_with (x : Z) (l : list Z) : list Z := map (Z.lxor x) l.
Definition hmac (H : list Z -> list Z) (B : nat) (k m : list Z) : list Z :=
  let k := hmac_key H B k in
  H (pad_with 0x5C k ++ H (pad_with 0x36 k ++ m)).
