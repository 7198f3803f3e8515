(** * Properties of Poly1305 and Donna128: C28, C51 *)
From Verif Require Import BaseLemmas Spec_Common Spec_Feed Spec_Poly1305 Model_Poly1305 Session_Digest Session_Mac Session_Poly Proofs_Donna ProofsP_Poly1305.
Open Scope Z_scope.

(** ** C28 Poly1305, compiled with the native 128-bit integer or with Donna128 *)
(** the tag of any message, given in any pieces, is the RFC 8439 value *)
Theorem C28_is_poly1305_native k ps out oo : bytes k -> (32 <= length k)%nat -> Forall p_ok ps -> (oo + 16 <= length out)%nat ->
  exists out', mhistory (poly_ops native) Poly_new ([MInit k] ++ map MUpdate ps ++ [MFinal out oo]) = Ok ([Done] ++ map (fun _ => Done) ps ++ [Wrote out']) /\
    written out out' oo (poly1305 k (joined ps)).
Proof. exact (c28_msg native _ _ native_ok k ps out oo). Qed.
Print Assumptions C28_is_poly1305_native.
Theorem C28_is_poly1305_donna k ps out oo : bytes k -> (32 <= length k)%nat -> Forall p_ok ps -> (oo + 16 <= length out)%nat ->
  exists out', mhistory (poly_ops donna128) Poly_new ([MInit k] ++ map MUpdate ps ++ [MFinal out oo]) = Ok ([Done] ++ map (fun _ => Done) ps ++ [Wrote out']) /\
    written out out' oo (poly1305 k (joined ps)).
Proof. exact (c28_msg donna128 _ _ donna128_ok k ps out oo). Qed.
Print Assumptions C28_is_poly1305_donna.
Example C28_case : bytes (repeat 255 32) /\ (32 <= length (repeat 255 32))%nat /\ Forall p_ok [Piece (zeros 40) 3 30; Piece [1; 2; 3] 1 2; Piece (zeros 50) 0 50] /\ (1 + 16 <= length (zeros 20))%nat.
Proof. cbn. repeat split; try lia; repeat constructor; unfold is_byte; cbn; lia. Qed.
(** every sequence of calls; a tag does not end the message (after_tag) *)
Theorem C28_every_history_native cs : Forall (mcall_ok 16) cs -> exists rs, mhistory (poly_ops native) Poly_new cs = Ok rs /\ pexpected None cs rs.
Proof. exact (c28_hist native _ _ native_ok cs). Qed.
Print Assumptions C28_every_history_native.
Theorem C28_every_history_donna cs : Forall (mcall_ok 16) cs -> exists rs, mhistory (poly_ops donna128) Poly_new cs = Ok rs /\ pexpected None cs rs.
Proof. exact (c28_hist donna128 _ _ donna128_ok cs). Qed.
Print Assumptions C28_every_history_donna.
(** the two builds are interchangeable *)
Theorem C28_builds_agree cs : Forall (mcall_ok 16) cs -> mhistory (poly_ops native) Poly_new cs = mhistory (poly_ops donna128) Poly_new cs.
Proof. exact (c28_agree cs). Qed.
Print Assumptions C28_builds_agree.
Example C28_history_case : Forall (mcall_ok 16) [MUpdate (Piece [1] 0 1); MInit (zeros 5); MInit (repeat 7 32); MUpdate (Piece [9; 97; 98] 1 2); MFinal (zeros 8) 0; MUpdate (Piece (zeros 40) 3 30);
    MUpdate (Piece (zeros 4) 3 30); MFinal (zeros 20) 2; MInit (repeat 9 40); MCompute [1; 2; 3] (zeros 40); MReset; MSecure (zeros 16) 0].
Proof. repeat first [apply Forall_nil | apply Forall_cons]; cbn; repeat split; auto; try lia; repeat constructor; unfold is_byte; lia. Qed.
(** the object cannot be used for a second message without Initialize: the same message gets another tag *)
Theorem C28_reuse_refuted : exists k m t1 t2,
  mhistory (poly_ops donna128) Poly_new [MInit k; MUpdate (Piece m 0 (length m)); MFinal (zeros 16) 0; MUpdate (Piece m 0 (length m)); MFinal (zeros 16) 0]
    = Ok [Done; Done; Wrote t1; Done; Wrote t2] /\
  t1 = poly1305 k m /\ t2 <> poly1305 k m.
Proof. exists (repeat 1 32), [1; 2; 3]. eexists _, _. split; [vm_compute; reflexivity|]. split; [vm_compute; reflexivity|]. vm_compute. discriminate. Qed.
Print Assumptions C28_reuse_refuted.
(** RFC 8439, 2.5.2 *)
Example C28_spec_vector : be_val (poly1305 (be_bytes 32 0x85d6be7857556d337f4452fe42d506a80103808afb0db2fd4abff6af4149f51b)
  [67;114;121;112;116;111;103;114;97;112;104;105;99;32;70;111;114;117;109;32;82;101;115;101;97;114;99;104;32;71;114;111;117;112]) = 0xa8061dc1305136c6c22b8baf0c0127a9.
Proof. vm_compute. reflexivity. Qed.

(** ** C51 Donna128 *)
(** the product of two words *)
Theorem C51_multiply x y : 0 <= x < 2 ^ 64 -> 0 <= y < 2 ^ 64 -> d_val (donna_mul (Donna x 0) y) = x * y /\ d_ok (donna_mul (Donna x 0) y).
Proof. exact (mul_ok x y). Qed.
Print Assumptions C51_multiply.
Theorem C51_add x y : d_ok x -> d_ok y -> d_val (donna_add x y) = (d_val x + d_val y) mod 2 ^ 128 /\ d_ok (donna_add x y).
Proof. exact (add_ok x y). Qed.
Print Assumptions C51_add.
Theorem C51_add_word x y : d_ok x -> 0 <= y < 2 ^ 64 -> d_val (donna_addw x y) = (d_val x + y) mod 2 ^ 128 /\ d_ok (donna_addw x y).
Proof. exact (addw_ok x y). Qed.
Print Assumptions C51_add_word.
(** CarryShift: the low word of the shifted value *)
Theorem C51_carry_shift x n : d_ok x -> 0 < n < 64 -> donna_carry x n = Ok (d_val x / 2 ^ n mod 2 ^ 64).
Proof. exact (carry_ok x n). Qed.
Print Assumptions C51_carry_shift.
Example C51_case : d_ok (Donna (2 ^ 64 - 1) 7) /\ 0 < 44 < 64 /\ 0 <= 2 ^ 63 + 5 < 2 ^ 64.
Proof. unfold d_ok. cbn. lia. Qed.
(** operator >> shifts the value with its halves exchanged ... *)
Theorem C51_shift_right x n : d_ok x -> 0 < n < 64 -> exists z, donna_shr x n = Ok z /\ d_val z = d_val (Donna (d_high x) (d_low x)) / 2 ^ n.
Proof. exact (shr_swapped x n). Qed.
Print Assumptions C51_shift_right.
(** ... so it is not a right shift; nor is << a left shift, nor does CombineLow combine the shifted low words *)
Theorem C51_shift_right_refuted : exists x n z, d_ok x /\ 0 < n < 64 /\ donna_shr x n = Ok z /\ d_val z <> d_val x / 2 ^ n.
Proof. exists (Donna 16 0), 4. eexists. split; [unfold d_ok; cbn; lia|]. split; [lia|]. split; [vm_compute; reflexivity|]. vm_compute. discriminate. Qed.
Print Assumptions C51_shift_right_refuted.
Theorem C51_shift_left_refuted : exists x n z, d_ok x /\ 0 < n < 64 /\ donna_shl x n = Ok z /\ d_val z <> (d_val x * 2 ^ n) mod 2 ^ 128.
Proof. exists (Donna 1 0), 4. eexists. split; [unfold d_ok; cbn; lia|]. split; [lia|]. split; [vm_compute; reflexivity|]. vm_compute. discriminate. Qed.
Print Assumptions C51_shift_left_refuted.
Theorem C51_combine_refuted : exists x y s1 s2 r, d_ok x /\ d_ok y /\ 0 < s1 < 64 /\ 0 < s2 < 64 /\ CombineLow x s1 y s2 = Ok r /\
  r <> Z.lor (d_val x / 2 ^ s1 mod 2 ^ 64) (d_val y * 2 ^ s2 mod 2 ^ 64).
Proof. exists (Donna 16 0), (Donna 1 0), 4, 3. eexists. split; [unfold d_ok; cbn; lia|]. split; [unfold d_ok; cbn; lia|]. split; [lia|]. split; [lia|]. split; [vm_compute; reflexivity|]. vm_compute. discriminate. Qed.
Print Assumptions C51_combine_refuted.
