(** Encodings: bit packings, rounding, messages. *)
From Verif Require Import BaseLemmas Spec_Kyber Model_Kyber Proofs_Kyber.
Open Scope Z_scope.

(** * bits *)
Lemma bits_eq d x y : 0 <= d -> 0 <= x < 2 ^ d -> 0 <= y < 2 ^ d -> (forall n, 0 <= n < d -> Z.testbit x n = Z.testbit y n) -> x = y.
Proof.
  intros Hd Hx Hy H. apply Z.bits_inj'. intros n Hn. destruct (Z.lt_ge_cases n d) as [L|L]; [apply H; lia|].
  rewrite <- (Z.mod_small x (2 ^ d)), <- (Z.mod_small y (2 ^ d)) by assumption. rewrite !Z.mod_pow2_bits_high by lia. reflexivity.
Qed.
Lemma hi d t n : 0 <= d -> 0 <= t < 2 ^ d -> d <= n -> Z.testbit t n = false.
Proof. intros Hd Ht Hn. rewrite <- (Z.mod_small t (2 ^ d)) by assumption. now apply Z.mod_pow2_bits_high. Qed.
Ltac bit d := repeat first
  [ rewrite Z.lor_spec | rewrite Z.shiftr_spec by lia | rewrite Z.shiftl_spec by lia | rewrite Z.mod_pow2_bits_low by lia | rewrite Z.mod_pow2_bits_high by lia
  | rewrite Z.testbit_neg_r by lia | rewrite (hi d) by (assumption || lia) ].
Ltac each_bit n := 
  lazymatch goal with
  | H : 0 <= n < 0 |- _ => exfalso; lia
  | H : 0 <= n < ?d |- _ => let d' := eval vm_compute in (d - 1) in let C := fresh "C" in assert (C : n = d' \/ 0 <= n < d') by lia; clear H; destruct C as [C|H]; [rewrite C; clear C|]
  end.
Ltac all_bits d := let n := fresh "n" in let Hn := fresh "Hn" in intros n Hn; repeat each_bit n; bit d; rewrite ?orb_false_r, ?orb_false_l; try reflexivity.

Lemma mask12 x : Z.land x 0xFFF = x mod 2 ^ 12. Proof. apply (Z.land_ones x 12). lia. Qed.
Lemma mask11 x : Z.land x 0x7FF = x mod 2 ^ 11. Proof. apply (Z.land_ones x 11). lia. Qed.
Lemma mask10 x : Z.land x 0x3FF = x mod 2 ^ 10. Proof. apply (Z.land_ones x 10). lia. Qed.
Lemma mask5 x : Z.land x 31 = x mod 2 ^ 5. Proof. apply (Z.land_ones x 5). lia. Qed.
Lemma mask4 x : Z.land x 15 = x mod 2 ^ 4. Proof. apply (Z.land_ones x 4). lia. Qed.
Lemma mod_range x d : 0 <= d -> 0 <= x mod 2 ^ d < 2 ^ d.
Proof. intros H. apply Z.mod_pos_bound. now apply Z.pow_pos_nonneg. Qed.

Lemma ent_eq (F : Z -> Z) a b l m : a = b -> l = m -> F a :: l = F b :: m. Proof. intros -> ->. reflexivity. Qed.

(** * the packings: generic in the values packed *)
Definition bits12 (t0 t1 : Z) : list Z := [u8 (Z.shiftr t0 0); u8 (Z.lor (Z.shiftr t0 8) (Z.shiftl t1 4)); u8 (Z.shiftr t1 4)].
Lemma unbits12 t0 t1 : 0 <= t0 < 2 ^ 12 -> 0 <= t1 < 2 ^ 12 -> unpack12 (bits12 t0 t1) = [t0; t1].
Proof.
  intros H0 H1. unfold unpack12, bits12. cbn [nth]. rewrite !mask12. unfold u8. f_equal; [|f_equal].
  - apply (bits_eq 12); [lia|apply mod_range; lia|assumption|]. all_bits 12.
  - apply (bits_eq 12); [lia|apply mod_range; lia|assumption|]. all_bits 12.
Qed.
Definition bits4 (t : nat -> Z) : list Z :=
  [u8 (Z.lor (t 0%nat) (Z.shiftl (t 1%nat) 4)); u8 (Z.lor (t 2%nat) (Z.shiftl (t 3%nat) 4));
   u8 (Z.lor (t 4%nat) (Z.shiftl (t 5%nat) 4)); u8 (Z.lor (t 6%nat) (Z.shiftl (t 7%nat) 4))].
Lemma unbits4 a b : 0 <= a < 2 ^ 4 -> 0 <= b < 2 ^ 4 -> Z.land (u8 (Z.lor a (Z.shiftl b 4))) 15 = a /\ Z.shiftr (u8 (Z.lor a (Z.shiftl b 4))) 4 = b.
Proof.
  intros Ha Hb. unfold u8. split.
  - rewrite mask4. apply (bits_eq 4); [lia|apply mod_range; lia|assumption|]. all_bits 4.
  - rewrite lor_shiftl_add by lia. rewrite Z.mod_small by lia. rewrite Z.shiftr_div_pow2 by lia. lia.
Qed.
Definition bits5 (t : nat -> Z) : list Z :=
  [u8 (Z.lor (t 0%nat) (Z.shiftl (t 1%nat) 5));
   u8 (Z.lor (Z.lor (Z.shiftr (t 1%nat) 3) (Z.shiftl (t 2%nat) 2)) (Z.shiftl (t 3%nat) 7));
   u8 (Z.lor (Z.shiftr (t 3%nat) 1) (Z.shiftl (t 4%nat) 4));
   u8 (Z.lor (Z.lor (Z.shiftr (t 4%nat) 4) (Z.shiftl (t 5%nat) 1)) (Z.shiftl (t 6%nat) 6));
   u8 (Z.lor (Z.shiftr (t 6%nat) 2) (Z.shiftl (t 7%nat) 3))].
Lemma unbits5 t : (forall i, 0 <= t i < 2 ^ 5) -> 
  unpack5 (bits5 t) = map (fun i => s16 (u16 (Z.shiftr (t i * KYBER_Q + 16) 5))) [0; 1; 2; 3; 4; 5; 6; 7]%nat.
Proof.
  intros H. unfold unpack5, bits5. cbn [nth map]. rewrite !mask5. unfold u8.
  pose proof (H 0%nat) as H0; pose proof (H 1%nat) as H1; pose proof (H 2%nat) as H2; pose proof (H 3%nat) as H3; pose proof (H 4%nat) as H4; pose proof (H 5%nat) as H5; pose proof (H 6%nat) as H6; pose proof (H 7%nat) as H7.
  repeat (apply (ent_eq (fun y => s16 (u16 (Z.shiftr (y * KYBER_Q + 16) 5)))); [apply (bits_eq 5); [lia|apply mod_range; lia|assumption|]; all_bits 5|]). reflexivity.
Qed.
Definition bits11 (t : nat -> Z) : list Z :=
  [u8 (Z.shiftr (t 0%nat) 0);
   u8 (Z.lor (Z.shiftr (t 0%nat) 8) (Z.shiftl (t 1%nat) 3));
   u8 (Z.lor (Z.shiftr (t 1%nat) 5) (Z.shiftl (t 2%nat) 6));
   u8 (Z.shiftr (t 2%nat) 2);
   u8 (Z.lor (Z.shiftr (t 2%nat) 10) (Z.shiftl (t 3%nat) 1));
   u8 (Z.lor (Z.shiftr (t 3%nat) 7) (Z.shiftl (t 4%nat) 4));
   u8 (Z.lor (Z.shiftr (t 4%nat) 4) (Z.shiftl (t 5%nat) 7));
   u8 (Z.shiftr (t 5%nat) 1);
   u8 (Z.lor (Z.shiftr (t 5%nat) 9) (Z.shiftl (t 6%nat) 2));
   u8 (Z.lor (Z.shiftr (t 6%nat) 6) (Z.shiftl (t 7%nat) 5));
   u8 (Z.shiftr (t 7%nat) 3)].
Lemma unbits11 t : (forall i, 0 <= t i < 2 ^ 11) -> 
  unpack11 (bits11 t) = map (fun i => s16 (Z.shiftr (t i * KYBER_Q + 1024) 11)) [0; 1; 2; 3; 4; 5; 6; 7]%nat.
Proof.
  intros H. unfold unpack11, bits11. cbn [nth map]. rewrite !mask11. unfold u8, u16.
  pose proof (H 0%nat) as H0; pose proof (H 1%nat) as H1; pose proof (H 2%nat) as H2; pose proof (H 3%nat) as H3; pose proof (H 4%nat) as H4; pose proof (H 5%nat) as H5; pose proof (H 6%nat) as H6; pose proof (H 7%nat) as H7.
  repeat (apply (ent_eq (fun y => s16 (Z.shiftr (y * KYBER_Q + 1024) 11))); [apply (bits_eq 11); [lia|apply mod_range; lia|assumption|]; all_bits 11|]). reflexivity.
Qed.
Definition bits10 (t : nat -> Z) : list Z :=
  [u8 (Z.shiftr (t 0%nat) 0);
   u8 (Z.lor (Z.shiftr (t 0%nat) 8) (Z.shiftl (t 1%nat) 2));
   u8 (Z.lor (Z.shiftr (t 1%nat) 6) (Z.shiftl (t 2%nat) 4));
   u8 (Z.lor (Z.shiftr (t 2%nat) 4) (Z.shiftl (t 3%nat) 6));
   u8 (Z.shiftr (t 3%nat) 2)].
Lemma unbits10 t : (forall i, 0 <= t i < 2 ^ 10) -> 
  unpack10 (bits10 t) = map (fun i => s16 (Z.shiftr (t i * KYBER_Q + 512) 10)) [0; 1; 2; 3]%nat.
Proof.
  intros H. unfold unpack10, bits10. cbn [nth map]. rewrite !mask10. unfold u8, u16.
  pose proof (H 0%nat) as H0; pose proof (H 1%nat) as H1; pose proof (H 2%nat) as H2; pose proof (H 3%nat) as H3.
  repeat (apply (ent_eq (fun y => s16 (Z.shiftr (y * KYBER_Q + 512) 10))); [apply (bits_eq 10); [lia|apply mod_range; lia|assumption|]; all_bits 10|]). reflexivity.
Qed.

(** * scalars *)
Lemma shr15 x : -32768 <= x < 32768 -> Z.shiftr x 15 = if x <? 0 then -1 else 0.
Proof. intros H. rewrite Z.shiftr_div_pow2 by lia. change (2 ^ 15) with 32768. destruct (x <? 0) eqn:E; [apply Z.ltb_lt in E|apply Z.ltb_ge in E]; lia. Qed.
Lemma pos16_ok x : Z.abs x <= 3328 -> pos16 x = x mod Q.
Proof.
  intros H. unfold pos16, KYBER_Q, Q. assert (E : s16 (u16 x) = x). { unfold s16, u16. change (2 ^ 15) with 32768. change (2 ^ 16) with 65536. lia. }
  rewrite E, shr15 by lia. unfold u16. change (2 ^ 16) with 65536. destruct (x <? 0) eqn:L; [apply Z.ltb_lt in L|apply Z.ltb_ge in L].
  - change (Z.land (-1) 3329) with 3329. lia.
  - change (Z.land 0 3329) with 0. lia.
Qed.
Lemma posi16_ok x : Z.abs x <= 3328 -> posi16 x = x mod Q.
Proof.
  intros H. unfold posi16, KYBER_Q, Q. rewrite shr15 by lia. destruct (x <? 0) eqn:L; [apply Z.ltb_lt in L|apply Z.ltb_ge in L].
  - change (Z.land (-1) 3329) with 3329. rewrite s16_id by lia. lia.
  - change (Z.land 0 3329) with 0. rewrite s16_id by lia. lia.
Qed.
Lemma modQ x : 0 <= x mod Q < Q. Proof. apply Z.mod_pos_bound. reflexivity. Qed.
Lemma round_eq d t : 0 <= t < Q -> 0 <= d <= 11 -> (2 ^ d * t + 1664) / 3329 = (2 * 2 ^ d * t + Q) / (2 * Q).
Proof.
  intros Ht Hd. unfold Q. rewrite <- Z.mul_assoc. generalize (2 ^ d * t). intros a. lia.
Qed.
Lemma comp4_ok x : Z.abs x <= 3328 -> comp4 x = compress 4 x.
Proof.
  intros H. unfold comp4, compress. rewrite posi16_ok by exact H. pose proof (modQ x) as HQ. rewrite (mask4 _). unfold u16, u8. rewrite (Z.mod_small (x mod Q) (2 ^ 16)) by (unfold Q in *; lia).
  rewrite Z.shiftl_mul_pow2 by lia. change (KYBER_Q / 2) with 1664. unfold KYBER_Q. rewrite <- round_eq by lia. rewrite (Z.mul_comm _ (2 ^ 4)).
  apply Z.mod_small. pose proof (mod_range ((2 ^ 4 * (x mod Q) + 1664) / 3329) 4 ltac:(lia)). lia.
Qed.
Lemma comp5_ok x : Z.abs x <= 3328 -> comp5 x = compress 5 x.
Proof.
  intros H. unfold comp5, compress. rewrite posi16_ok by exact H. pose proof (modQ x) as HQ. rewrite (mask5 _). unfold u32, u8. rewrite (Z.mod_small (x mod Q) (2 ^ 32)) by (unfold Q in *; lia).
  rewrite Z.shiftl_mul_pow2 by lia. rewrite (Z.mod_small (x mod Q * 2 ^ 5) (2 ^ 32)) by (unfold Q in *; lia). change (KYBER_Q / 2) with 1664. rewrite (Z.mod_small (x mod Q * 2 ^ 5 + 1664) (2 ^ 32)) by (unfold Q in *; lia).
  unfold KYBER_Q. rewrite <- round_eq by lia. rewrite (Z.mul_comm _ (2 ^ 5)).
  apply Z.mod_small. pose proof (mod_range ((2 ^ 5 * (x mod Q) + 1664) / 3329) 5 ltac:(lia)). lia.
Qed.
Lemma comp_d_ok d x : d = 10 \/ d = 11 -> Z.abs x <= 3328 -> comp_d d x = compress d x.
Proof.
  intros Hd H. unfold comp_d, compress. rewrite pos16_ok by exact H. pose proof (modQ x) as HQ. assert (P : 0 < 2 ^ d <= 2 ^ 11) by (destruct Hd as [-> | ->]; split; reflexivity || lia).
  replace (2 ^ d - 1) with (Z.ones d) by (rewrite Z.ones_equiv; lia). rewrite Z.land_ones by lia. unfold u32, u16.
  rewrite Z.shiftl_mul_pow2 by lia. assert (B : 0 <= x mod Q * 2 ^ d <= 3328 * 2 ^ 11) by (unfold Q in *; nia). change (KYBER_Q / 2) with 1664.
  rewrite (Z.mod_small (x mod Q * 2 ^ d) (2 ^ 32)) by lia. rewrite (Z.mod_small (x mod Q * 2 ^ d + 1664) (2 ^ 32)) by lia.
  unfold KYBER_Q. rewrite <- round_eq by lia. rewrite (Z.mul_comm _ (2 ^ d)).
  apply Z.mod_small. pose proof (mod_range ((2 ^ d * (x mod Q) + 1664) / 3329) d ltac:(lia)). lia.
Qed.
Lemma compress_range d x : 0 <= d -> 0 <= compress d x < 2 ^ d. Proof. intros H. unfold compress. now apply mod_range. Qed.
Lemma decompress_range d y : 1 <= d <= 12 -> 0 <= y < 2 ^ d -> 0 <= decompress d y <= Q.
Proof.
  intros Hd Hy. unfold decompress. assert (P : 0 < 2 ^ d) by (apply Z.pow_pos_nonneg; lia). split; [apply Z.div_pos; unfold Q; lia|]. apply Z.lt_succ_r, Z.div_lt_upper_bound; [lia|]. unfold Q. nia.
Qed.
Lemma dec4_ok y : 0 <= y < 2 ^ 4 -> s16 (Z.shiftr (y * KYBER_Q + 8) 4) = decompress 4 y.
Proof. intros H. pose proof (decompress_range 4 y ltac:(lia) H) as R. unfold decompress, Q, KYBER_Q in *. rewrite Z.shiftr_div_pow2 by lia. rewrite s16_id; change (2 ^ 15) with 32768; change (2 ^ 4) with 16 in *; lia. Qed.
Lemma dec5_ok y : 0 <= y < 2 ^ 5 -> s16 (u16 (Z.shiftr (y * KYBER_Q + 16) 5)) = decompress 5 y.
Proof.
  intros H. pose proof (decompress_range 5 y ltac:(lia) H) as R. unfold u16. unfold decompress, Q, KYBER_Q in *. rewrite Z.shiftr_div_pow2 by lia. rewrite Z.mod_small by (change (2 ^ 5) with 32 in *; lia).
  rewrite s16_id; change (2 ^ 15) with 32768; change (2 ^ 5) with 32 in *; lia.
Qed.
Lemma dec10_ok y : 0 <= y < 2 ^ 10 -> s16 (Z.shiftr (y * KYBER_Q + 512) 10) = decompress 10 y.
Proof. intros H. pose proof (decompress_range 10 y ltac:(lia) H) as R. unfold decompress, Q, KYBER_Q in *. rewrite Z.shiftr_div_pow2 by lia. rewrite s16_id; change (2 ^ 15) with 32768; change (2 ^ 10) with 1024 in *; lia. Qed.
Lemma dec11_ok y : 0 <= y < 2 ^ 11 -> s16 (Z.shiftr (y * KYBER_Q + 1024) 11) = decompress 11 y.
Proof. intros H. pose proof (decompress_range 11 y ltac:(lia) H) as R. unfold decompress, Q, KYBER_Q in *. rewrite Z.shiftr_div_pow2 by lia. rewrite s16_id; change (2 ^ 15) with 32768; change (2 ^ 11) with 2048 in *; lia. Qed.
(** what is read back of a message bit *)
Lemma msg_bit_ok x e b : Z.abs x <= 1664 -> (b = 0 \/ b = 1) -> -832 <= e <= 831 -> x == e + 1665 * b -> msg_bit x = b.
Proof.
  intros H Hb He E. unfold msg_bit. rewrite pos16_ok by lia. apply cg_mod in E. rewrite E. change (KYBER_Q / 2) with 1664. unfold KYBER_Q, Q in *. rewrite Z.shiftl_mul_pow2 by lia. change (2 ^ 1) with 2.
  rewrite (Z.land_ones _ 1) by lia. change (2 ^ 1) with 2. clear E. destruct Hb as [-> | ->]; lia.
Qed.
