(** The unrolled SHA2-512 block function equals the FIPS 180-4 compression function. *)
From Verif Require Import BaseLemmas Model_Straight Model_SHA2Gen Spec_SHA2 Proofs_SHA2.
Open Scope Z_scope.

Local Notation w := 64.
Definition xS1 (x : sx) : sx := Xo (Xo (Or (SL x 50) (SR x 14)) (Or (SL x 46) (SR x 18))) (Or (SL x 23) (SR x 41)).
Definition xS0 (x : sx) : sx := Xo (Xo (Or (SL x 36) (SR x 28)) (Or (SL x 30) (SR x 34))) (Or (SL x 25) (SR x 39)).
Definition xs1 (x : sx) : sx := Xo (Xo (Or (SL x 45) (SR x 19)) (Or (SL x 3) (SR x 61))) (SR x 6).
Definition xs0 (x : sx) : sx := Xo (Xo (Or (SL x 63) (SR x 1)) (Or (SL x 56) (SR x 8))) (SR x 7).
Definition rg (j k : nat) : nat := ((k + 16 - j) mod 8)%nat.
Definition wg (k : nat) : nat := (9 + k mod 16)%nat.
(** the statements of round t: j = t mod 16, k the constant, u whether the schedule is extended *)
Definition tmpl (j : nat) (k : Z) (u : bool) : prog :=
  let a := R (rg j 0) in let b := R (rg j 1) in let c := R (rg j 2) in let d := rg j 3 in
  let e := R (rg j 4) in let f := R (rg j 5) in let g := R (rg j 6) in let h := rg j 7 in
  (if u then [(wg j, Ad (R (wg j)) (Ad (Ad (xs1 (R (wg (j + 14)))) (R (wg (j + 9)))) (xs0 (R (wg (j + 1))))))] else []) ++
  [(8%nat, Ad (Ad (Ad (Ad (R h) (xS1 e)) (Xo (An e f) (An (No e) g))) (R (wg j))) (K k));
   (d, Ad (R d) (R 8));
   (h, Ad (Ad (R 8) (xS0 a)) (Xo (Xo (An a b) (An a c)) (An b c)))].
Definition KC : list Z := Eval vm_compute in K512.
Lemma KC_eq : KC = K512. Proof. vm_compute. reflexivity. Qed.
(** the translated text is exactly this program *)
Lemma text_ok : sha512_U = head ++ concat (map (round_prog KC tmpl) (seq 0 (length KC))) ++ tailp.
Proof. vm_compute. reflexivity. Qed.

(** one round on registers, in the association of the code *)
Definition cS1 x := Z.lxor (Z.lxor (Z.lor (wshl w x 50) (wshr x 14)) (Z.lor (wshl w x 46) (wshr x 18))) (Z.lor (wshl w x 23) (wshr x 41)).
Definition cS0 x := Z.lxor (Z.lxor (Z.lor (wshl w x 36) (wshr x 28)) (Z.lor (wshl w x 30) (wshr x 34))) (Z.lor (wshl w x 25) (wshr x 39)).
Definition cs1 x := Z.lxor (Z.lxor (Z.lor (wshl w x 45) (wshr x 19)) (Z.lor (wshl w x 3) (wshr x 61))) (wshr x 6).
Definition cs0 x := Z.lxor (Z.lxor (Z.lor (wshl w x 63) (wshr x 1)) (Z.lor (wshl w x 56) (wshr x 8))) (wshr x 7).
Lemma cS1_eq x : cS1 x = Sum1_512 x. Proof. unfold cS1, Sum1_512, ROTR. rewrite !(Z.lor_comm (wshl w x _)). reflexivity. Qed.
Lemma cS0_eq x : cS0 x = Sum0_512 x. Proof. unfold cS0, Sum0_512, ROTR. rewrite !(Z.lor_comm (wshl w x _)). reflexivity. Qed.
Lemma cs1_eq x : cs1 x = sig1_512 x. Proof. unfold cs1, sig1_512, ROTR. rewrite !(Z.lor_comm (wshl w x _)). reflexivity. Qed.
Lemma cs0_eq x : cs0 x = sig0_512 x. Proof. unfold cs0, sig0_512, ROTR. rewrite !(Z.lor_comm (wshl w x _)). reflexivity. Qed.
Lemma wadd_ADD a b : wadd w a b = ADD w a b. Proof. reflexivity. Qed.
Definition rT1 e f g h k x := wadd w (wadd w (wadd w (wadd w h (cS1 e)) (Z.lxor (Z.land e f) (Z.land (wnot w e) g))) x) k.
Definition rH a b c t := wadd w (wadd w t (cS0 a)) (Z.lxor (Z.lxor (Z.land a b) (Z.land a c)) (Z.land b c)).
Definition cW (ws : list Z) (j : nat) : Z :=
  wadd w (nth j ws 0) (wadd w (wadd w (cs1 (nth ((j + 14) mod 16) ws 0)) (nth ((j + 9) mod 16) ws 0)) (cs0 (nth ((j + 1) mod 16) ws 0))).
Definition cring (u : bool) (j : nat) (ws : list Z) : list Z := if u then upd ws j (cW ws j) else ws.
Definition rstep (s : list Z) (k x : Z) : list Z :=
  match s with
  | [a; b; c; d; e; f; g; h] => let t := rT1 e f g h k x in [rH a b c t; a; b; c; wadd w d t; e; f; g]
  | _ => s
  end.

Ltac symb := cbv beta iota zeta delta [exec fold_left exec1 tmpl rg wg xS1 xS0 xs1 xs0 ev upd nth rot rstep rT1 rH cS1 cS0 cs1 cs0 cring cW skipn firstn app Nat.add Nat.sub Nat.modulo Nat.divmod fst snd].
Lemma step_code u j k a b c d e f g h r ws rest : (j < 16)%nat -> length ws = 16%nat ->
  exists r', exec w (tmpl j k u) (rot (j mod 8) [a; b; c; d; e; f; g; h] ++ r :: ws ++ rest) =
  rot (S j mod 8) (rstep [a; b; c; d; e; f; g; h] k (nth j (cring u j ws) 0)) ++ r' :: cring u j ws ++ rest.
Proof.
  intros Hj Hw.
  do 16 (destruct ws as [|? ws]; [discriminate Hw|]). destruct ws; [|discriminate Hw]. clear Hw.
  destruct u; do 16 (destruct j as [|j]; [eexists; symb; reflexivity|]); exfalso; lia.
Qed.
Lemma cring_eq u j ws : cring u j ws = ring w sig0_512 sig1_512 u j ws.
Proof. destruct u; [|reflexivity]. unfold cring, ring, cW, rW. rewrite cs1_eq, cs0_eq, !wadd_ADD. reflexivity. Qed.
Lemma rstep_eq s k x : length s = 8%nat -> rstep s k x = sha2_round w Sum0_512 Sum1_512 s (k, x).
Proof.
  intros H. do 8 (destruct s as [|? s]; [discriminate H|]). destruct s; [|discriminate H].
  unfold rstep, sha2_round, rT1, rH. cbn [fst snd]. cbv zeta. rewrite !wadd_ADD.
  rewrite (ADD_swap w _ x k) by lia. rewrite cS1_eq, cS0_eq. rewrite (ADD_assoc w _ (Sum0_512 _)) by lia. reflexivity.
Qed.
Lemma step_ok u j k s r ws rest : (j < 16)%nat -> length s = 8%nat -> length ws = 16%nat ->
  exists r', exec w (tmpl j k u) (rot (j mod 8) s ++ r :: ws ++ rest) =
    rot (S j mod 8) (sha2_round w Sum0_512 Sum1_512 s (k, nth j (ring w sig0_512 sig1_512 u j ws) 0)) ++ r' :: ring w sig0_512 sig1_512 u j ws ++ rest.
Proof.
  intros Hj H Hw. rewrite <- rstep_eq by auto. rewrite <- cring_eq. do 8 (destruct s as [|? s]; [discriminate H|]). destruct s; [|discriminate H].
  now apply step_code.
Qed.
Lemma sha512_U_ok junk st m : length junk = 25%nat -> length st = 8%nat -> length m = 16%nat ->
  slice (exec w sha512_U (junk ++ st ++ m)) 25 8 = compress512 st m.
Proof.
  intros H1 H2 H3. rewrite text_ok. unfold compress512. rewrite <- KC_eq.
  apply (compress_ok w Sum0_512 Sum1_512 sig0_512 sig1_512 KC tmpl step_ok); auto; cbn; lia.
Qed.
