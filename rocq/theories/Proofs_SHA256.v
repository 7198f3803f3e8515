(** The unrolled SHA2-256 block function equals the FIPS 180-4 compression function. *)
From Verif Require Import BaseLemmas Model_Straight Model_SHA2Gen Spec_SHA2 Proofs_SHA2.
Open Scope Z_scope.

Local Notation w := 32.
Definition xS1 (x : sx) : sx := Xo (Xo (Or (SR x 6) (SL x 26)) (Or (SR x 11) (SL x 21))) (Or (SR x 25) (SL x 7)).
Definition xS0 (x : sx) : sx := Xo (Xo (Or (SR x 2) (SL x 30)) (Or (SR x 13) (SL x 19))) (Or (SR x 22) (SL x 10)).
Definition xs1 (x : sx) : sx := Xo (Xo (Or (SR x 17) (SL x 15)) (Or (SR x 19) (SL x 13))) (SR x 10).
Definition xs0 (x : sx) : sx := Xo (Xo (Or (SR x 7) (SL x 25)) (Or (SR x 18) (SL x 14))) (SR x 3).
Definition rg (j k : nat) : nat := ((k + 16 - j) mod 8)%nat.
Definition wg (k : nat) : nat := (9 + k mod 16)%nat.
(** the statements of round t: j = t mod 16, k the constant, u whether the schedule is extended *)
Definition tmpl (j : nat) (k : Z) (u : bool) : prog :=
  let a := R (rg j 0) in let b := R (rg j 1) in let c := R (rg j 2) in let d := rg j 3 in
  let e := R (rg j 4) in let f := R (rg j 5) in let g := R (rg j 6) in let h := rg j 7 in
  (if u then [(wg j, Ad (R (wg j)) (Ad (Ad (xs1 (R (wg (j + 14)))) (R (wg (j + 9)))) (xs0 (R (wg (j + 1))))))] else []) ++
  [(8%nat, Ad (Ad (Ad (Ad (R h) (xS1 e)) (Xo (An e f) (An (No e) g))) (R (wg j))) (K k));
   (d, Ad (R d) (R 8));
   (h, Ad (R 8) (Ad (xS0 a) (Xo (Xo (An a b) (An a c)) (An b c))))].
Definition KC : list Z := Eval vm_compute in K256.
Lemma KC_eq : KC = K256. Proof. vm_compute. reflexivity. Qed.
(** the translated text is exactly this program *)
Lemma text_ok : sha256_U = head ++ concat (map (round_prog KC tmpl) (seq 0 (length KC))) ++ tailp.
Proof. vm_compute. reflexivity. Qed.

(** one round on registers, in the association of the code *)
Definition cS1 x := Z.lxor (Z.lxor (Z.lor (wshr x 6) (wshl w x 26)) (Z.lor (wshr x 11) (wshl w x 21))) (Z.lor (wshr x 25) (wshl w x 7)).
Definition cS0 x := Z.lxor (Z.lxor (Z.lor (wshr x 2) (wshl w x 30)) (Z.lor (wshr x 13) (wshl w x 19))) (Z.lor (wshr x 22) (wshl w x 10)).
Definition cs1 x := Z.lxor (Z.lxor (Z.lor (wshr x 17) (wshl w x 15)) (Z.lor (wshr x 19) (wshl w x 13))) (wshr x 10).
Definition cs0 x := Z.lxor (Z.lxor (Z.lor (wshr x 7) (wshl w x 25)) (Z.lor (wshr x 18) (wshl w x 14))) (wshr x 3).
Lemma cS1_eq x : cS1 x = Sum1_256 x. Proof. reflexivity. Qed.
Lemma cS0_eq x : cS0 x = Sum0_256 x. Proof. reflexivity. Qed.
Lemma cs1_eq x : cs1 x = sig1_256 x. Proof. reflexivity. Qed.
Lemma cs0_eq x : cs0 x = sig0_256 x. Proof. reflexivity. Qed.
Lemma wadd_ADD a b : wadd w a b = ADD w a b. Proof. reflexivity. Qed.
Definition rT1 e f g h k x := wadd w (wadd w (wadd w (wadd w h (cS1 e)) (Z.lxor (Z.land e f) (Z.land (wnot w e) g))) x) k.
Definition rH a b c t := wadd w t (wadd w (cS0 a) (Z.lxor (Z.lxor (Z.land a b) (Z.land a c)) (Z.land b c))).
Definition cW (ws : list Z) (j : nat) : Z :=
  wadd w (nth j ws 0) (wadd w (wadd w (cs1 (nth ((j + 14) mod 16) ws 0)) (nth ((j + 9) mod 16) ws 0)) (cs0 (nth ((j + 1) mod 16) ws 0))).
Definition cring (u : bool) (j : nat) (ws : list Z) : list Z := if u then upd ws j (cW ws j) else ws.
Definition rstep (s : list Z) (k x : Z) : list Z :=
  match s with
  | [a; b; c; d; e; f; g; h] => let t := rT1 e f g h k x in [rH a b c t; a; b; c; wadd w d t; e; f; g]
  | _ => s
  end.

Ltac symb := cbv beta iota zeta delta [exec fold_left exec1 tmpl rg wg xS1 xS0 xs1 xs0 ev upd nth rot rstep rT1 rH cS1 cS0 cs1 cs0 cring cW skipn firstn app Nat.add Nat.sub Nat.modulo Nat.divmod fst snd].
Lemma step_code u j k a b c d e f g h r ws rest : (j < 16)%nat -> length ws = 16%nat ->
  exists r', exec w (tmpl j k u) (rot (j mod 8) [a; b; c; d; e; f; g; h] ++ r :: ws ++ rest) =
  rot (S j mod 8) (rstep [a; b; c; d; e; f; g; h] k (nth j (cring u j ws) 0)) ++ r' :: cring u j ws ++ rest.
Proof.
  intros Hj Hw.
  do 16 (destruct ws as [|? ws]; [discriminate Hw|]). destruct ws; [|discriminate Hw]. clear Hw.
  destruct u; do 16 (destruct j as [|j]; [eexists; symb; reflexivity|]); exfalso; lia.
Qed.
Lemma cring_eq u j ws : cring u j ws = ring w sig0_256 sig1_256 u j ws.
Proof. destruct u; [|reflexivity]. unfold cring, ring, cW, rW. rewrite cs1_eq, cs0_eq, !wadd_ADD. reflexivity. Qed.
Lemma rstep_eq s k x : length s = 8%nat -> rstep s k x = sha2_round w Sum0_256 Sum1_256 s (k, x).
Proof.
  intros H. do 8 (destruct s as [|? s]; [discriminate H|]). destruct s; [|discriminate H].
  unfold rstep, sha2_round, rT1, rH. cbn [fst snd]. cbv zeta. rewrite !wadd_ADD.
  rewrite (ADD_swap w _ x k) by lia. rewrite cS1_eq, cS0_eq. reflexivity.
Qed.
Lemma step_ok u j k s r ws rest : (j < 16)%nat -> length s = 8%nat -> length ws = 16%nat ->
  exists r', exec w (tmpl j k u) (rot (j mod 8) s ++ r :: ws ++ rest) =
    rot (S j mod 8) (sha2_round w Sum0_256 Sum1_256 s (k, nth j (ring w sig0_256 sig1_256 u j ws) 0)) ++ r' :: ring w sig0_256 sig1_256 u j ws ++ rest.
Proof.
  intros Hj H Hw. rewrite <- rstep_eq by auto. rewrite <- cring_eq. do 8 (destruct s as [|? s]; [discriminate H|]). destruct s; [|discriminate H].
  now apply step_code.
Qed.
Lemma sha256_U_ok junk st m : length junk = 25%nat -> length st = 8%nat -> length m = 16%nat ->
  slice (exec w sha256_U (junk ++ st ++ m)) 25 8 = compress256 st m.
Proof.
  intros H1 H2 H3. rewrite text_ok. unfold compress256. rewrite <- KC_eq.
  apply (compress_ok w Sum0_256 Sum1_256 sig0_256 sig1_256 KC tmpl step_ok); auto; cbn; lia.
Qed.
