(** The properties of the buffered generators, assembled. *)
From Verif Require Import BaseLemmas Proofs_Common Model_Modes Proofs_Windows Spec_Random Model_SecureRandom Session_Random Proofs_SecureRandom Proofs_SecureRandom2 Model_Prng Session_Prng Proofs_Prng.
Open Scope Z_scope.

Lemma c78_history own g cs : Forall (pcall_ok own) cs -> exists s, phistory own g (Prng_new g) cs = Ok (pexpected g (0, 1024)%nat cs, s).
Proof. intros H. destruct (phistory_ok own g cs (Prng_new g) _ (new_inv g) H) as (s & pa & E & _). exists s. exact E. Qed.
Lemma c78_once own g os : exists starts s, length starts = length (sizes os) /\ phistory own g (Prng_new g) (map ask os) = Ok (answers g starts os, s) /\ in_order 0 (combine starts (sizes os)).
Proof. exact (asks_ok own g os (Prng_new g) _ _ (new_inv g)). Qed.
Lemma c78_erased own g cs rs s : Forall (fun c => c <> PReset true) cs -> phistory own g (Prng_new g) cs = Ok (rs, s) -> firstn (r_pos s) (r_buf s) = zeros (r_pos s).
Proof. intros H E. refine (proj2 (phistory_clean own g cs _ _ _ _ H E)). split; [apply Nat.le_0_l|reflexivity]. Qed.
Lemma c78_overrun g cs out off n : Forall (pcall_ok false) cs -> Z.of_nat (length out) < 2 ^ 64 -> (off + n <= length out)%nat -> (n < length out)%nat -> phistory false g (Prng_new g) (cs ++ [PVecAt out off n]) = UB.
Proof.
  intros H H1 H2 H3. rewrite phistory_app. destruct (c78_history false g cs H) as (s & ->). cbn [bind fst snd phistory pstep]. unfold Prng_GenVO. rewrite room_eq by lia.
  replace (length out <? off + n)%nat with false by (symmetry; apply Nat.ltb_ge; lia). cbn [negb guard bind]. rewrite gen_short by (rewrite ?length_zeros; lia). reflexivity.
Qed.
Lemma serve_1 : serve 1 (0, 1024)%nat = (0, (1, 1023))%nat.
Proof. unfold serve. replace (1 <=? 1024)%nat with true by (symmetry; apply Nat.leb_le; lia). f_equal. Qed.
Lemma serve_2 : fst (serve 1024 (1, 1023)%nat) = 1024%nat.
Proof. unfold serve. replace (1024 <=? 1023)%nat with false by (symmetry; apply Nat.leb_gt; lia). reflexivity. Qed.
Lemma serve_3 : fst (serve 1025 (0, 1024)%nat) = 1024%nat.
Proof. unfold serve. replace (1025 <=? 1024)%nat with false by (symmetry; apply Nat.leb_gt; lia). reflexivity. Qed.
Lemma c78_split own g : g 0%nat <> g 1024%nat -> exists a b c s1 s2,
  phistory own g (Prng_new g) [PVec (zeros 1); PVec (zeros 1024)] = Ok ([PBytes a; PBytes b], s1) /\
  phistory own g (Prng_new g) [PVec (zeros 1025)] = Ok ([PBytes c], s2) /\ a ++ b <> c.
Proof.
  intros N. destruct (c78_history own g [PVec (zeros 1); PVec (zeros 1024)]) as (s1 & E1); [repeat constructor|]. destruct (c78_history own g [PVec (zeros 1025)]) as (s2 & E2); [repeat constructor|].
  rewrite E1, E2. exists (source g 0 1), (source g 1024 1024), (source g 1024 1025), s1, s2. split; [|split].
  - cbn [pexpected]. rewrite !length_zeros. rewrite serve_1. cbn [fst snd]. pose proof serve_2 as S2. destruct (serve 1024 (1, 1023)%nat) as [a2 pa2]. cbn [fst] in S2. subst a2. reflexivity.
  - cbn [pexpected]. rewrite !length_zeros. pose proof serve_3 as S2. destruct (serve 1025 (0, 1024)%nat) as [a2 pa2]. cbn [fst] in S2. subst a2. reflexivity.
  - intros Q. apply (f_equal (fun l => nth 0 l 0)) in Q. apply N. exact Q.
Qed.
