(** Ntt computes the transform, InvNtt its inverse up to the factor 2^16. *)
From Verif Require Import BaseLemmas Spec_Kyber Model_Kyber Proofs_Kyber Proofs_Kyber2.
From Coq Require Import Setoid Morphisms.
Open Scope Z_scope.

(** lists equal modulo Q; the first one bounded *)
Definition cgl : list Z -> list Z -> Prop := Forall2 cg.
Definition near (B x y : Z) : Prop := x == y /\ Z.abs x <= B.
Definition nearl (B : Z) : list Z -> list Z -> Prop := Forall2 (near B).
#[global] Instance cgl_equiv : Equivalence cgl.
Proof.
  split.
  - intros l. induction l; constructor; [reflexivity|assumption].
  - intros a b H. induction H; constructor; [now symmetry|assumption].
  - intros a b c H. revert c. induction H; intros c H1; [exact H1|]. inversion H1; subst. constructor; [etransitivity; eassumption|]. now apply IHForall2.
Qed.
Lemma nearl_cgl B a b : nearl B a b -> cgl a b.
Proof. intros H. induction H; constructor; [apply H|assumption]. Qed.
Lemma nearl_bnd B a b : nearl B a b -> Forall (fun x => Z.abs x <= B) a.
Proof. intros H. induction H; constructor; [apply H|assumption]. Qed.
Lemma nearl_mk B a b : cgl a b -> Forall (fun x => Z.abs x <= B) a -> nearl B a b.
Proof. intros H. induction H; intros F; constructor; inversion F; subst; [split; assumption|]. now apply IHForall2. Qed.
Lemma nearl_le B B' a b : B <= B' -> nearl B a b -> nearl B' a b.
Proof. intros HB H. induction H as [|x y l l' [] ]; constructor; [split; [assumption|lia]|assumption]. Qed.
Lemma F2_len {A B} (R : A -> B -> Prop) a b : Forall2 R a b -> length a = length b.
Proof. intros H. induction H; cbn; congruence. Qed.
Lemma F2_nth {A B} (R : A -> B -> Prop) a b d e : Forall2 R a b -> forall i, (i < length a)%nat -> R (nth i a d) (nth i b e).
Proof. intros H. induction H; cbn [length]; intros i Hi; [lia|]. destruct i; [assumption|]. cbn [nth]. apply IHForall2. lia. Qed.
Lemma F2_mk {A B} (R : A -> B -> Prop) d e : forall a b, length a = length b -> (forall i, (i < length a)%nat -> R (nth i a d) (nth i b e)) -> Forall2 R a b.
Proof.
  induction a as [|x a IH]; intros [|y b] L H; try discriminate; constructor.
  - apply (H 0%nat). cbn. lia.
  - apply IH; [cbn in L; lia|]. intros i Hi. apply (H (S i)). cbn. lia.
Qed.
Lemma F2_app {A B} (R : A -> B -> Prop) a b c d : Forall2 R a b -> Forall2 R c d -> Forall2 R (a ++ c) (b ++ d).
Proof. intros. now apply Forall2_app. Qed.
Lemma F2_split {A B} (R : A -> B -> Prop) a c b : Forall2 R (a ++ c) b -> exists b1 b2, b = b1 ++ b2 /\ Forall2 R a b1 /\ Forall2 R c b2.
Proof. intros H. apply Forall2_app_inv_l in H. destruct H as (b1 & b2 & H1 & H2 & ->). eauto. Qed.
Lemma cgl_nth a b i : cgl a b -> nth i a 0 == nth i b 0.
Proof.
  intros H. destruct (Nat.lt_ge_cases i (length a)) as [L|L].
  - now apply (F2_nth cg a b 0 0 H).
  - rewrite !nth_overflow by (rewrite <- ?(F2_len _ _ _ H); lia). reflexivity.
Qed.

(** relation through butterflies and layers *)
Lemma zw_rel (R R' : Z -> Z -> Prop) g g' : (forall x y x' y', R x x' -> R y y' -> R' (g x y) (g' x' y')) ->
  forall a b a' b', Forall2 R a a' -> Forall2 R b b' -> Forall2 R' (zw g a b) (zw g' a' b').
Proof.
  intros H a b a' b' H1. revert b b'. induction H1; intros b b' H2; [constructor|]. destruct H2; [constructor|].
  unfold zw. cbn [combine map fst snd]. constructor; [now apply H|]. now apply IHForall2.
Qed.
Lemma bf_rel (R R' : Z -> Z -> Prop) g h g' h' len c c' :
  (forall x y x' y', R x x' -> R y y' -> R' (g x y) (g' x' y') /\ R' (h x y) (h' x' y')) -> length c = (2 * len)%nat -> Forall2 R c c' ->
  Forall2 R' (bf g h c) (bf g' h' c').
Proof.
  intros H L F. destruct (split_half c len L) as (c0 & c1 & -> & L0 & L1). destruct (F2_split _ _ _ _ F) as (d0 & d1 & -> & F0 & F1).
  rewrite !bf_app by (rewrite <- ?(F2_len _ _ _ F0), <- ?(F2_len _ _ _ F1); lia).
  apply F2_app; eapply zw_rel; try eassumption; intros; now apply H.
Qed.
Lemma lay_rel (R R' : Z -> Z -> Prop) L L' m w : (forall z c c', length c = w -> Forall2 R c c' -> Forall2 R' (L z c) (L' (m z) c')) ->
  forall zs r r', length r = (length zs * w)%nat -> Forall2 R r r' -> Forall2 R' (lay L zs w r) (lay L' (map m zs) w r').
Proof.
  intros H. induction zs as [|z zs IH]; intros r r' HL F.
  - destruct r; [|discriminate]. inversion F; subst. constructor.
  - cbn [length] in HL. destruct (split_at r w (length zs * w)%nat) as (c & t & -> & Lc & Lt); [lia|].
    destruct (F2_split _ _ _ _ F) as (c' & t' & -> & F0 & F1). cbn [map]. rewrite !lay_cons by (rewrite <- ?(F2_len _ _ _ F0); exact Lc).
    apply F2_app; auto.
Qed.
(** the same with a bound on the numbers of the layer *)
Lemma lay_rel_in (R R' : Z -> Z -> Prop) L L' m w (P : Z -> Prop) : (forall z c c', P z -> length c = w -> Forall2 R c c' -> Forall2 R' (L z c) (L' (m z) c')) ->
  forall zs r r', Forall P zs -> length r = (length zs * w)%nat -> Forall2 R r r' -> Forall2 R' (lay L zs w r) (lay L' (map m zs) w r').
Proof.
  intros H. induction zs as [|z zs IH]; intros r r' HP HL F.
  - destruct r; [|discriminate]. inversion F; subst. constructor.
  - cbn [length] in HL. inversion HP; subst. destruct (split_at r w (length zs * w)%nat) as (c & t & -> & Lc & Lt); [lia|].
    destruct (F2_split _ _ _ _ F) as (c' & t' & -> & F0 & F1). cbn [map]. rewrite !lay_cons by (rewrite <- ?(F2_len _ _ _ F0); exact Lc).
    apply F2_app; auto.
Qed.
Lemma lay_len L w : (forall z c, length c = w -> length (L z c) = w) -> forall zs r, length r = (length zs * w)%nat -> length (lay L zs w r) = (length zs * w)%nat.
Proof.
  intros H. induction zs as [|z zs IH]; intros r HL; [exact HL|]. cbn [length] in HL. destruct (split_at r w (length zs * w)%nat) as (c & t & -> & Lc & Lt); [lia|].
  rewrite lay_cons by exact Lc. rewrite app_length, H, IH by assumption. cbn [length]. lia.
Qed.

(** ** exact layers *)
Definition L0 (z : Z) : list Z -> list Z := bf (fun x y => x + z * y) (fun x y => x - z * y).
Definition I0 (z : Z) : list Z -> list Z := bf (fun x y => x + y) (fun x y => z * (y - x)).
Definition small_z (z : Z) : Prop := Z.abs z <= 1659.
Lemma zns_small k n : (k + n <= 128)%nat -> Forall small_z (zns k n).
Proof. intros H. apply Forall_forall. intros x Hx. apply in_map_iff in Hx. destruct Hx as (i & <- & Hi). apply in_seq in Hi. apply zn_small. lia. Qed.
Lemma fwd_near B z c c' len : B <= 30000 -> small_z z -> length c = (2 * len)%nat -> nearl B c c' -> nearl (B + 2500) (fwd z c) (L0 (169 * z) c').
Proof.
  intros HB Hz HL F. apply (bf_rel (near B) (near (B + 2500)) _ _ _ _ len); [|exact HL|exact F].
  intros x y x' y' [Hx Bx] [Hy By]. red in Hz. destruct (FqMul_ok z y 800 ltac:(lia)) as [E1 E2]; [nia|].
  rewrite !s16_id by lia. split; (split; [|lia]); rewrite E1, Hx, Hy.
  - apply cg_ex. exists 0. ring.
  - apply cg_ex. exists 0. ring.
Qed.
Lemma bwd_near B z c c' len : B <= 16383 -> small_z z -> length c = (2 * len)%nat -> nearl B c c' -> nearl 2500 (bwd z c) (I0 (169 * z) c').
Proof.
  intros HB Hz HL F. apply (bf_rel (near B) (near 2500) _ _ _ _ len); [|exact HL|exact F].
  intros x y x' y' [Hx Bx] [Hy By]. red in Hz. rewrite !s16_id by lia.
  destruct (BarrettReduce_ok (x + y)) as [E1 E2]; [lia|]. destruct (FqMul_ok z (y - x) 830 ltac:(lia)) as [E3 E4]; [nia|].
  split; (split; [|lia]).
  - now rewrite E1, Hx, Hy.
  - rewrite E3, Hx, Hy. apply cg_ex. exists 0. ring.
Qed.
Definition zrs (k n : nat) : list Z := map (Z.mul 169) (zns k n).
Definition zis (nb : nat) : list Z := map (fun i => zn (2 * nb - 1 - i)) (seq 0 nb).
Definition FW (p : list Z) : list Z :=
    lay L0 (zrs 64 64) (2 * 2) (lay L0 (zrs 32 32) (2 * 4) (lay L0 (zrs 16 16) (2 * 8) (lay L0 (zrs 8 8) (2 * 16) (lay L0 (zrs 4 4) (2 * 32) (lay L0 (zrs 2 2) (2 * 64) (lay L0 (zrs 1 1) (2 * 128) p)))))).
Definition BW (c : list Z) : list Z :=
  lay I0 (map (Z.mul 169) (zis 1)) (2 * 128) (lay I0 (map (Z.mul 169) (zis 2)) (2 * 64) (lay I0 (map (Z.mul 169) (zis 4)) (2 * 32) (lay I0 (map (Z.mul 169) (zis 8)) (2 * 16)
    (lay I0 (map (Z.mul 169) (zis 16)) (2 * 8) (lay I0 (map (Z.mul 169) (zis 32)) (2 * 4) (lay I0 (map (Z.mul 169) (zis 64)) (2 * 2) c)))))).

Lemma ntt_layer_ok len nb r : (0 < len)%nat -> (nb * (2 * len) = 256)%nat -> (2 * nb <= 128)%nat -> length r = 256%nat ->
  ntt_layer (nb, r) len = Ok ((2 * nb)%nat, lay fwd (zns nb nb) (2 * len) r).
Proof.
  intros H0 H1 H2 H3. unfold ntt_layer. replace (256 / (2 * len))%nat with nb by (rewrite <- H1; now rewrite Nat.div_mul by lia).
  pose proof (ntt_blocks len H0 nb nb [] r 0 eq_refl ltac:(lia) ltac:(lia)) as E. cbn [app] in E. rewrite E. do 2 f_equal. lia.
Qed.
Lemma inv_layer_ok len nb r : (0 < len)%nat -> (0 < nb)%nat -> (nb * (2 * len) = 256)%nat -> (2 * nb <= 128)%nat -> length r = 256%nat ->
  inv_layer ((2 * nb - 1)%nat, r) len = Ok ((nb - 1)%nat, lay bwd (zis nb) (2 * len) r).
Proof.
  intros H0 H00 H1 H2 H3. unfold inv_layer. replace (256 / (2 * len))%nat with nb by (rewrite <- H1; now rewrite Nat.div_mul by lia).
  pose proof (inv_blocks len H0 nb (2 * nb - 1) [] r 0 eq_refl ltac:(lia) ltac:(lia) ltac:(lia)) as E. cbn [app] in E. rewrite E. do 2 f_equal. lia.
Qed.
Lemma zns_len k n : length (zns k n) = n. Proof. unfold zns. now rewrite map_length, seq_length. Qed.
Lemma zis_len n : length (zis n) = n. Proof. unfold zis. now rewrite map_length, seq_length. Qed.
Lemma zis_small n : (2 * n <= 128)%nat -> Forall small_z (zis n).
Proof. intros H. apply Forall_forall. intros x Hx. apply in_map_iff in Hx. destruct Hx as (i & <- & Hi). apply in_seq in Hi. apply zn_small. lia. Qed.
Lemma fwd_len z c len : length c = (2 * len)%nat -> length (fwd z c) = (2 * len)%nat. Proof. apply bf_len. Qed.
Lemma bwd_len z c len : length c = (2 * len)%nat -> length (bwd z c) = (2 * len)%nat. Proof. apply bf_len. Qed.
Lemma L0_len z c len : length c = (2 * len)%nat -> length (L0 z c) = (2 * len)%nat. Proof. apply bf_len. Qed.
Lemma I0_len z c len : length c = (2 * len)%nat -> length (I0 z c) = (2 * len)%nat. Proof. apply bf_len. Qed.

Lemma layer_near B nb len r r' : B <= 30000 -> (nb * (2 * len) = 256)%nat -> (2 * nb <= 128)%nat -> length r = 256%nat -> nearl B r r' ->
  nearl (B + 2500) (lay fwd (zns nb nb) (2 * len) r) (lay L0 (zrs nb nb) (2 * len) r') /\ length (lay fwd (zns nb nb) (2 * len) r) = 256%nat.
Proof.
  intros HB H1 H2 H3 F. split.
  - apply (lay_rel_in (near B) (near (B + 2500)) fwd L0 (Z.mul 169) (2 * len) small_z).
    + intros z c c' Hz Hc Fc. now apply (fwd_near B z c c' len).
    + apply zns_small. lia.
    + rewrite zns_len. lia.
    + exact F.
  - rewrite lay_len; [rewrite zns_len; lia| |rewrite zns_len; lia]. intros z c. apply fwd_len.
Qed.
Lemma inv_near B nb len r r' : B <= 16383 -> (nb * (2 * len) = 256)%nat -> (2 * nb <= 128)%nat -> length r = 256%nat -> nearl B r r' ->
  nearl 2500 (lay bwd (zis nb) (2 * len) r) (lay I0 (map (Z.mul 169) (zis nb)) (2 * len) r') /\ length (lay bwd (zis nb) (2 * len) r) = 256%nat.
Proof.
  intros HB H1 H2 H3 F. split.
  - apply (lay_rel_in (near B) (near 2500) bwd I0 (Z.mul 169) (2 * len) small_z).
    + intros z c c' Hz Hc Fc. now apply (bwd_near B z c c' len).
    + apply zis_small. lia.
    + rewrite zis_len. lia.
    + exact F.
  - rewrite lay_len; [rewrite zis_len; lia| |rewrite zis_len; lia]. intros z c. apply bwd_len.
Qed.
Lemma Ntt_ok B r r' : B <= 15000 -> length r = 256%nat -> nearl B r r' -> exists s, Ntt r = Ok s /\ length s = 256%nat /\ nearl (B + 17500) s (FW r').
Proof.
  intros HB H F. unfold Ntt. cbn [for_in].
  rewrite (ntt_layer_ok 128 1) by (lia || reflexivity). cbn [bind]. destruct (layer_near (B) 1 128 _ _ ltac:(lia) eq_refl ltac:(lia) H F) as [F1 E1].
  rewrite (ntt_layer_ok 64 2) by (lia || reflexivity). cbn [bind]. destruct (layer_near (B + 2500) 2 64 _ _ ltac:(lia) eq_refl ltac:(lia) E1 F1) as [F2 E2].
  rewrite (ntt_layer_ok 32 4) by (lia || reflexivity). cbn [bind]. destruct (layer_near (B + 2500 + 2500) 4 32 _ _ ltac:(lia) eq_refl ltac:(lia) E2 F2) as [F3 E3].
  rewrite (ntt_layer_ok 16 8) by (lia || reflexivity). cbn [bind]. destruct (layer_near (B + 2500 + 2500 + 2500) 8 16 _ _ ltac:(lia) eq_refl ltac:(lia) E3 F3) as [F4 E4].
  rewrite (ntt_layer_ok 8 16) by (lia || reflexivity). cbn [bind]. destruct (layer_near (B + 2500 + 2500 + 2500 + 2500) 16 8 _ _ ltac:(lia) eq_refl ltac:(lia) E4 F4) as [F5 E5].
  rewrite (ntt_layer_ok 4 32) by (lia || reflexivity). cbn [bind]. destruct (layer_near (B + 2500 + 2500 + 2500 + 2500 + 2500) 32 4 _ _ ltac:(lia) eq_refl ltac:(lia) E5 F5) as [F6 E6].
  rewrite (ntt_layer_ok 2 64) by (lia || reflexivity). cbn [bind]. destruct (layer_near (B + 2500 + 2500 + 2500 + 2500 + 2500 + 2500) 64 2 _ _ ltac:(lia) eq_refl ltac:(lia) E6 F6) as [F7 E7].
  cbn [snd]. eexists. split; [reflexivity|]. split; [exact E7|]. eapply nearl_le; [|exact F7]. lia.
Qed.
Lemma last_near a b : nearl 2500 a b -> nearl 1725 (map (fun x => FqMul x 1441) a) (map (Z.mul (169 * 1441)) b).
Proof.
  intros F7. induction F7 as [|x y l l' [Hx Bx] F IH]; cbn [map]; constructor; [|exact IH].
  destruct (FqMul_ok x 1441 60 ltac:(lia)) as [E1 E2]; [lia|]. split; [|lia]. rewrite E1, Hx. apply cg_ex. exists 0. ring.
Qed.
Lemma InvNtt_ok B r r' : B <= 16383 -> length r = 256%nat -> nearl B r r' ->
  exists s, InvNtt r = Ok s /\ length s = 256%nat /\ nearl 1725 s (map (Z.mul (169 * 1441)) (BW r')).
Proof.
  intros HB H F. unfold InvNtt. cbn [for_in]. change 127%nat with (2 * 64 - 1)%nat.
  rewrite (inv_layer_ok 2 64) by (lia || reflexivity). cbn [bind]. destruct (inv_near B 64 2 _ _ HB eq_refl ltac:(lia) H F) as [F1 E1].
  change (64 - 1)%nat with (2 * 32 - 1)%nat.
  rewrite (inv_layer_ok 4 32) by (lia || reflexivity). cbn [bind]. destruct (inv_near 2500 32 4 _ _ ltac:(lia) eq_refl ltac:(lia) E1 F1) as [F2 E2].
  change (32 - 1)%nat with (2 * 16 - 1)%nat.
  rewrite (inv_layer_ok 8 16) by (lia || reflexivity). cbn [bind]. destruct (inv_near 2500 16 8 _ _ ltac:(lia) eq_refl ltac:(lia) E2 F2) as [F3 E3].
  change (16 - 1)%nat with (2 * 8 - 1)%nat.
  rewrite (inv_layer_ok 16 8) by (lia || reflexivity). cbn [bind]. destruct (inv_near 2500 8 16 _ _ ltac:(lia) eq_refl ltac:(lia) E3 F3) as [F4 E4].
  change (8 - 1)%nat with (2 * 4 - 1)%nat.
  rewrite (inv_layer_ok 32 4) by (lia || reflexivity). cbn [bind]. destruct (inv_near 2500 4 32 _ _ ltac:(lia) eq_refl ltac:(lia) E4 F4) as [F5 E5].
  change (4 - 1)%nat with (2 * 2 - 1)%nat.
  rewrite (inv_layer_ok 64 2) by (lia || reflexivity). cbn [bind]. destruct (inv_near 2500 2 64 _ _ ltac:(lia) eq_refl ltac:(lia) E5 F5) as [F6 E6].
  change (2 - 1)%nat with (2 * 1 - 1)%nat.
  rewrite (inv_layer_ok 128 1) by (lia || reflexivity). cbn [bind]. destruct (inv_near 2500 1 128 _ _ ltac:(lia) eq_refl ltac:(lia) E6 F6) as [F7 E7].
  cbn [snd]. eexists. split; [reflexivity|]. split; [now rewrite map_length|].
  exact (last_near _ _ F7).
Qed.
