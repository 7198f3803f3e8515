(** The exact layers: their values, their inverses, and products in the transformed domain. *)
From Verif Require Import BaseLemmas Spec_Kyber Model_Kyber Proofs_Kyber Proofs_Kyber2 Proofs_Kyber3.
From Coq Require Import Setoid Morphisms.
Open Scope Z_scope.

(** * inverse layers *)
Definition scale (s : Z) (r : list Z) : list Z := map (Z.mul s) r.
Lemma scale_map s r : map (Z.mul s) r = scale s r. Proof. reflexivity. Qed.
Lemma scale_len s r : length (scale s r) = length r. Proof. apply map_length. Qed.
Lemma nth_scale s r i : nth i (scale s r) 0 = s * nth i r 0.
Proof.
  unfold scale. replace 0 with (s * 0) at 1 by ring. apply map_nth.
Qed.
Lemma scale_app s a b : scale s (a ++ b) = scale s a ++ scale s b. Proof. apply map_app. Qed.
Lemma cgl_scale s a b : cgl a b -> cgl (scale s a) (scale s b).
Proof. intros H. induction H; cbn [scale map]; constructor; [now rewrite H|assumption]. Qed.
Lemma scale_scale s t r : scale s (scale t r) = scale (s * t) r.
Proof. unfold scale. rewrite map_map. apply map_ext. intros. ring. Qed.
Lemma scale_cg s t r : s == t -> cgl (scale s r) (scale t r).
Proof. intros H. induction r; cbn [scale map]; constructor; [now rewrite H|assumption]. Qed.

Lemma L0_cg z len c c' : length c = (2 * len)%nat -> cgl c c' -> cgl (L0 z c) (L0 z c').
Proof. intros HL F. apply (bf_rel cg cg _ _ _ _ len); [|exact HL|exact F]. intros x y x' y' H1 H2. now rewrite H1, H2. Qed.
Lemma I0_cg z len c c' : length c = (2 * len)%nat -> cgl c c' -> cgl (I0 z c) (I0 z c').
Proof. intros HL F. apply (bf_rel cg cg _ _ _ _ len); [|exact HL|exact F]. intros x y x' y' H1 H2. now rewrite H1, H2. Qed.
Lemma zw_scale g s : (forall x y, g (s * x) (s * y) == s * g x y) -> forall a b, cgl (zw g (scale s a) (scale s b)) (scale s (zw g a b)).
Proof.
  intros H. induction a as [|x a IH]; intros [|y b]; cbn [scale map zw combine]; try constructor; [apply H|apply IH].
Qed.
Lemma bf_scale g h s len c : (forall x y, g (s * x) (s * y) == s * g x y) -> (forall x y, h (s * x) (s * y) == s * h x y) -> length c = (2 * len)%nat ->
  cgl (bf g h (scale s c)) (scale s (bf g h c)).
Proof.
  intros H1 H2 HL. destruct (split_half c len HL) as (c0 & c1 & -> & E0 & E1). rewrite scale_app, !bf_app by (rewrite ?scale_len; lia).
  rewrite scale_app. apply F2_app; now apply zw_scale.
Qed.
Lemma lay_scale L s w : (forall z c, length c = w -> cgl (L z (scale s c)) (scale s (L z c))) ->
  forall zs r, length r = (length zs * w)%nat -> cgl (lay L zs w (scale s r)) (scale s (lay L zs w r)).
Proof.
  intros H. induction zs as [|z zs IH]; intros r HL; [cbn [lay]; reflexivity|]. cbn [length] in HL.
  destruct (split_at r w (length zs * w)%nat) as (c & t & -> & Lc & Lt); [lia|]. rewrite scale_app, !lay_cons by (rewrite ?scale_len; exact Lc).
  rewrite scale_app. apply F2_app; [now apply H|now apply IH].
Qed.
Lemma zw_zw_cgl (f : Z -> Z -> Z) : forall (a b c : list Z), length a = length c -> length b = length c -> (forall i, (i < length c)%nat -> f (nth i a 0) (nth i b 0) == nth i c 0) -> cgl (zw f a b) c.
Proof.
  induction a as [|x a IH]; intros [|y b] [|w c] H1 H2 H; try discriminate; cbn [zw combine map]; constructor.
  - apply (H 0%nat). cbn. lia.
  - apply IH; cbn in *; try lia. intros i Hi. apply (H (S i)). lia.
Qed.
Lemma nth_zw f : forall a b i, (i < length a)%nat -> length a = length b -> nth i (zw f a b) 0 = f (nth i a 0) (nth i b 0).
Proof.
  induction a as [|x a IH]; intros [|y b] i Hi HL; cbn [length] in *; try lia. destruct i; [reflexivity|]. cbn [zw combine map nth]. apply IH; lia.
Qed.
Lemma IL_id z z' len c : z * z' == -1 -> length c = (2 * len)%nat -> cgl (I0 z' (L0 z c)) (scale 2 c).
Proof.
  intros H HL. destruct (split_half c len HL) as (c0 & c1 & -> & E0 & E1). unfold L0. rewrite bf_app by lia. unfold I0. rewrite bf_app by (rewrite !zw_len; lia).
  rewrite scale_app. apply F2_app.
  - apply zw_zw_cgl; rewrite ?zw_len, ?scale_len; try lia. intros i Hi. rewrite !nth_zw by (rewrite ?zw_len; lia).
    rewrite nth_scale. apply cg_ex. exists 0. ring.
  - apply zw_zw_cgl; rewrite ?zw_len, ?scale_len; try lia. intros i Hi. rewrite !nth_zw by (rewrite ?zw_len; lia).
    rewrite nth_scale.
    replace (z' * (nth i c0 0 - z * nth i c1 0 - (nth i c0 0 + z * nth i c1 0))) with (-2 * (z * z') * nth i c1 0) by ring. rewrite H. apply cg_ex. exists 0. ring.
Qed.
Lemma LI_id z z' len c : z * z' == -1 -> length c = (2 * len)%nat -> cgl (L0 z (I0 z' c)) (scale 2 c).
Proof.
  intros H HL. destruct (split_half c len HL) as (c0 & c1 & -> & E0 & E1). unfold I0. rewrite bf_app by lia. unfold L0. rewrite bf_app by (rewrite !zw_len; lia).
  rewrite scale_app. apply F2_app.
  - apply zw_zw_cgl; rewrite ?zw_len, ?scale_len; try lia. intros i Hi. rewrite !nth_zw by (rewrite ?zw_len; lia).
    rewrite nth_scale.
    replace (nth i c0 0 + nth i c1 0 + z * (z' * (nth i c1 0 - nth i c0 0))) with (nth i c0 0 + nth i c1 0 + (z * z') * (nth i c1 0 - nth i c0 0)) by ring.
    rewrite H. apply cg_ex. exists 0. ring.
  - apply zw_zw_cgl; rewrite ?zw_len, ?scale_len; try lia. intros i Hi. rewrite !nth_zw by (rewrite ?zw_len; lia).
    rewrite nth_scale.
    replace (nth i c0 0 + nth i c1 0 - z * (z' * (nth i c1 0 - nth i c0 0))) with (nth i c0 0 + nth i c1 0 - (z * z') * (nth i c1 0 - nth i c0 0)) by ring.
    rewrite H. apply cg_ex. exists 0. ring.
Qed.
(** two layers that undo each other *)
Lemma lay_lay L L' w (R : Z -> Z -> Prop) : (forall z c, length c = w -> length (L z c) = w) ->
  (forall z z' c, R z z' -> length c = w -> cgl (L' z' (L z c)) (scale 2 c)) ->
  forall zs zs' r, Forall2 R zs zs' -> length r = (length zs * w)%nat -> cgl (lay L' zs' w (lay L zs w r)) (scale 2 r).
Proof.
  intros HL H zs zs' r F. revert r. induction F as [|z z' zs zs' Hz F IH]; intros r Hr.
  - destruct r; [|discriminate]. constructor.
  - cbn [length] in Hr. destruct (split_at r w (length zs * w)%nat) as (c & t & -> & Lc & Lt); [lia|]. rewrite lay_cons by exact Lc. rewrite lay_cons by (now apply HL).
    rewrite scale_app. apply F2_app; [now apply H|now apply IH].
Qed.
Lemma lay_cg L w : (forall z c c', length c = w -> cgl c c' -> cgl (L z c) (L z c')) ->
  forall zs r r', length r = (length zs * w)%nat -> cgl r r' -> cgl (lay L zs w r) (lay L zs w r').
Proof.
  intros H zs r r' Hr F. pose proof (lay_rel cg cg L L (fun z => z) w H zs r r' Hr F) as E. now rewrite map_id in E.
Qed.
(** the numbers of the two directions *)
Lemma zz_check : forallb (fun nb => forallb (fun i => ((169 * zn (nb + i)) * (169 * zn (2 * nb - 1 - i)) + 1) mod Q =? 0) (seq 0 nb)) [1; 2; 4; 8; 16; 32; 64]%nat = true.
Proof. vm_compute. reflexivity. Qed.
Lemma zz_ok nb : In nb [1; 2; 4; 8; 16; 32; 64]%nat -> Forall2 (fun z z' => z * z' == -1) (zrs nb nb) (map (Z.mul 169) (zis nb)).
Proof.
  intros H. pose proof zz_check as C. rewrite forallb_forall in C. specialize (C nb H). rewrite forallb_forall in C.
  unfold zrs, zns, zis. rewrite !map_map. apply (F2_mk _ 0 0); rewrite !map_length, !seq_length; [reflexivity|]. intros i Hi.
  rewrite (nth_indep _ 0 (169 * zn 0)) by (rewrite map_length, seq_length; lia). rewrite (map_nth (fun x => 169 * zn x)), seq_nth by lia.
  rewrite (nth_indep (map _ (seq 0 nb)) 0 (169 * zn (2 * nb - 1 - 0))) by (rewrite map_length, seq_length; lia). rewrite (map_nth (fun x => 169 * zn (2 * nb - 1 - x))), seq_nth by lia.
  cbn [Nat.add]. specialize (C i ltac:(apply in_seq; lia)). apply Z.eqb_eq in C. apply cg_mod. unfold Q in *. lia.
Qed.
Lemma zrs_len n : length (zrs n n) = n. Proof. unfold zrs. now rewrite map_length, zns_len. Qed.
Lemma zi_len n : length (map (Z.mul 169) (zis n)) = n. Proof. now rewrite map_length, zis_len. Qed.
Lemma flip_F2 {A B} (R : A -> B -> Prop) a b : Forall2 R a b -> Forall2 (fun x y => R y x) b a.
Proof. intros H. induction H; constructor; assumption. Qed.

Section layer.
Context (nb len : nat) (HN : In nb [1; 2; 4; 8; 16; 32; 64]%nat) (HW : (nb * (2 * len) = 256)%nat).
Lemma l_len r : length r = 256%nat -> length (lay L0 (zrs nb nb) (2 * len) r) = 256%nat.
Proof using HW. intros H. rewrite lay_len; [rewrite zrs_len; exact HW| |rewrite zrs_len; lia]. intros. now apply L0_len. Qed.
Lemma i_len r : length r = 256%nat -> length (lay I0 (map (Z.mul 169) (zis nb)) (2 * len) r) = 256%nat.
Proof using HW. intros H. rewrite lay_len; [rewrite zi_len; exact HW| |rewrite zi_len; lia]. intros. now apply I0_len. Qed.
Lemma l_cg r r' : length r = 256%nat -> cgl r r' -> cgl (lay L0 (zrs nb nb) (2 * len) r) (lay L0 (zrs nb nb) (2 * len) r').
Proof using HW. intros H. apply lay_cg; [|rewrite zrs_len; lia]. intros. now apply (L0_cg z len). Qed.
Lemma i_cg r r' : length r = 256%nat -> cgl r r' -> cgl (lay I0 (map (Z.mul 169) (zis nb)) (2 * len) r) (lay I0 (map (Z.mul 169) (zis nb)) (2 * len) r').
Proof using HW. intros H. apply lay_cg; [|rewrite zi_len; lia]. intros. now apply (I0_cg z len). Qed.
Lemma l_scale s r : length r = 256%nat -> cgl (lay L0 (zrs nb nb) (2 * len) (scale s r)) (scale s (lay L0 (zrs nb nb) (2 * len) r)).
Proof using HW. intros H. apply lay_scale; [|rewrite zrs_len; lia]. intros z c Hc. apply (bf_scale _ _ s len); [| |exact Hc]; intros; apply cg_ex; exists 0; ring. Qed.
Lemma i_scale s r : length r = 256%nat -> cgl (lay I0 (map (Z.mul 169) (zis nb)) (2 * len) (scale s r)) (scale s (lay I0 (map (Z.mul 169) (zis nb)) (2 * len) r)).
Proof using HW. intros H. apply lay_scale; [|rewrite zi_len; lia]. intros z c Hc. apply (bf_scale _ _ s len); [| |exact Hc]; intros; apply cg_ex; exists 0; ring. Qed.
(** inverse up to 2, with a factor already there *)
Lemma il_step s r x : length r = 256%nat -> length x = 256%nat -> cgl x (scale s (lay L0 (zrs nb nb) (2 * len) r)) ->
  cgl (lay I0 (map (Z.mul 169) (zis nb)) (2 * len) x) (scale (s * 2) r).
Proof using HN HW.
  intros H Hx E. rewrite i_cg by eassumption. rewrite i_scale by (now apply l_len).
  rewrite <- scale_scale. apply cgl_scale. apply (lay_lay _ _ _ (fun z z' => z * z' == -1)).
  - intros. now apply L0_len.
  - intros. now apply (IL_id z z' len).
  - now apply zz_ok.
  - rewrite zrs_len. lia.
Qed.
Lemma li_step s r x : length r = 256%nat -> length x = 256%nat -> cgl x (scale s (lay I0 (map (Z.mul 169) (zis nb)) (2 * len) r)) ->
  cgl (lay L0 (zrs nb nb) (2 * len) x) (scale (s * 2) r).
Proof using HN HW.
  intros H Hx E. rewrite l_cg by eassumption. rewrite l_scale by (now apply i_len).
  rewrite <- scale_scale. apply cgl_scale. apply (lay_lay _ _ _ (fun z' z => z * z' == -1)).
  - intros. now apply I0_len.
  - intros. now apply (LI_id z' z len).
  - apply flip_F2. now apply zz_ok.
  - rewrite zi_len. lia.
Qed.
End layer.

Opaque lay zrs zis L0 I0 scale.
Ltac inb := (cbn [In]; tauto).
Ltac lens := repeat match goal with
  | H : ?g |- ?g => exact H
  | |- length (lay L0 (zrs 64 64) _ _) = _ => apply (l_len 64 2 eq_refl)
  | |- length (lay L0 (zrs 32 32) _ _) = _ => apply (l_len 32 4 eq_refl)
  | |- length (lay L0 (zrs 16 16) _ _) = _ => apply (l_len 16 8 eq_refl)
  | |- length (lay L0 (zrs 8 8) _ _) = _ => apply (l_len 8 16 eq_refl)
  | |- length (lay L0 (zrs 4 4) _ _) = _ => apply (l_len 4 32 eq_refl)
  | |- length (lay L0 (zrs 2 2) _ _) = _ => apply (l_len 2 64 eq_refl)
  | |- length (lay L0 (zrs 1 1) _ _) = _ => apply (l_len 1 128 eq_refl)
  | |- length (lay I0 (map _ (zis 64)) _ _) = _ => apply (i_len 64 2 eq_refl)
  | |- length (lay I0 (map _ (zis 32)) _ _) = _ => apply (i_len 32 4 eq_refl)
  | |- length (lay I0 (map _ (zis 16)) _ _) = _ => apply (i_len 16 8 eq_refl)
  | |- length (lay I0 (map _ (zis 8)) _ _) = _ => apply (i_len 8 16 eq_refl)
  | |- length (lay I0 (map _ (zis 4)) _ _) = _ => apply (i_len 4 32 eq_refl)
  | |- length (lay I0 (map _ (zis 2)) _ _) = _ => apply (i_len 2 64 eq_refl)
  | |- length (lay I0 (map _ (zis 1)) _ _) = _ => apply (i_len 1 128 eq_refl)
  end.
Lemma FW_len p : length p = 256%nat -> length (FW p) = 256%nat.
Proof. intros H. unfold FW. lens. Qed.
Lemma BW_len p : length p = 256%nat -> length (BW p) = 256%nat.
Proof. intros H. unfold BW. lens. Qed.
Lemma FW_cg p p' : length p = 256%nat -> cgl p p' -> cgl (FW p) (FW p').
Proof.
  intros H E. unfold FW. apply (l_cg 64 2); [reflexivity|lens|]. apply (l_cg 32 4); [reflexivity|lens|]. apply (l_cg 16 8); [reflexivity|lens|].
  apply (l_cg 8 16); [reflexivity|lens|]. apply (l_cg 4 32); [reflexivity|lens|]. apply (l_cg 2 64); [reflexivity|lens|]. apply (l_cg 1 128); [reflexivity|lens|]. exact E.
Qed.
Lemma BW_cg p p' : length p = 256%nat -> cgl p p' -> cgl (BW p) (BW p').
Proof.
  intros H E. unfold BW. apply (i_cg 1 128); [reflexivity|lens|]. apply (i_cg 2 64); [reflexivity|lens|]. apply (i_cg 4 32); [reflexivity|lens|].
  apply (i_cg 8 16); [reflexivity|lens|]. apply (i_cg 16 8); [reflexivity|lens|]. apply (i_cg 32 4); [reflexivity|lens|]. apply (i_cg 64 2); [reflexivity|lens|]. exact E.
Qed.
Lemma BW_FW s p x : length p = 256%nat -> length x = 256%nat -> cgl x (scale s (FW p)) -> cgl (BW x) (scale (s * 2 * 2 * 2 * 2 * 2 * 2 * 2) p).
Proof.
  intros H Hx E. unfold BW.
  apply (il_step 1 128); [inb|reflexivity|lens|lens|]. apply (il_step 2 64); [inb|reflexivity|lens|lens|]. apply (il_step 4 32); [inb|reflexivity|lens|lens|].
  apply (il_step 8 16); [inb|reflexivity|lens|lens|]. apply (il_step 16 8); [inb|reflexivity|lens|lens|]. apply (il_step 32 4); [inb|reflexivity|lens|lens|].
  apply (il_step 64 2); [inb|reflexivity|lens|lens|]. unfold FW in E. exact E.
Qed.
Lemma FW_BW s p x : length p = 256%nat -> length x = 256%nat -> cgl x (scale s (BW p)) -> cgl (FW x) (scale (s * 2 * 2 * 2 * 2 * 2 * 2 * 2) p).
Proof.
  intros H Hx E. unfold FW.
  apply (li_step 64 2); [inb|reflexivity|lens|lens|]. apply (li_step 32 4); [inb|reflexivity|lens|lens|]. apply (li_step 16 8); [inb|reflexivity|lens|lens|].
  apply (li_step 8 16); [inb|reflexivity|lens|lens|]. apply (li_step 4 32); [inb|reflexivity|lens|lens|]. apply (li_step 2 64); [inb|reflexivity|lens|lens|].
  apply (li_step 1 128); [inb|reflexivity|lens|lens|]. unfold BW in E. exact E.
Qed.
