(** Ciphertexts, messages and noise. *)
From Verif Require Import BaseLemmas Proofs_IntegerTools Proofs_SHA2Par Spec_Kyber Model_Kyber Proofs_Kyber Proofs_Kyber5 Proofs_Kyber9 Proofs_Kyber10.
Open Scope Z_scope.

Definition level (K : nat) : Prop := (K = 2 \/ K = 3 \/ K = 4 \/ K = 5)%nat.
Definition du (K : nat) : Z := if (3 <? K)%nat then 11 else 10.
Definition dv (K : nat) : Z := if (3 <? K)%nat then 5 else 4.
Definition vbytes (K : nat) : nat := if (3 <? K)%nat then 160 else 128.
Definition encu (K : nat) (p : list Z) : list Z := if (3 <? K)%nat then gmap 8 pack11 p else gmap 4 pack10 p.
Definition encv (K : nat) (p : list Z) : list Z := if (3 <? K)%nat then gmap 8 pack5 p else gmap 8 pack4 p.
Lemma g11 : gives 8 11 pack11. Proof. intros x _. reflexivity. Qed.
Lemma g10 : gives 4 5 pack10. Proof. intros x _. reflexivity. Qed.
Lemma g5 : gives 8 5 pack5. Proof. intros x _. reflexivity. Qed.
Lemma g4 : gives 8 4 pack4. Proof. intros x _. reflexivity. Qed.
Lemma h11 : gives 11 8 unpack11. Proof. intros x _. reflexivity. Qed.
Lemma h10 : gives 5 4 unpack10. Proof. intros x _. reflexivity. Qed.
Lemma h5 : gives 5 8 unpack5. Proof. intros x _. reflexivity. Qed.
Lemma h4 : gives 1 2 unpack4. Proof. intros x _. reflexivity. Qed.
Lemma encu_len K p : length p = 256%nat -> length (encu K p) = base_bytes K.
Proof.
  intros H. unfold encu, base_bytes. destruct (3 <? K)%nat; [apply (gmap_len 8 11 _ 32); [lia|exact g11|exact H]|apply (gmap_len 4 5 _ 64); [lia|exact g10|exact H]].
Qed.
Lemma encv_len K p : length p = 256%nat -> length (encv K p) = vbytes K.
Proof.
  intros H. unfold encv, vbytes. destruct (3 <? K)%nat; [apply (gmap_len 8 5 _ 32); [lia|exact g5|exact H]|apply (gmap_len 8 4 _ 32); [lia|exact g4|exact H]].
Qed.
Definition decu (K : nat) (b : list Z) : list Z := if (3 <? K)%nat then gmap 11 unpack11 b else gmap 5 unpack10 b.
Definition decv (K : nat) (b : list Z) : list Z := if (3 <? K)%nat then gmap 5 unpack5 b else gmap 1 unpack4 b.
Lemma rt_u K p : bnd 3328 p -> decu K (encu K p) = rounded (du K) p.
Proof.
  intros H. unfold decu, encu, du. destruct (3 <? K)%nat.
  - apply (rt_gen 8 11 pack11 unpack11 11 ltac:(lia) ltac:(lia) g11 rt11 p 32 H). reflexivity.
  - apply (rt_gen 4 5 pack10 unpack10 10 ltac:(lia) ltac:(lia) g10 rt10 p 64 H). reflexivity.
Qed.
Lemma gmap1 f l : gmap 1 f (l ++ []) = gmap 1 f l. Proof. now rewrite app_nil_r. Qed.
Lemma gmap_flat n m f g k l : (0 < n)%nat -> gives n m f -> length l = (n * k)%nat -> gmap 1 g (gmap n f l) = gmap n (fun x => gmap 1 g (f x)) l.
Proof.
  intros Hn Hf L. apply (chunks_ind n (fun l => gmap 1 g (gmap n f l) = gmap n (fun x => gmap 1 g (f x)) l) Hn) with (k := k); [reflexivity| |exact L]. intros c t Hc IH.
  rewrite (gmap_app n f), (gmap_app n (fun x => gmap 1 g (f x))) by auto. rewrite <- IH. unfold gmap. rewrite (Proofs_Block.chunks_app_many 1 ltac:(lia) (length (f c))) by lia. now rewrite map_app, concat_app.
Qed.
Lemma rt_v K p : bnd 3328 p -> decv K (encv K p) = rounded (dv K) p.
Proof.
  intros H. unfold decv, encv, dv. destruct (3 <? K)%nat.
  - apply (rt_gen 8 5 pack5 unpack5 5 ltac:(lia) ltac:(lia) g5 rt5 p 32 H). reflexivity.
  - destruct H as [L F]. rewrite (gmap_flat 8 4 _ _ 32) by (lia || exact g4 || exact L). apply (gmap_map 8 (fun x => Z.abs x <= 3328) _ _ 32); [lia|exact rt4|exact F|exact L].
Qed.
Lemma VecCompress_ok r v : level (length v) -> Forall (fun p => length p = 256%nat) v -> (base_bytes (length v) * length v <= length r)%nat ->
  PolyVecCompress r v = Ok (splice r 0 (concat (map (encu (length v)) v))).
Proof.
  intros HK F Hr. rewrite Forall_forall in F. unfold PolyVecCompress.
  assert (E : forall cnt n m f w enc, (m * cnt = w)%nat -> (n * cnt = 256)%nat -> (0 < n)%nat -> gives n m f -> (forall p, length p = 256%nat -> enc p = gmap n f p) -> (w * length v <= length r)%nat ->
     vec_loop 0 v (fun i a r => groups cnt n m f a 0 r (w * i)) r = Ok (splice r 0 (concat (map enc v)))).
  { intros cnt n m f w enc E1 E2 Hn Hg He Hw. rewrite (vec_loop_ok w enc); [rewrite Nat.mul_0_r; reflexivity| |lia]. intros i a c Ha Hc. split.
    - rewrite groups_ok by (auto; rewrite ?(F a Ha); lia). rewrite slice_all by (rewrite (F a Ha); lia). now rewrite He by (now apply F).
    - rewrite He by (now apply F). rewrite (gmap_len n m f cnt) by (auto; rewrite (F a Ha); lia). exact E1. }
  destruct HK as [H|[H|[H|H]]]; rewrite H in *; cbn [Nat.eqb orb]; (apply E; [reflexivity|reflexivity|lia|exact g10 || exact g11|reflexivity|exact Hr]).
Qed.
Lemma PackCt_ok r b v : let K := length b in level K -> Forall (fun p => length p = 256%nat) b -> length v = 256%nat -> (base_bytes K * K + vbytes K <= length r)%nat ->
  PackCiphertext r b v K = Ok (splice r 0 (concat (map (encu K) b) ++ encv K v)).
Proof.
  intros K HK F Hv Hr. unfold PackCiphertext. fold K. rewrite VecCompress_ok by (auto; unfold K in *; lia). cbn [bind]. fold K.
  assert (Lc : length (concat (map (encu K) b)) = (base_bytes K * K)%nat).
  { unfold K at 3. clearbody K. clear - F. induction F as [|x l Hx F IH]; cbn [map concat length]; [lia|]. rewrite app_length, encu_len, IH by exact Hx. lia. }
  set (c := concat (map (encu K) b)) in *.
  assert (E : PolyCompress (splice r 0 c) (base_bytes K * K) v K = Ok (splice (splice r 0 c) (base_bytes K * K) (encv K v))).
  { unfold PolyCompress. assert (Ls : (base_bytes K * K + vbytes K <= length (splice r 0 c))%nat) by (rewrite length_splice; lia).
    assert (S : slice v 0 (8 * 32) = v) by (apply slice_all; rewrite Hv; reflexivity).
    unfold vbytes, encv in *. destruct HK as [H|[H|[H|H]]]; rewrite H in *; cbn [Nat.eqb orb Nat.ltb Nat.leb] in *; rewrite groups_ok by (exact g5 || exact g4 || lia); rewrite S; reflexivity. }
  rewrite E. f_equal. rewrite <- Lc. replace (length c) with (0 + length c)%nat by reflexivity. rewrite splice_splice_next by (rewrite encv_len by exact Hv; lia). reflexivity.
Qed.
Lemma decu_len K b : length b = base_bytes K -> length (decu K b) = 256%nat.
Proof.
  unfold base_bytes, decu. destruct (3 <? K)%nat; intros H; [apply (gmap_len 11 8 _ 32); [lia|exact h11|exact H]|apply (gmap_len 5 4 _ 64); [lia|exact h10|exact H]].
Qed.
Lemma decv_len K b : length b = vbytes K -> length (decv K b) = 256%nat.
Proof.
  unfold vbytes, decv. destruct (3 <? K)%nat; intros H; [apply (gmap_len 5 8 _ 32); [lia|exact h5|exact H]|apply (gmap_len 1 2 _ 128); [lia|exact h4|exact H]].
Qed.
Lemma VecDecompress_ok v c bs : level (length v) -> Forall (fun p => length p = 256%nat) v -> Forall (fun x => length x = base_bytes (length v)) bs -> length bs = length v ->
  (base_bytes (length v) * length v <= length c)%nat -> slice c 0 (base_bytes (length v) * length v) = concat bs -> PolyVecDecompress v c = Ok (map (decu (length v)) bs).
Proof.
  intros HK F Fb L Hc E. rewrite Forall_forall in F. unfold PolyVecDecompress.
  assert (G : forall cnt n m f w dec, (n * cnt = w)%nat -> (m * cnt = 256)%nat -> (0 < n)%nat -> gives n m f -> (forall b, length b = w -> dec b = gmap n f b) -> w = base_bytes (length v) ->
     vec_map 0 v (fun i r => groups cnt n m f c (w * i) r 0) = Ok (map dec bs)).
  { intros cnt n m f w dec E1 E2 Hn Hg Hd Hw. subst w. rewrite Hw in *. apply (vec_read_ok (base_bytes (length v)) dec _ c); [|exact Fb|exact L|lia|rewrite Nat.mul_0_r; exact E].
    intros i r Hr Hi. rewrite groups_ok by (auto; rewrite ?(F r Hr); lia). rewrite Hw. rewrite Hd by (apply length_slice; lia). f_equal. apply splice_full.
    rewrite (gmap_len n m f cnt) by (auto; rewrite length_slice by lia; lia). rewrite (F r Hr). exact E2. }
  destruct HK as [H|[H|[H|H]]]; rewrite H in *; cbn [Nat.eqb orb]; (apply G; [reflexivity|reflexivity|lia|exact h10 || exact h11|reflexivity|reflexivity]).
Qed.
Lemma UnPackCt_ok b v c bs x tl : let K := length b in level K -> Forall (fun p => length p = 256%nat) b -> length v = 256%nat -> Forall (fun x => length x = base_bytes K) bs -> length bs = K ->
  length x = vbytes K -> c = concat bs ++ x ++ tl -> UnPackCiphertext b v c = Ok (map (decu K) bs, decv K x).
Proof.
  intros K HK F Hv Fb L Lx ->. unfold UnPackCiphertext. fold K.
  assert (Lc : length (concat bs) = (base_bytes K * K)%nat).
  { replace (base_bytes K * K)%nat with (base_bytes K * length bs)%nat by (now rewrite L). clearbody K. clear - Fb. induction Fb as [|y l Hy Fb IH]; cbn [concat length]; [lia|]. rewrite app_length, IH, Hy. lia. }
  rewrite (VecDecompress_ok b (concat bs ++ x ++ tl) bs); [|exact HK|exact F|exact Fb|exact L|rewrite app_length; fold K; lia|].
  2:{ fold K. unfold slice. cbn [skipn]. rewrite <- Lc. rewrite firstn_app, firstn_all, Nat.sub_diag. cbn [firstn]. apply app_nil_r. }
  cbn [bind]. fold K.
  assert (S : slice (concat bs ++ x ++ tl) (base_bytes K * K) (vbytes K) = x).
  { unfold slice. rewrite <- Lc, skipn_app, skipn_all, Nat.sub_diag. cbn [skipn app]. rewrite <- Lx. rewrite firstn_app, firstn_all, Nat.sub_diag. cbn [firstn]. apply app_nil_r. }
  assert (E : PolyDecompress v (concat bs ++ x ++ tl) (base_bytes K * K) K = Ok (decv K x)).
  { unfold PolyDecompress. assert (Ls : (base_bytes K * K + vbytes K <= length (concat bs ++ x ++ tl))%nat) by (rewrite !app_length; lia). pose proof (decv_len K x Lx) as Ld.
    unfold vbytes, decv in *. destruct HK as [H|[H|[H|H]]]; rewrite H in *; cbn [Nat.eqb orb Nat.ltb Nat.leb] in *; rewrite groups_ok by (exact h5 || exact h4 || lia);
    try change (1 * 128)%nat with 128%nat; try change (5 * 32)%nat with 160%nat; rewrite S; f_equal; apply splice_full; rewrite Ld; symmetry; exact Hv. }
  now rewrite E.
Qed.

(** * messages *)
Lemma from_group b : is_byte b -> from_msg_group [b] = map (fun j => 1665 * ((b / 2 ^ Z.of_nat j) mod 2)) [0; 1; 2; 3; 4; 5; 6; 7]%nat.
Proof.
  intros Hb. assert (C : forallb (fun b => if list_eq_dec Z.eq_dec (from_msg_group [Z.of_nat b]) (map (fun j => 1665 * ((Z.of_nat b / 2 ^ Z.of_nat j) mod 2)) [0; 1; 2; 3; 4; 5; 6; 7]%nat) then true else false) (seq 0 256) = true) by (vm_compute; reflexivity).
  rewrite forallb_forall in C. unfold is_byte in Hb. specialize (C (Z.to_nat b)). rewrite Z2Nat.id in C by lia.
  assert (HI : In (Z.to_nat b) (seq 0 256)) by (apply in_seq; lia). specialize (C HI). now destruct (list_eq_dec Z.eq_dec _ _) in C.
Qed.
Lemma gmsg : gives 1 8 from_msg_group. Proof. intros x _. reflexivity. Qed.
Lemma split8n n : (n < 256)%nat -> exists i j, n = (8 * i + j)%nat /\ (i < 32)%nat /\ (j < 8)%nat.
Proof. intros H. exists (n / 8)%nat, (n mod 8)%nat. pose proof (Nat.div_mod n 8 ltac:(lia)). pose proof (Nat.mod_upper_bound n 8 ltac:(lia)). lia. Qed.
Lemma div8 i j : (j < 8)%nat -> ((8 * i + j) / 8)%nat = i /\ ((8 * i + j) mod 8)%nat = j.
Proof. intros H. rewrite Nat.mul_comm, Nat.add_comm. rewrite Nat.div_add, Nat.mod_add by lia. split; [now rewrite Nat.div_small|now apply Nat.mod_small]. Qed.
Lemma slice1 (l : list Z) i : (i < length l)%nat -> slice l i 1 = [nth i l 0].
Proof. intros H. apply (list_ext 0); [rewrite length_slice by lia; reflexivity|]. rewrite length_slice by lia. intros k Hk. rewrite BaseLemmas.nth_slice by lia. replace k with 0%nat by lia. now rewrite Nat.add_0_r. Qed.
Lemma FromMsg_ok r m m' : length r = 256%nat -> bytes m -> length m = 32%nat -> PolyFromMsg r (m ++ m') = Ok (msg_poly m).
Proof.
  intros Hr Hb Hm. unfold PolyFromMsg. rewrite groups_ok by (lia || exact gmsg || (rewrite app_length; lia)). change (1 * 32)%nat with 32%nat.
  replace (slice (m ++ m') 0 32) with m. 2:{ unfold slice. cbn [skipn]. rewrite <- Hm at 1. rewrite firstn_app, firstn_all, Nat.sub_diag. cbn [firstn]. now rewrite app_nil_r. }
  assert (Lg : length (gmap 1 from_msg_group m) = 256%nat) by (apply (gmap_len 1 8 _ 32); [lia|exact gmsg|exact Hm]).
  rewrite splice_full by (rewrite Lg; symmetry; exact Hr). f_equal. apply (list_ext 0); [rewrite Lg; symmetry; apply poly_of_len|]. rewrite Lg. intros n Hn.
  unfold msg_poly. rewrite nth_poly_of by exact Hn. unfold msg_bit_at. destruct (split8n n Hn) as (i & j & -> & Hi & Hj). destruct (div8 i j Hj) as [-> ->].
  rewrite (nth_gmap 1 8 _ ltac:(lia) gmsg 32) by (lia || exact Hm). rewrite Nat.mul_1_l, slice1 by lia. rewrite from_group by (now apply bytes_nth).
  clear - Hj. do 8 (destruct j as [|j]; [reflexivity|]). lia.
Qed.
Lemma to_group c b : is_byte b -> (forall j, (j < 8)%nat -> msg_bit (nth j c 0) = (b / 2 ^ Z.of_nat j) mod 2) -> to_msg_group c = [b].
Proof.
  intros Hb H. unfold to_msg_group. cbn [fold_left]. rewrite !H by lia. clear H.
  assert (C : forallb (fun b => fold_left (fun m j => Z.lor m (u8 (Z.shiftl ((Z.of_nat b / 2 ^ Z.of_nat j) mod 2) (Z.of_nat j)))) [0; 1; 2; 3; 4; 5; 6; 7]%nat 0 =? Z.of_nat b) (seq 0 256) = true) by (vm_compute; reflexivity).
  rewrite forallb_forall in C. unfold is_byte in Hb. specialize (C (Z.to_nat b)). rewrite Z2Nat.id in C by lia.
  assert (HI : In (Z.to_nat b) (seq 0 256)) by (apply in_seq; lia). specialize (C HI). apply Z.eqb_eq in C. cbn [fold_left] in C. now rewrite C.
Qed.
Lemma gto : gives 8 1 to_msg_group. Proof. intros x _. reflexivity. Qed.
Lemma ToMsg_ok r a m : (32 <= length r)%nat -> length a = 256%nat -> bytes m -> length m = 32%nat -> (forall i, (i < 256)%nat -> msg_bit (nth i a 0) = msg_bit_at m i) -> PolyToMsg r a = Ok (splice r 0 m).
Proof.
  intros Hr Ha Hb Hm H. unfold PolyToMsg. rewrite groups_ok by (lia || exact gto). change (8 * 32)%nat with 256%nat. rewrite slice_all by (symmetry; exact Ha). do 2 f_equal.
  assert (Lg : length (gmap 8 to_msg_group a) = 32%nat) by (apply (gmap_len 8 1 _ 32); [lia|exact gto|exact Ha]).
  apply (list_ext 0); [rewrite Lg; now symmetry|]. rewrite Lg. intros i Hi. replace i with (1 * i + 0)%nat by lia. rewrite (nth_gmap 8 1 _ ltac:(lia) gto 32) by (lia || exact Ha).
  rewrite (to_group _ (nth i m 0)); [cbn [nth]; f_equal; lia|now apply bytes_nth|]. intros j Hj. rewrite BaseLemmas.nth_slice by lia. rewrite H by lia. unfold msg_bit_at. now destruct (div8 i j Hj) as [-> ->].
Qed.
