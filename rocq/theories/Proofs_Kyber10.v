(** Groups of bytes and coefficients: the encodings of polynomials and vectors. *)
From Verif Require Import BaseLemmas Proofs_IntegerTools Proofs_SHA2Par Spec_Kyber Model_Kyber Proofs_Kyber Proofs_Serpent2 Proofs_Block Proofs_Kyber9.
Open Scope Z_scope.

Definition gmap (n : nat) (f : list Z -> list Z) (l : list Z) : list Z := concat (map f (chunks n l)).
Definition gives (n m : nat) (f : list Z -> list Z) : Prop := forall x, length x = n -> length (f x) = m.
Lemma chunks_ind n (P : list Z -> Prop) : (0 < n)%nat -> P [] -> (forall c l, length c = n -> P l -> P (c ++ l)) -> forall k l, length l = (n * k)%nat -> P l.
Proof.
  intros Hn H0 HS. induction k as [|k IH]; intros l L.
  - destruct l; [exact H0|cbn in L; lia].
  - rewrite <- (firstn_skipn n l). apply HS; [rewrite firstn_length; lia|]. apply IH. rewrite skipn_length. lia.
Qed.
Lemma gmap_app n f c l : (0 < n)%nat -> length c = n -> gmap n f (c ++ l) = f c ++ gmap n f l.
Proof. intros Hn Hc. unfold gmap. rewrite chunks_app by auto. reflexivity. Qed.
Lemma gmap_len n m f k l : (0 < n)%nat -> gives n m f -> length l = (n * k)%nat -> length (gmap n f l) = (m * k)%nat.
Proof.
  intros Hn Hf. revert l. induction k as [|k IH]; intros l L; [destruct l; [cbn; lia|cbn in L; lia]|].
  rewrite <- (firstn_skipn n l). rewrite gmap_app by (auto; rewrite firstn_length; lia). rewrite app_length, Hf by (rewrite firstn_length; lia). rewrite IH by (rewrite skipn_length; lia). lia.
Qed.
Lemma gmap_gmap n m f g k l : (0 < n)%nat -> (0 < m)%nat -> gives n m f -> length l = (n * k)%nat -> gmap m g (gmap n f l) = gmap n (fun x => g (f x)) l.
Proof.
  intros Hn Hm Hf L. revert L. apply (chunks_ind n (fun l => gmap m g (gmap n f l) = gmap n (fun x => g (f x)) l) Hn); [reflexivity|]. intros c t Hc IH.
  rewrite !gmap_app by auto. now rewrite IH.
Qed.
Lemma gmap_map n (P : Z -> Prop) F h k l : (0 < n)%nat -> (forall x, length x = n -> Forall P x -> F x = map h x) -> Forall P l -> length l = (n * k)%nat -> gmap n F l = map h l.
Proof.
  intros Hn HF HP L. revert HP. apply (chunks_ind n (fun l => Forall P l -> gmap n F l = map h l) Hn) with (k := k); [reflexivity| |exact L]. intros c t Hc IH HP.
  apply Forall_app in HP. destruct HP as [H1 H2]. rewrite gmap_app, map_app by auto. now rewrite HF, IH.
Qed.
Lemma gmap_bytes n m f k l : (0 < n)%nat -> gives n m f -> (forall x, bytes (f x)) -> length l = (n * k)%nat -> bytes (gmap n f l).
Proof.
  intros Hn Hf Hb L. apply (chunks_ind n (fun l => bytes (gmap n f l)) Hn) with (k := k); [constructor| |exact L]. intros c t Hc IH. rewrite gmap_app by auto. apply bytes_app. split; [apply Hb|exact IH].
Qed.
Lemma nth_gmap n m f : (0 < n)%nat -> gives n m f -> forall k l i j, length l = (n * k)%nat -> (i < k)%nat -> (j < m)%nat -> nth (m * i + j) (gmap n f l) 0 = nth j (f (slice l (n * i) n)) 0.
Proof.
  intros Hn Hf. induction k as [|k IH]; intros l i j L Hi Hj; [lia|].
  assert (Lf : length (firstn n l) = n) by (rewrite firstn_length; lia).
  rewrite <- (firstn_skipn n l) at 1. rewrite gmap_app by auto. destruct i as [|i].
  - rewrite !Nat.mul_0_r. cbn [Nat.add]. rewrite app_nth1 by (rewrite Hf; lia). reflexivity.
  - replace (m * S i + j)%nat with (length (f (firstn n l)) + (m * i + j))%nat by (rewrite Hf by auto; lia). rewrite app_nth2_plus. rewrite IH by (try rewrite skipn_length; lia).
    unfold slice. rewrite skipn_skipn. now replace (n * i + n)%nat with (n * S i)%nat by lia.
Qed.
Lemma groups_ok cnt n m f a ao r ro : (0 < n)%nat -> gives n m f -> (ao + n * cnt <= length a)%nat -> (ro + m * cnt <= length r)%nat ->
  groups cnt n m f a ao r ro = Ok (splice r ro (gmap n f (slice a ao (n * cnt)))).
Proof.
  intros Hn Hf Ha Hr. unfold groups.
  match goal with |- for_up 0 cnt ?F r = _ => destruct (for_up_inv (fun i c => c = splice r ro (gmap n f (slice a ao (n * i)))) F 0 cnt r) as (c & E & Hc) end.
  - rewrite Nat.mul_0_r. unfold slice, gmap. cbn [firstn]. rewrite chunks_nil. cbn [map concat]. now rewrite splice_nil.
  - intros i c Hi ->. assert (B : (n * i + n <= n * cnt)%nat). { replace (n * i + n)%nat with (n * S i)%nat by lia. apply Nat.mul_le_mono_l. lia. }
    assert (B' : (m * i + m <= m * cnt)%nat). { replace (m * i + m)%nat with (m * S i)%nat by lia. apply Nat.mul_le_mono_l. lia. }
    rewrite rd_ok by lia. cbn [bind].
    assert (Lg : length (gmap n f (slice a ao (n * i))) = (m * i)%nat) by (apply gmap_len; [auto|auto|rewrite length_slice; lia]).
    assert (Ls : length (slice a (ao + n * i) n) = n) by (rewrite length_slice; lia).
    rewrite wr_ok by (rewrite Hf by exact Ls; rewrite length_splice; lia). eexists. split; [reflexivity|].
    rewrite <- Lg. rewrite splice_splice_next by (rewrite Hf by exact Ls; lia). f_equal. replace (n * S i)%nat with (n * i + n)%nat by lia. rewrite slice_app.
    unfold gmap. rewrite (chunks_app_many n Hn i) by (rewrite length_slice; lia). rewrite map_app, concat_app. f_equal. rewrite <- (app_nil_r (slice a (ao + n * i) n)) at 2. rewrite chunks_app by auto.
    rewrite chunks_nil. cbn [map concat]. now rewrite app_nil_r.
  - rewrite E. now rewrite Hc.
Qed.
Lemma splice_full {A} (r d : list A) : length d = length r -> splice r 0 d = d.
Proof. intros H. unfold splice. cbn [firstn app]. rewrite skipn_all2 by lia. apply app_nil_r. Qed.

(** * loops over vectors *)
Lemma vec_loop_ok w (h : list Z -> list Z) f : forall v i r, (forall i a r, In a v -> (w * i + w <= length r)%nat -> f i a r = Ok (splice r (w * i) (h a)) /\ length (h a) = w) ->
  (w * i + w * length v <= length r)%nat -> vec_loop i v f r = Ok (splice r (w * i) (concat (map h v))).
Proof.
  induction v as [|a v IH]; intros i r Hf Hr; cbn [vec_loop map concat length] in *; [now rewrite splice_nil|].
  destruct (Hf i a r (or_introl eq_refl) ltac:(lia)) as [-> La]. cbn [bind]. rewrite IH; [|intros; apply Hf; [now right|assumption]|rewrite length_splice; lia]. f_equal.
  assert (Lc : length (concat (map h v)) = (w * length v)%nat).
  { assert (HL : forall x, In x v -> length (h x) = w) by (intros x Hx; apply (Hf i x r (or_intror Hx)); lia). clear - HL. induction v as [|x v IH]; cbn [map concat length]; [lia|]. rewrite app_length, HL, IH by (try (now left); intros; apply HL; now right). lia. }
  replace (w * S i)%nat with (w * i + length (h a))%nat by lia. apply splice_splice_next. lia.
Qed.
Lemma vec_read_ok w (h : list Z -> list Z) f b : forall (v : list (list Z)) bs i, (forall i r, In r v -> (w * i + w <= length b)%nat -> f i r = Ok (h (slice b (w * i) w))) ->
  Forall (fun x => length x = w) bs -> length bs = length v -> (w * i + w * length v <= length b)%nat -> slice b (w * i) (w * length v) = concat bs -> vec_map i v f = Ok (map h bs).
Proof.
  induction v as [|a v IH]; intros bs i Hf Hbs Lb Hr Hc; destruct bs as [|x bs]; try discriminate; cbn [vec_map map]; [reflexivity|]. cbn [length concat] in *.
  apply Forall_cons_iff in Hbs. destruct Hbs as [Hx Hbs]. rewrite Hf by (try (now left); lia). cbn [bind].
  replace (w * S (length v))%nat with (w + w * length v)%nat in Hc by lia. rewrite slice_app in Hc.
  assert (E1 : slice b (w * i) w = x /\ slice b (w * i + w) (w * length v) = concat bs).
  { apply app_inj_eq; [|exact Hc]. rewrite length_slice by lia. now rewrite Hx. }
  destruct E1 as [-> E2]. rewrite (IH bs); [reflexivity|intros; apply Hf; [now right|assumption]|assumption|lia|lia|]. replace (w * S i)%nat with (w * i + w)%nat by lia. exact E2.
Qed.

(** * twelve bits *)
Definition bnd (B : Z) (p : list Z) : Prop := length p = 256%nat /\ Forall (fun x => Z.abs x <= B) p.
Lemma gives12 : gives 2 3 pack12. Proof. intros x _. reflexivity. Qed.
Lemma gives12' : gives 3 2 unpack12. Proof. intros x _. reflexivity. Qed.
Lemma list2 (x : list Z) : length x = 2%nat -> x = [nth 0 x 0; nth 1 x 0].
Proof. intros H. destruct x as [|a [|b [|c x]]]; try discriminate. reflexivity. Qed.
Lemma list4 (x : list Z) : length x = 4%nat -> x = [nth 0 x 0; nth 1 x 0; nth 2 x 0; nth 3 x 0].
Proof. intros H. do 5 (destruct x as [|? x]; try discriminate). reflexivity. Qed.
Lemma list8 (x : list Z) : length x = 8%nat -> x = map (fun i => nth i x 0) [0; 1; 2; 3; 4; 5; 6; 7]%nat.
Proof. intros H. do 9 (destruct x as [|? x]; try discriminate). reflexivity. Qed.
Lemma F_nth (P : Z -> Prop) x i : Forall P x -> P 0 -> P (nth i x 0).
Proof. intros F H. destruct (Nat.lt_ge_cases i (length x)) as [L|L]; [now apply (proj1 (Forall_forall _ x) F), nth_In|now rewrite nth_overflow]. Qed.
Lemma rt12 x : length x = 2%nat -> Forall (fun x => Z.abs x <= 3328) x -> unpack12 (pack12 x) = map (fun y => y mod Q) x.
Proof.
  intros L F. pose proof (fun i => F_nth _ x i F ltac:(cbn; lia)) as B. cbn beta in B. rewrite (list2 x L) at 2. cbn [map]. unfold pack12.
  fold (bits12 (pos16 (nth 0 x 0)) (pos16 (nth 1 x 0))). rewrite !pos16_ok by apply B. apply unbits12; pose proof (modQ (nth 0 x 0)); pose proof (modQ (nth 1 x 0)); unfold Q in *; lia.
Qed.
Definition enc12 (p : list Z) : list Z := gmap 2 pack12 p.
Definition dec12 (b : list Z) : list Z := gmap 3 unpack12 b.
Lemma enc12_len p : length p = 256%nat -> length (enc12 p) = 384%nat. Proof. intros H. apply (gmap_len 2 3 _ 128); [lia|exact gives12|exact H]. Qed.
Lemma dec12_len b : length b = 384%nat -> length (dec12 b) = 256%nat. Proof. intros H. apply (gmap_len 3 2 _ 128); [lia|exact gives12'|exact H]. Qed.
Lemma ToBytes_ok r ro p : length p = 256%nat -> (ro + 384 <= length r)%nat -> PolyToBytes r ro p = Ok (splice r ro (enc12 p)).
Proof. intros H Hr. unfold PolyToBytes. rewrite groups_ok by (lia || exact gives12). rewrite slice_all by (symmetry; exact H). reflexivity. Qed.
Lemma FromBytes_ok r a ao : length r = 256%nat -> (ao + 384 <= length a)%nat -> PolyFromBytes r a ao = Ok (dec12 (slice a ao 384)).
Proof.
  intros H Hr. unfold PolyFromBytes. rewrite groups_ok by (lia || exact gives12'). change (3 * 128)%nat with 384%nat. fold (dec12 (slice a ao 384)). f_equal. apply splice_full. rewrite H. apply dec12_len. apply length_slice. exact Hr.
Qed.
Lemma rt_enc12 p : bnd 3328 p -> dec12 (enc12 p) = map (fun y => y mod Q) p.
Proof.
  intros [L F]. unfold dec12, enc12. rewrite (gmap_gmap 2 3 _ _ 128) by (lia || exact gives12). apply (gmap_map 2 (fun x => Z.abs x <= 3328) _ _ 128); [lia|exact rt12|exact F|exact L].
Qed.
Lemma VecToBytes_ok r v : Forall (fun p => length p = 256%nat) v -> (384 * length v <= length r)%nat -> PolyVecToBytes r v = Ok (splice r 0 (concat (map enc12 v))).
Proof.
  intros F Hr. unfold PolyVecToBytes. rewrite (vec_loop_ok 384 enc12); [rewrite Nat.mul_0_r; reflexivity| |lia].
  intros i a c Ha Hc. rewrite Forall_forall in F. split; [|now apply enc12_len, F]. unfold KYBER_POLYBYTES. rewrite (Nat.mul_comm i). apply ToBytes_ok; [now apply F|lia].
Qed.
Lemma VecFromBytes_ok v a bs : Forall (fun p => length p = 256%nat) v -> Forall (fun x => length x = 384%nat) bs -> length bs = length v -> (384 * length v <= length a)%nat -> slice a 0 (384 * length v) = concat bs ->
  PolyVecFromBytes v a = Ok (map dec12 bs).
Proof.
  intros F Fb L Ha E. unfold PolyVecFromBytes. apply (vec_read_ok 384 dec12 _ a); [|assumption|assumption|lia|rewrite Nat.mul_0_r; exact E].
  intros i r Hr Hi. unfold KYBER_POLYBYTES. rewrite (Nat.mul_comm i). apply FromBytes_ok; [now apply (proj1 (Forall_forall _ _) F)|lia].
Qed.

(** * ciphertexts *)
Lemma rt_gen (n m : nat) (pk up : list Z -> list Z) (d : Z) : (0 < n)%nat -> (0 < m)%nat -> gives n m pk ->
  (forall x, length x = n -> Forall (fun x => Z.abs x <= 3328) x -> up (pk x) = map (fun y => decompress d (compress d y)) x) ->
  forall p k, bnd 3328 p -> (n * k = 256)%nat -> gmap m up (gmap n pk p) = rounded d p.
Proof.
  intros Hn Hm Hg H p k [L F] Hk. rewrite (gmap_gmap n m _ _ k) by (auto; lia). apply (gmap_map n (fun x => Z.abs x <= 3328) _ _ k); [auto|exact H|exact F|lia].
Qed.
Lemma cons4 (f h : nat -> Z) : (forall i, f i = h i) -> bits4 f = bits4 h. Proof. intros H. unfold bits4. now rewrite !H. Qed.
Lemma rt4 x : length x = 8%nat -> Forall (fun x => Z.abs x <= 3328) x -> gmap 1 unpack4 (pack4 x) = map (fun y => decompress 4 (compress 4 y)) x.
Proof.
  intros L F. pose proof (fun i => F_nth _ x i F ltac:(cbn; lia)) as B. cbn beta in B.
  change (pack4 x) with (bits4 (fun i => comp4 (nth i x 0))). rewrite (cons4 _ (fun i => compress 4 (nth i x 0))) by (intros; apply comp4_ok, B).
  replace (map (fun y => decompress 4 (compress 4 y)) x) with (map (fun y => decompress 4 (compress 4 y)) (map (fun i => nth i x 0) [0; 1; 2; 3; 4; 5; 6; 7]%nat)) by (f_equal; symmetry; exact (list8 x L)). rewrite map_map. unfold gmap, bits4. cbn [chunks chunks_fuel length firstn skipn map concat app]. unfold unpack4. cbn [nth].
  pose proof (fun i => compress_range 4 (nth i x 0) ltac:(lia)) as R.
  destruct (unbits4 _ _ (R 0%nat) (R 1%nat)) as [-> ->]. destruct (unbits4 _ _ (R 2%nat) (R 3%nat)) as [-> ->]. destruct (unbits4 _ _ (R 4%nat) (R 5%nat)) as [-> ->]. destruct (unbits4 _ _ (R 6%nat) (R 7%nat)) as [-> ->].
  now rewrite !dec4_ok by apply R.
Qed.
Lemma rt5 x : length x = 8%nat -> Forall (fun x => Z.abs x <= 3328) x -> unpack5 (pack5 x) = map (fun y => decompress 5 (compress 5 y)) x.
Proof.
  intros L F. pose proof (fun i => F_nth _ x i F ltac:(cbn; lia)) as B. cbn beta in B.
  change (pack5 x) with (bits5 (fun i => comp5 (nth i x 0))). pose proof (fun i => compress_range 5 (nth i x 0) ltac:(lia)) as R.
  rewrite unbits5 by (intros; rewrite comp5_ok by apply B; apply R). replace (map (fun y => decompress 5 (compress 5 y)) x) with (map (fun y => decompress 5 (compress 5 y)) (map (fun i => nth i x 0) [0; 1; 2; 3; 4; 5; 6; 7]%nat)) by (f_equal; symmetry; exact (list8 x L)). rewrite map_map. apply map_ext. intros i. rewrite comp5_ok by apply B. apply dec5_ok, R.
Qed.
Lemma rt11 x : length x = 8%nat -> Forall (fun x => Z.abs x <= 3328) x -> unpack11 (pack11 x) = map (fun y => decompress 11 (compress 11 y)) x.
Proof.
  intros L F. pose proof (fun i => F_nth _ x i F ltac:(cbn; lia)) as B. cbn beta in B.
  change (pack11 x) with (bits11 (fun i => comp_d 11 (nth i x 0))). pose proof (fun i => compress_range 11 (nth i x 0) ltac:(lia)) as R.
  rewrite unbits11 by (intros; rewrite comp_d_ok by (auto; apply B); apply R). replace (map (fun y => decompress 11 (compress 11 y)) x) with (map (fun y => decompress 11 (compress 11 y)) (map (fun i => nth i x 0) [0; 1; 2; 3; 4; 5; 6; 7]%nat)) by (f_equal; symmetry; exact (list8 x L)). rewrite map_map. apply map_ext. intros i. rewrite comp_d_ok by (auto; apply B). apply dec11_ok, R.
Qed.
Lemma rt10 x : length x = 4%nat -> Forall (fun x => Z.abs x <= 3328) x -> unpack10 (pack10 x) = map (fun y => decompress 10 (compress 10 y)) x.
Proof.
  intros L F. pose proof (fun i => F_nth _ x i F ltac:(cbn; lia)) as B. cbn beta in B.
  change (pack10 x) with (bits10 (fun i => comp_d 10 (nth i x 0))). pose proof (fun i => compress_range 10 (nth i x 0) ltac:(lia)) as R.
  rewrite unbits10 by (intros; rewrite comp_d_ok by (auto; apply B); apply R). replace (map (fun y => decompress 10 (compress 10 y)) x) with (map (fun y => decompress 10 (compress 10 y)) [nth 0 x 0; nth 1 x 0; nth 2 x 0; nth 3 x 0]) by (f_equal; symmetry; exact (list4 x L)). cbn [map]. rewrite !comp_d_ok by (auto; apply B). now rewrite !dec10_ok by apply R.
Qed.
