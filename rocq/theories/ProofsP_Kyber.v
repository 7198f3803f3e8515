(** The shapes in which the properties of Kyber are stated. *)
From Verif Require Import BaseLemmas Proofs_IntegerTools Proofs_IntegerTools2 Model_IntegerTools Spec_Common Spec_Keccak Model_Keccak Spec_Kyber Model_Kyber Session_Kyber Model_Modes Session_KMAC Proofs_Windows
  Proofs_Kyber Proofs_Kyber2 Proofs_Kyber3 Proofs_Kyber4 Proofs_Kyber5 Proofs_Kyber6 Proofs_Kyber7 Proofs_Kyber8 Proofs_Kyber9 Proofs_Kyber10 Proofs_Kyber11 Proofs_Kyber13 Proofs_Kyber14 Proofs_Kyber15 Proofs_Kyber16 Proofs_Kyber17 Proofs_Kyber18 Proofs_Kyber19 Proofs_Kyber20.
From Coq Require Import Setoid Morphisms.
Open Scope Z_scope.
Opaque lay zrs zis L0 I0 scale poly_of FW BW zsum gamma keccak sha3_256 sha3_512 shake cshake.

(** * C58 *)
Lemma c58_agree F p d z m domain name pk sk ct s ss ss' x : parameter_set p -> random32 d -> random32 z -> random32 m -> domain_ok domain name ->
  Kyber_Generate F p d z = Ok (pk, sk) -> Kyber_Encapsulate F p domain name pk ss m = Ok (ct, s) -> length ss' = length ss -> exchange F p d pk m x -> small (error x) ->
  Kyber_Decapsulate F p domain name sk ct ss' = Ok (s, true).
Proof.
  intros Hp [Hd Ld] [Hz Lz] [Hm Lm] HD G E LS X Sm. destruct (exchange_facts F p d z m domain name pk sk (length ss) ss Hp Hd Ld Hz Lz Hm Lm HD eq_refl G) as (c & _ & _ & _ & _ & _ & _ & EN & _ & _). rewrite E in EN. injection EN as -> ->.
  destruct (exchange_facts F p d z m domain name pk sk (length ss) ss' Hp Hd Ld Hz Lz Hm Lm HD LS G) as (c' & _ & _ & _ & _ & _ & _ & EN' & _ & DE).
  assert (EE : c' = c). { destruct (exchange_facts F p d z m domain name pk sk (length ss) ss Hp Hd Ld Hz Lz Hm Lm HD eq_refl G) as (c2 & _ & _ & _ & _ & _ & _ & EN2 & _ & _). rewrite E in EN2. assert (C2 : c2 = c) by congruence.
    clear - EN' E. unfold Kyber_Encapsulate in *. destruct (kem_encapsulate F p pk (zeros (kCt p)) (zeros 32) m) as [[c3 sec]| |]; try discriminate. cbn [bind] in *. destruct (Kyber_secret domain name sec ss'); try discriminate. destruct (Kyber_secret domain name sec ss); try discriminate. cbn [bind] in *. congruence. }
  subst c'. specialize (DE x 0%nat X Sm). change (zeros 0) with (@nil Z) in DE. rewrite app_nil_r in DE. exact DE.
Qed.
Lemma c58_total F p d z m domain name ss A : parameter_set p -> random32 d -> random32 z -> random32 m -> domain_ok domain name -> GenMatrix F (firstn 32 (sha3_512 d)) false (kK p) = Ok A ->
  exists pk sk ct, Kyber_Generate F p d z = Ok (pk, sk) /\ length pk = kPk p /\ bytes pk /\ length sk = kSk p /\ bytes sk /\
    Kyber_Encapsulate F p domain name pk ss m = Ok (ct, shared domain name (sha3_256 m) pk ct (length ss)) /\ length ct = kCt p /\ bytes ct /\ exists x, exchange F p d pk m x.
Proof.
  intros Hp [Hd Ld] [Hz Lz] [Hm Lm] HD HG. pose proof (gen_ok F p d z Hp Hd Ld Hz Lz) as GO. cbv zeta in GO. change (firstn 32 (sha3_512 d)) with (rho d) in HG. rewrite HG in GO. destruct GO as (skv & pkv & _ & EG & _).
  eexists. eexists. destruct (exchange_facts F p d z m domain name _ _ (length ss) ss Hp Hd Ld Hz Lz Hm Lm HD eq_refl EG) as (c & C1 & C2 & C3 & C4 & C5 & C6 & C7 & C8 & _). exists c. repeat (split; [eassumption|]). exact C8.
Qed.
Lemma c58_layout F p d z pk sk : parameter_set p -> random32 d -> random32 z -> Kyber_Generate F p d z = Ok (pk, sk) ->
  exists s t, sk = s ++ pk ++ sha3_256 pk ++ z /\ pk = t ++ firstn 32 (sha3_512 d) /\ length s = (384 * kK p)%nat /\ length t = (384 * kK p)%nat.
Proof.
  intros Hp [Hd Ld] [Hz Lz] G. pose proof (gen_ok F p d z Hp Hd Ld Hz Lz) as GO. cbv zeta in GO. destruct (GenMatrix F (rho d) false (kK p)) as [A| |]; [|exfalso; apply GO; eauto|exfalso; apply GO; eauto].
  destruct GO as (skv & pkv & _ & EG & B1 & B2 & L1 & L2 & _). rewrite EG in G. injection G as <- <-. exists (concat (map enc12 skv)), (concat (map enc12 pkv)). split; [reflexivity|]. split; [reflexivity|].
  split; (rewrite (concat_lens 384) by (apply enc12_lens; now apply bnd_lens)); rewrite map_length; lia.
Qed.
Lemma c58_zeros F p d z m domain name pk sk ct s ss ss' x k : parameter_set p -> random32 d -> random32 z -> random32 m -> domain_ok domain name ->
  Kyber_Generate F p d z = Ok (pk, sk) -> Kyber_Encapsulate F p domain name pk ss m = Ok (ct, s) -> length ss' = length ss -> exchange F p d pk m x -> small (error x) ->
  Kyber_Decapsulate F p domain name sk (ct ++ zeros k) ss' = Ok (shared domain name (sha3_256 m) pk (ct ++ zeros k) (length ss), true).
Proof.
  intros Hp [Hd Ld] [Hz Lz] [Hm Lm] HD G E LS X Sm.
  destruct (exchange_facts F p d z m domain name pk sk (length ss) ss' Hp Hd Ld Hz Lz Hm Lm HD LS G) as (c' & _ & _ & _ & _ & _ & _ & EN' & _ & DE).
  assert (c' = ct). { clear - EN' E. unfold Kyber_Encapsulate in *. destruct (kem_encapsulate F p pk (zeros (kCt p)) (zeros 32) m) as [[c3 sec]| |]; try discriminate. cbn [bind] in *. destruct (Kyber_secret domain name sec ss'); try discriminate. destruct (Kyber_secret domain name sec ss); try discriminate. cbn [bind] in *. congruence. }
  subst c'. exact (DE x k X Sm).
Qed.
Lemma c58_len domain name mm pk ct n : domain_ok domain name -> bytes mm -> bytes pk -> bytes ct -> length (shared domain name mm pk ct n) = if (length domain =? 0)%nat then 32%nat else n.
Proof.
  intros HD Hm Hp Hc. unfold shared, handed. cbv zeta. destruct (Nat.eqb_spec (length domain) 0) as [E|E].
  - apply shake_len; [lia|]. apply bytes_app. split; [apply bytes_firstn, sha512_bytes|apply sha256_bytes].
  - apply cshake_len; auto. apply shake_bytes.
Qed.

(** * C60 *)
Lemma round_small d x B : In (d, B) [(4, 104); (5, 52); (10, 2); (11, 1)] -> exists e, Z.abs e <= B /\ decompress d (compress d x) mod Q = (x + e) mod Q.
Proof.
  intros HI. assert (C : forallb (fun q => forallb (fun n => let e := (decompress (fst q) (compress (fst q) (Z.of_nat n)) - Z.of_nat n + 1664) mod Q - 1664 in Z.abs e <=? snd q) (seq 0 (Z.to_nat Q))) [(4, 104); (5, 52); (10, 2); (11, 1)] = true) by (vm_compute; reflexivity).
  rewrite forallb_forall in C. specialize (C _ HI). cbn [fst snd] in C. rewrite forallb_forall in C. pose proof (Z.mod_pos_bound x Q ltac:(unfold Q; lia)) as M.
  specialize (C (Z.to_nat (x mod Q)) ltac:(apply in_seq; lia)). rewrite Z2Nat.id in C by lia. cbv zeta in C. apply Z.leb_le in C.
  assert (EC : compress d (x mod Q) = compress d x) by (unfold compress; now rewrite Z.mod_mod by (unfold Q; lia)). rewrite EC in C. set (y := decompress d (compress d x)) in *. clearbody y. exists ((y - x mod Q + 1664) mod Q - 1664). split; [exact C|].
  unfold Q in *. clear - M. pose proof (Z.div_mod x 3329 ltac:(lia)). pose proof (Z.div_mod (y - x mod 3329 + 1664) 3329 ltac:(lia)). set (u := (y - x mod 3329 + 1664) mod 3329) in *. set (v := (y - x mod 3329 + 1664) / 3329) in *. set (w := x mod 3329) in *. set (t := x / 3329) in *.
  replace (x + (u - 1664)) with (y + (t - v) * 3329) by lia. now rewrite Z.mod_add by lia.
Qed.
Lemma c60_ct p b v : parameter_set p -> length b = kK p -> Forall (within 3328) b -> within 3328 v -> let du := if (kK p <=? 3)%nat then 10 else 11 in let dv := if (kK p <=? 3)%nat then 4 else 5 in
  exists c, PackCiphertext (zeros (kCt p)) b v (kK p) = Ok c /\ length c = kCt p /\ bytes c /\ UnPackCiphertext (repeat (zeros 256) (kK p)) (zeros 256) c = Ok (map (rounded du) b, rounded dv v).
Proof.
  intros Hp Lb Bb Bv du' dv'. pose proof (kset_level p Hp) as HL. exists (ctbytes (kK p) b v). split; [|split; [now apply ct_len|split; [now apply ct_bytes|]]].
  - rewrite <- Lb. rewrite PackCt_ok; [|now rewrite Lb|now apply bnd_lens|apply Bv|rewrite length_zeros, Lb; pose proof (kset_ct p Hp); lia]. f_equal. rewrite Lb. fold (ctbytes (kK p) b v). apply splice_full. rewrite length_zeros. now apply ct_len.
  - pose proof (unpack_ct (kK p) b v [] HL Lb Bb Bv) as U. rewrite app_nil_r in U. rewrite U. unfold du', dv', Proofs_Kyber11.du, Proofs_Kyber11.dv. rewrite Nat.leb_antisym. destruct (3 <? kK p)%nat; reflexivity.
Qed.
Lemma c60_key K v : length v = K -> Forall (within 3328) v -> exists b, PolyVecToBytes (zeros (384 * K)) v = Ok b /\ length b = (384 * K)%nat /\ bytes b /\ PolyVecFromBytes (repeat (zeros 256) K) b = Ok (map (map (fun x => x mod Q)) v).
Proof.
  intros L B. assert (B' : Forall (bnd 3328) v) by exact B. pose proof (bnd_lens _ B') as F. assert (LC : length (concat (map enc12 v)) = (384 * K)%nat) by (rewrite (concat_lens 384) by (now apply enc12_lens); rewrite map_length; lia). exists (concat (map enc12 v)).
  split; [rewrite VecToBytes_ok by (auto; rewrite length_zeros; lia); rewrite splice_full by (now rewrite length_zeros); reflexivity|]. split; [exact LC|]. split; [now apply encs_bytes|].
  rewrite (VecFromBytes_ok _ _ (map enc12 v)); [|apply rep_lens|now apply enc12_lens|rewrite repeat_length, map_length; lia|rewrite repeat_length; lia|rewrite repeat_length; apply slice_all; now symmetry]. rewrite dec_enc by exact B'. reflexivity.
Qed.
Lemma c60_from m : random32 m -> PolyFromMsg (zeros 256) m = Ok (msg_poly m).
Proof. intros [B L]. pose proof (FromMsg_ok (zeros 256) m [] (length_zeros _) B L) as H. now rewrite app_nil_r in H. Qed.
Lemma c60_to m a : random32 m -> within 1664 a -> (forall i, (i < 256)%nat -> exists e, -832 <= e <= 831 /\ coef a i mod Q = (1665 * msg_bit_at m i + e) mod Q) -> PolyToMsg (zeros 32) a = Ok m.
Proof.
  intros [B L] [La Ba] H. rewrite (ToMsg_ok (zeros 32) a m); auto; [rewrite splice_full by (rewrite length_zeros, L; reflexivity); reflexivity|]. intros i Hi. destruct (H i Hi) as (e & He & E).
  apply (msg_bit_ok _ e); [apply (bnd_nth 1664); [exact Ba|lia]|unfold msg_bit_at; match goal with |- context [?y mod 2] => pose proof (Z.mod_pos_bound y 2 ltac:(lia)) end; lia|exact He|]. unfold coef in E. apply cg_mod in E. rewrite E. rewrite Z.add_comm. reflexivity.
Qed.
Lemma c60_noise seed nonce eta : random32 seed -> (nonce < 256)%nat -> (eta = 2 \/ eta = 3)%nat -> PolyGetNoiseEta1 (zeros 256) seed 0 (Z.of_nat nonce) eta = Ok (noise eta seed nonce) /\ Forall (fun x => Z.abs x <= Z.of_nat eta) (noise eta seed nonce).
Proof.
  intros [B L] Hn He. split.
  - pose proof (Noise_ok (zeros 256) seed 0 nonce eta He (length_zeros _) B ltac:(lia) Hn) as H. unfold u8 in H. rewrite Z.mod_small in H by lia. rewrite slice_all in H by (now symmetry). exact H.
  - Transparent poly_of zsum. unfold noise, cbd, poly_of. rewrite Forall_map. apply Forall_forall. intros i _. set (b := shake 24 136 (seed ++ [Z.of_nat nonce]) (64 * eta)). clearbody b.
    assert (BA : forall k, 0 <= bit_at b k <= 1) by (intros; unfold bit_at; pose proof (Z.mod_pos_bound (nth (k / 8) b 0 / 2 ^ Z.of_nat (k mod 8)) 2); lia).
    assert (G : forall n f, (forall k, 0 <= f k <= 1) -> 0 <= zsum n f <= Z.of_nat n). { intros n f Hf. induction n as [|n IH]; cbn [zsum]; [lia|]. specialize (Hf n). lia. }
    pose proof (G eta (fun k => bit_at b (2 * eta * i + k)) ltac:(intros; apply BA)). pose proof (G eta (fun k => bit_at b (2 * eta * i + eta + k)) ltac:(intros; apply BA)). lia.
Qed.
Opaque poly_of zsum.

(** * C59 *)
Lemma c59_vec a b : length a = length b -> (0 < length a <= 9)%nat -> Forall (within 15000) a -> Forall (within 15000) b ->
  exists c, (ah <- PolyVecNtt a ;; bh <- PolyVecNtt b ;; ch <- PolyVecBaseMulAccMontgomery (zeros 256) ah bh ;; PolyInvNttToMontgomery ch) = Ok c /\ same c (dot a b).
Proof.
  intros L H0 Ba Bb. assert (NS : forall v, Forall (within 15000) v -> nearv 15000 v v). { intros v Hv. unfold nearv. induction Hv as [|p v [P1 P2] Hv IH]; constructor; [|exact IH]. split; [exact P1|now apply bound_nearl]. }
  destruct (VecNtt_ok 15000 a a ltac:(lia) (NS a Ba)) as (ah & -> & Ra). cbn [bind]. destruct (VecNtt_ok 15000 b b ltac:(lia) (NS b Bb)) as (bh & -> & Rb). cbn [bind].
  assert (Ra' : reps 4095 1 ah a). { unfold reps in *. clear - Ra. induction Ra as [|x y l l' N R IH]; constructor; [|exact IH]. apply nearl_mk; [now apply nearl_cgl in N|]. apply nearl_bnd in N. eapply Forall_impl; [|exact N]. cbn beta. lia. }
  pose proof (reps_len _ _ _ _ Ra) as L1. pose proof (reps_len _ _ _ _ Rb) as L2.
  destruct (Acc_ok (zeros 256) ah bh a b 1 1 (length_zeros _) Ra' Rb ltac:(lia) ltac:(lia)) as (ch & -> & Nc). cbn [bind].
  destruct (PolyInv_ok 1664 ch (dot a b) _ ltac:(lia) (is_poly_dot _ _) Nc) as (c & -> & N). exists c. split; [reflexivity|].
  assert (N' : nearl 1725 c (dot a b)); [|now apply same_near in N']. eapply nearl_cg; [exact N|]. etransitivity; [|symmetry; apply cgl_scale1]. apply scale_cg. apply cg_ex. exists 3327. reflexivity.
Qed.
Lemma c59_barrett a : - 2 ^ 15 <= a < 2 ^ 15 -> BarrettReduce a mod Q = a mod Q /\ Z.abs (BarrettReduce a) <= 1664.
Proof. intros H. destruct (BarrettReduce_ok a H) as [E B]. split; [now apply cg_mod|exact B]. Qed.
Lemma c59_montgomery a : Z.abs a <= 2 ^ 15 * 1665 * 9 -> (65536 * MontgomeryReduce a) mod Q = a mod Q /\ Z.abs (MontgomeryReduce a) < 2 ^ 15.
Proof.
  intros H. change (2 ^ 15 * 1665 * 9) with 491028480 in H. destruct (MontgomeryReduce_ok a 7493 ltac:(lia) ltac:(lia) ltac:(lia)) as [E B]. split; [|change (2 ^ 15) with 32768; lia]. apply cg_mod. rewrite E. apply cg_ex. exists (3327 * a). unfold Q. ring.
Qed.

(** * C61, C62 *)
Lemma c61_any F seed tr K A : random32 seed -> GenMatrix F seed tr K = Ok A ->
  length A = K /\ (forall i j, (i < K)%nat -> (j < K)%nat -> length (nth i A []) = K /\ is_poly (nth j (nth i A []) []) /\ Forall (fun x => 0 <= x < Q) (nth j (nth i A []) [])) /\ GenMatrix F seed (negb tr) K = Ok (transpose K A).
Proof. intros [B L]. apply matrix_any; [exact B|lia]. Qed.
Lemma c61_bad : exists seed, random32 seed /\ (exists A, GenMatrix 1 seed false 1 = Ok A) /\ forall F tr K A, (0 < K)%nat -> GenMatrix F seed tr K = Ok A -> ~ sampled seed 0 0 (nth 0 (nth 0 A []) []).
Proof. exists bad_seed. split; [exact bad_bytes|]. split; [exact (bad_exists false)|exact bad_matrix]. Qed.
Lemma c62 F p domain name sk ct ss A : parameter_set p -> domain_ok domain name -> bytes sk -> length sk = kSk p -> bytes ct -> (kCt p <= length ct)%nat ->
  let n := (384 * kK p)%nat in let pk := slice sk n (n + 32) in let h := slice sk (n + (n + 32)) 32 in GenMatrix F (skipn n pk) false (kK p) = Ok A ->
  exists m c, random32 m /\ IndCpaDec p (zeros 64) ct sk = Ok (m ++ zeros 32) /\ IndCpaEnc F p (zeros (kCt p)) (m ++ h) pk (sha3_512 (m ++ h)) 32 = Ok c /\ length c = kCt p /\
    (ct = c ++ zeros (length ct - kCt p) -> Kyber_Decapsulate F p domain name sk ct ss = Ok (handed domain name (shake 24 136 (firstn 32 (sha3_512 (m ++ h)) ++ sha3_256 ct) 32) (length ss), true)) /\
    (ct <> c ++ zeros (length ct - kCt p) -> Kyber_Decapsulate F p domain name sk ct ss = Ok (ss, false)).
Proof.
  intros Hp HD Bs Ls Bc Lc n pk h HG. destruct (decaps_any F p domain name sk ct ss A Hp HD Bs Ls Bc Lc HG) as (m & c & Bm & Lm & ED & EE & LC & EX). exists m, c. split; [now split|]. split; [exact ED|]. split; [exact EE|]. split; [exact LC|].
  destruct (list_eq_dec Z.eq_dec ct (c ++ zeros (length ct - kCt p))) as [E|E]; split; intros H; try contradiction; exact EX.
Qed.

(** * a sample of the error of decryption that is small *)
Definition one_poly : list Z := 1 :: zeros 255.
Transparent zsum poly_of.
Lemma zsum_single n f i : (i < n)%nat -> (forall k, (k < n)%nat -> k <> i -> f k = 0) -> zsum n f = f i.
Proof.
  revert i. induction n as [|n IH]; intros i Hi H; [lia|]. cbn [zsum]. destruct (Nat.eq_dec i n) as [->|N].
  - assert (Z0 : forall k, (k <= n)%nat -> zsum k f = 0). { induction k as [|k IHk]; intros Hk; [reflexivity|]. cbn [zsum]. rewrite IHk by lia. rewrite H by lia. reflexivity. }
    rewrite Z0 by lia. lia.
  - rewrite (IH i) by (try lia; intros; apply H; lia). rewrite (H n) by lia. lia.
Qed.
Lemma one_coef k : coef one_poly k = if (k =? 0)%nat then 1 else 0.
Proof. unfold coef, one_poly. destruct k as [|k]; [reflexivity|]. cbn [nth Nat.eqb]. unfold zeros. apply nth_repeat. Qed.
Lemma mul_one f : mul f one_poly = poly_of (coef f).
Proof.
  unfold mul, poly_of. apply map_ext_in. intros n Hn. apply in_seq in Hn. rewrite (zsum_single 256 _ n); [rewrite Nat.leb_refl, Nat.sub_diag, one_coef; cbn [Nat.eqb]; lia|lia|].
  intros k Hk N. destruct (Nat.leb_spec k n); rewrite one_coef; [destruct (Nat.eqb_spec (n - k) 0)|destruct (Nat.eqb_spec (256 + n - k) 0)]; lia.
Qed.
Lemma one_mul f : mul one_poly f = poly_of (coef f).
Proof.
  unfold mul, poly_of. apply map_ext_in. intros n Hn. apply in_seq in Hn. rewrite (zsum_single 256 _ 0%nat); [rewrite one_coef; cbn [Nat.eqb Nat.leb]; rewrite Nat.sub_0_r; lia|lia|].
  intros k Hk N. rewrite one_coef. destruct (Nat.eqb_spec k 0); lia.
Qed.
Definition sample : pke :=
  PKE [[poly_of (fun i => Z.of_nat i * 13)]] [one_poly] [poly_of (fun i => Z.of_nat i mod 5 - 2)] [one_poly] [poly_of (fun i => Z.of_nat i mod 3 - 1)] (poly_of (fun i => Z.of_nat i mod 4 - 2))
    (msg_poly (map Z.of_nat (seq 100 32))) 10 4.
Lemma sample_small : small (error sample).
Proof.
  assert (E : error sample = let A := poly_of (fun i => Z.of_nat i * 13) in let idp p := poly_of (coef p) in let e := poly_of (fun i => Z.of_nat i mod 5 - 2) in let e1 := poly_of (fun i => Z.of_nat i mod 3 - 1) in let e2 := poly_of (fun i => Z.of_nat i mod 4 - 2) in
     let t := add (add (idp A) zero_poly) e in let u := add (add (idp A) zero_poly) e1 in let v := add (add (add (idp t) zero_poly) e2) (msg_poly (map Z.of_nat (seq 100 32))) in
     sub (add (add (add (idp e) zero_poly) e2) (sub (rounded 4 v) v)) (add (idp (add e1 (sub (rounded 10 u) u))) zero_poly)).
  { unfold error, lost_v, lost_u, pke_v, pke_u, pke_t, sample. cbn [pA ps Spec_Kyber.pe pr pe1 pe2 pm pdu pdv length transpose seq map nth mat_vec vec_add combine dot fst snd]. rewrite !mul_one, !one_mul. reflexivity. }
  rewrite E. clear E. intros i Hi.
  match goal with |- context [coef ?p i] => assert (C : forallb (fun y => let x := (y + 832) mod Q - 832 in (-832 <=? x) && (x <=? 831)) p = true) by (vm_compute; reflexivity); set (q := p) in * end.
  rewrite forallb_forall in C. assert (C' : -832 <= (nth i q 0 + 832) mod Q - 832 <= 831).
  { destruct (Nat.lt_ge_cases i (length q)) as [L|L]; [|rewrite nth_overflow by exact L; vm_compute; split; discriminate]. specialize (C (nth i q 0) (nth_In _ _ L)). cbv zeta in C. apply andb_prop in C. destruct C as [C1 C2]. apply Z.leb_le in C1, C2. lia. }
  clear C. clearbody q. exists ((nth i q 0 + 832) mod Q - 832). split; [lia|]. unfold coef. rewrite Zminus_mod_idemp_l. f_equal. lia.
Qed.
