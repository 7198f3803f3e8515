(** * Properties of Kyber: C58 to C62 *)
From Verif Require Import Base Spec_Common Spec_Keccak Spec_Kyber Model_IntegerTools Model_Kyber Session_KMAC Session_Kyber Proofs_Kyber20 ProofsP_Kyber Proofs_KyberCase.
Open Scope Z_scope.

(** ** C58: the two sides of an exchange agree *)

(** If the polynomials of the exchange leave a decryption error whose coefficients lie in -832..831, Decapsulate accepts
    and returns what Encapsulate returned, whatever the two SharedSecret vectors contained *)
Theorem C58_both_sides_agree F p d z m domain name pk sk ct s ss ss' x : parameter_set p -> random32 d -> random32 z -> random32 m -> domain_ok domain name ->
  Kyber_Generate F p d z = Ok (pk, sk) -> Kyber_Encapsulate F p domain name pk ss m = Ok (ct, s) -> length ss' = length ss -> exchange F p d pk m x -> small (error x) ->
  Kyber_Decapsulate F p domain name sk ct ss' = Ok (s, true).
Proof. exact (c58_agree F p d z m domain name pk sk ct s ss ss' x). Qed.
Print Assumptions C58_both_sides_agree.
(** an exchange of one polynomial, with a full message and noise, whose error is small *)
Example C58_both_sides_agree_case : small (error sample).
Proof. exact sample_small. Qed.

(** Generate and Encapsulate are total as soon as the matrix can be sampled; their results have the sizes of the parameter
    set, and there are polynomials to which the theorem above applies *)
Theorem C58_total F p d z m domain name ss A : parameter_set p -> random32 d -> random32 z -> random32 m -> domain_ok domain name -> GenMatrix F (firstn 32 (sha3_512 d)) false (kK p) = Ok A ->
  exists pk sk ct, Kyber_Generate F p d z = Ok (pk, sk) /\ length pk = kPk p /\ bytes pk /\ length sk = kSk p /\ bytes sk /\
    Kyber_Encapsulate F p domain name pk ss m = Ok (ct, shared domain name (sha3_256 m) pk ct (length ss)) /\ length ct = kCt p /\ bytes ct /\ exists x, exchange F p d pk m x.
Proof. exact (c58_total F p d z m domain name ss A). Qed.
Print Assumptions C58_total.
Example C58_total_case : parameter_set Params1632 /\ random32 case_d /\ domain_ok [1; 2; 3] [75; 121] /\ exists A, GenMatrix 1 (firstn 32 (sha3_512 case_d)) false (kK Params1632) = Ok A.
Proof.
  split; [left; reflexivity|]. split; [exact case_random|]. split; [|destruct (case_matrix false) as (A & E & _); exists A; exact E].
  unfold domain_ok, short, fits_block. repeat split; try (repeat constructor; vm_compute; congruence); vm_compute; lia.
Qed.

(** The private key is the secret vector, the public key, its hash and the second output of the generator; the public key
    ends in the seed of the matrix *)
Theorem C58_key_layout F p d z pk sk : parameter_set p -> random32 d -> random32 z -> Kyber_Generate F p d z = Ok (pk, sk) ->
  exists s t, sk = s ++ pk ++ sha3_256 pk ++ z /\ pk = t ++ firstn 32 (sha3_512 d) /\ length s = (384 * kK p)%nat /\ length t = (384 * kK p)%nat.
Proof. exact (c58_layout F p d z pk sk). Qed.
Print Assumptions C58_key_layout.

(** The secret handed out has 32 bytes, or, with a domain key, the size of the caller's vector *)
Theorem C58_secret_size domain name mm pk ct n : domain_ok domain name -> bytes mm -> bytes pk -> bytes ct -> length (shared domain name mm pk ct n) = if (length domain =? 0)%nat then 32%nat else n.
Proof. exact (c58_len domain name mm pk ct n). Qed.
Print Assumptions C58_secret_size.
Example C58_secret_size_case : domain_ok [1; 2; 3] [75; 121].
Proof. unfold domain_ok, short, fits_block. repeat split; try (repeat constructor; vm_compute; congruence); vm_compute; lia. Qed.

(** Refuted: Decapsulate accepts only the ciphertext that Encapsulate made.  It accepts that ciphertext with any number of
    zero bytes behind it, and returns another secret for each *)
Theorem C58_one_ciphertext_refuted F p d z m domain name pk sk ct s ss ss' x k : parameter_set p -> random32 d -> random32 z -> random32 m -> domain_ok domain name ->
  Kyber_Generate F p d z = Ok (pk, sk) -> Kyber_Encapsulate F p domain name pk ss m = Ok (ct, s) -> length ss' = length ss -> exchange F p d pk m x -> small (error x) ->
  Kyber_Decapsulate F p domain name sk (ct ++ zeros k) ss' = Ok (shared domain name (sha3_256 m) pk (ct ++ zeros k) (length ss), true).
Proof. exact (c58_zeros F p d z m domain name pk sk ct s ss ss' x k). Qed.
Print Assumptions C58_one_ciphertext_refuted.
Example C58_one_ciphertext_refuted_case : small (error sample).
Proof. exact sample_small. Qed.

(** Refuted: Decapsulate refuses a ciphertext that is too short.  It reads past its end *)
Theorem C58_short_ciphertext_refuted F p domain name sk ct ss : parameter_set p -> length sk = kSk p -> (length ct < kCt p)%nat -> Kyber_Decapsulate F p domain name sk ct ss = UB.
Proof. exact (short_ct F p domain name sk ct ss). Qed.
Print Assumptions C58_short_ciphertext_refuted.
Example C58_short_ciphertext_refuted_case : parameter_set Params2400 /\ length (zeros (24 * 100)) = kSk Params2400 /\ (length (zeros 100) < kCt Params2400)%nat.
Proof. split; [right; left; reflexivity|]. split; [vm_compute; reflexivity|vm_compute; lia]. Qed.

(** ** C59: arithmetic in Z_3329[X]/(X^256 + 1) *)

(** The reductions keep the residue class and bound the result; the Montgomery factor is 2^16 *)
Theorem C59_barrett a : - 2 ^ 15 <= a < 2 ^ 15 -> BarrettReduce a mod Q = a mod Q /\ Z.abs (BarrettReduce a) <= 1664.
Proof. exact (c59_barrett a). Qed.
Print Assumptions C59_barrett.
Theorem C59_montgomery a : Z.abs a <= 2 ^ 15 * 1665 * 9 -> (65536 * MontgomeryReduce a) mod Q = a mod Q /\ Z.abs (MontgomeryReduce a) < 2 ^ 15.
Proof. exact (c59_montgomery a). Qed.
Print Assumptions C59_montgomery.
Example C59_barrett_case : BarrettReduce (-32768) = 522 /\ (522 - -32768) mod Q = 0 /\ MontgomeryReduce 1000000 = -14 /\ (65536 * -14 - 1000000) mod Q = 0.
Proof. vm_compute. repeat split. Qed.

(** Transforming two polynomials, multiplying and transforming back is their negacyclic product; nothing overflows *)
Theorem C59_product a b : is_poly a -> is_poly b -> Forall (fun x => Z.abs x <= 15000) a -> Forall (fun x => Z.abs x <= 15000) b ->
  exists c, (ah <- PolyNttv2 a ;; bh <- PolyNttv2 b ;; ch <- PolyBaseMulMontgomery (zeros 256) ah bh ;; PolyInvNttToMontgomery ch) = Ok c /\ same c (mul a b) /\ Forall (fun x => Z.abs x <= 1725) c.
Proof. exact (product_ok a b). Qed.
Print Assumptions C59_product.
Example C59_product_case : let a := repeat 15000 256 in is_poly a /\ Forall (fun x => Z.abs x <= 15000) a /\ mul a one_poly = a.
Proof. split; [reflexivity|]. split; [apply Forall_forall; intros x Hx; apply repeat_spec in Hx; subst; vm_compute; congruence|]. rewrite mul_one. vm_compute. reflexivity. Qed.

(** The same for the inner product of two vectors of up to nine polynomials *)
Theorem C59_inner_product a b : length a = length b -> (0 < length a <= 9)%nat -> Forall (within 15000) a -> Forall (within 15000) b ->
  exists c, (ah <- PolyVecNtt a ;; bh <- PolyVecNtt b ;; ch <- PolyVecBaseMulAccMontgomery (zeros 256) ah bh ;; PolyInvNttToMontgomery ch) = Ok c /\ same c (dot a b).
Proof. exact (c59_vec a b). Qed.
Print Assumptions C59_inner_product.
Example C59_inner_product_case : Forall (within 15000) [repeat 15000 256; repeat 1 256; repeat (-3) 256].
Proof.
  assert (W : forall x, Z.abs x <= 15000 -> within 15000 (repeat x 256)) by (intros x Hx; split; [apply repeat_length|apply Forall_forall; intros y Hy; apply repeat_spec in Hy; now subst]).
  constructor; [apply W; vm_compute; congruence|]. constructor; [apply W; vm_compute; congruence|]. constructor; [apply W; vm_compute; congruence|constructor].
Qed.

(** ** C60: encodings, rounding, messages and noise *)

(** Keys are written with 12 bits for each coefficient, and read back as the residues in 0..3328 *)
Theorem C60_keys K v : length v = K -> Forall (within 3328) v -> exists b, PolyVecToBytes (zeros (384 * K)) v = Ok b /\ length b = (384 * K)%nat /\ bytes b /\ PolyVecFromBytes (repeat (zeros 256) K) b = Ok (map (map (fun x => x mod Q)) v).
Proof. exact (c60_key K v). Qed.
Print Assumptions C60_keys.
(** Ciphertexts have the size of the parameter set and are read back as the rounded polynomials *)
Theorem C60_ciphertexts p b v : parameter_set p -> length b = kK p -> Forall (within 3328) b -> within 3328 v -> let du := if (kK p <=? 3)%nat then 10 else 11 in let dv := if (kK p <=? 3)%nat then 4 else 5 in
  exists c, PackCiphertext (zeros (kCt p)) b v (kK p) = Ok c /\ length c = kCt p /\ bytes c /\ UnPackCiphertext (repeat (zeros 256) (kK p)) (zeros 256) c = Ok (map (rounded du) b, rounded dv v).
Proof. exact (c60_ct p b v). Qed.
Print Assumptions C60_ciphertexts.
Example C60_ciphertexts_case : parameter_set Params3936 /\ length (repeat (repeat (-3328) 256) 5) = kK Params3936 /\ Forall (within 3328) (repeat (repeat (-3328) 256) 5) /\ within 3328 (repeat 3328 256).
Proof.
  split; [right; right; right; left; reflexivity|]. split; [reflexivity|]. assert (W : forall x, Z.abs x <= 3328 -> within 3328 (repeat x 256)) by (intros x Hx; split; [apply repeat_length|apply Forall_forall; intros y Hy; apply repeat_spec in Hy; now subst]).
  split; [|apply W; vm_compute; congruence]. apply Forall_forall. intros y Hy. apply repeat_spec in Hy. subst. apply W. vm_compute; congruence.
Qed.
(** Rounding to d bits moves a coefficient by at most these amounts *)
Theorem C60_rounding d x B : In (d, B) [(4, 104); (5, 52); (10, 2); (11, 1)] -> exists e, Z.abs e <= B /\ decompress d (compress d x) mod Q = (x + e) mod Q.
Proof. exact (round_small d x B). Qed.
Print Assumptions C60_rounding.
Example C60_rounding_case : decompress 4 (compress 4 104) = 0 /\ decompress 4 (compress 4 105) = 208.
Proof. vm_compute. repeat split. Qed.

(** A message becomes a polynomial, and is recovered from every polynomial that differs from it by -832..831 *)
Theorem C60_message_written m : random32 m -> PolyFromMsg (zeros 256) m = Ok (msg_poly m).
Proof. exact (c60_from m). Qed.
Print Assumptions C60_message_written.
Theorem C60_message_read m a : random32 m -> within 1664 a -> (forall i, (i < 256)%nat -> exists e, -832 <= e <= 831 /\ coef a i mod Q = (1665 * msg_bit_at m i + e) mod Q) -> PolyToMsg (zeros 32) a = Ok m.
Proof. exact (c60_to m a). Qed.
Print Assumptions C60_message_read.
Example C60_message_read_case : random32 (repeat 255 32) /\ within 1664 (repeat (1665 + 831 - 3329) 256) /\ forall i, (i < 256)%nat -> exists e, -832 <= e <= 831 /\ coef (repeat (1665 + 831 - 3329) 256) i mod Q = (1665 * msg_bit_at (repeat 255 32) i + e) mod Q.
Proof.
  split; [split; [repeat constructor; vm_compute; congruence|reflexivity]|]. split; [split; [reflexivity|apply Forall_forall; intros y Hy; apply repeat_spec in Hy; subst; vm_compute; congruence]|].
  intros i Hi. exists 831. split; [lia|]. assert (C : forallb (fun i => (coef (repeat (1665 + 831 - 3329) 256) i mod Q =? (1665 * msg_bit_at (repeat 255 32) i + 831) mod Q)) (seq 0 256) = true) by (vm_compute; reflexivity).
  rewrite forallb_forall in C. apply Z.eqb_eq. apply C. apply in_seq. lia.
Qed.
(** the bound is sharp: an error of +832 on a bit that is set is read as a clear bit *)
Theorem C60_message_error_832_refuted : PolyToMsg (zeros 32) ((1665 + 832 - 3329) :: zeros 255) = Ok (zeros 32) /\ msg_bit_at (1 :: zeros 31) 0 = 1 /\ PolyToMsg (zeros 32) ((1665 + 831 - 3329) :: zeros 255) = Ok (1 :: zeros 31).
Proof. vm_compute. repeat split. Qed.
Print Assumptions C60_message_error_832_refuted.

(** The noise is the centred binomial distribution of SHAKE-256 bytes, and lies within -eta..eta *)
Theorem C60_noise seed nonce eta : random32 seed -> (nonce < 256)%nat -> (eta = 2 \/ eta = 3)%nat -> PolyGetNoiseEta1 (zeros 256) seed 0 (Z.of_nat nonce) eta = Ok (noise eta seed nonce) /\ Forall (fun x => Z.abs x <= Z.of_nat eta) (noise eta seed nonce).
Proof. exact (c60_noise seed nonce eta). Qed.
Print Assumptions C60_noise.
Example C60_noise_case : random32 case_d /\ cbd 2 (27 :: zeros 127) = 1 :: 1 :: zeros 254 /\ cbd 3 ([199; 1] ++ zeros 190) = 3 :: 3 :: zeros 254.
Proof. split; [exact case_random|]. split; vm_compute; reflexivity. Qed.

(** ** C61: the matrix *)

(** If every stream has its 256 values within 534 bytes, the matrix is the specified one, in both orders *)
Theorem C61_sampled F seed tr K : bytes seed -> length seed = 32%nat -> (K <= 256)%nat -> (forall x y, (x < K)%nat -> (y < K)%nat -> (256 <= length (accepted (xof_bytes seed x y 534)))%nat) ->
  exists A, GenMatrix (S F) seed tr K = Ok A /\ length A = K /\ forall i j, (i < K)%nat -> (j < K)%nat -> length (nth i A []) = K /\ sampled seed (if tr then i else j) (if tr then j else i) (nth j (nth i A []) []).
Proof. exact (Proofs_Kyber19.matrix_sampled F seed tr K). Qed.
Print Assumptions C61_sampled.
Example C61_sampled_case : exists A, GenMatrix 1 (firstn 32 (sha3_512 case_d)) true 2 = Ok A /\ length A = 2%nat /\ forall i j, (i < 2)%nat -> (j < 2)%nat -> length (nth i A []) = 2%nat /\ sampled (firstn 32 (sha3_512 case_d)) i j (nth j (nth i A []) []).
Proof. exact (case_matrix true). Qed.
(** Whatever the seed, the entries are polynomials reduced to 0..3328, and the two orders are each other's transpose *)
Theorem C61_reduced_and_transposed F seed tr K A : random32 seed -> GenMatrix F seed tr K = Ok A ->
  length A = K /\ (forall i j, (i < K)%nat -> (j < K)%nat -> length (nth i A []) = K /\ is_poly (nth j (nth i A []) []) /\ Forall (fun x => 0 <= x < Q) (nth j (nth i A []) [])) /\ GenMatrix F seed (negb tr) K = Ok (transpose K A).
Proof. exact (c61_any F seed tr K A). Qed.
Print Assumptions C61_reduced_and_transposed.
(** Refuted: the matrix is the specified one for every seed.  A fourth block is read beyond its 32 new bytes *)
Theorem C61_every_seed_refuted : exists seed, random32 seed /\ (exists A, GenMatrix 1 seed false 1 = Ok A) /\ forall F tr K A, (0 < K)%nat -> GenMatrix F seed tr K = Ok A -> ~ sampled seed 0 0 (nth 0 (nth 0 A []) []).
Proof. exact c61_bad. Qed.
Print Assumptions C61_every_seed_refuted.

(** ** C62: Decapsulate of any key and any ciphertext *)

(** Decapsulate decrypts, encrypts again, and accepts exactly the ciphertext so obtained (with zeros behind it, if it is
    longer); otherwise it returns false and SharedSecret keeps its contents *)
Theorem C62_accepts_only_reencryption F p domain name sk ct ss A : parameter_set p -> domain_ok domain name -> bytes sk -> length sk = kSk p -> bytes ct -> (kCt p <= length ct)%nat ->
  let n := (384 * kK p)%nat in let pk := slice sk n (n + 32) in let h := slice sk (n + (n + 32)) 32 in GenMatrix F (skipn n pk) false (kK p) = Ok A ->
  exists m c, random32 m /\ IndCpaDec p (zeros 64) ct sk = Ok (m ++ zeros 32) /\ IndCpaEnc F p (zeros (kCt p)) (m ++ h) pk (sha3_512 (m ++ h)) 32 = Ok c /\ length c = kCt p /\
    (ct = c ++ zeros (length ct - kCt p) -> Kyber_Decapsulate F p domain name sk ct ss = Ok (handed domain name (shake 24 136 (firstn 32 (sha3_512 (m ++ h)) ++ sha3_256 ct) 32) (length ss), true)) /\
    (ct <> c ++ zeros (length ct - kCt p) -> Kyber_Decapsulate F p domain name sk ct ss = Ok (ss, false)).
Proof. exact (c62 F p domain name sk ct ss A). Qed.
Print Assumptions C62_accepts_only_reencryption.
(** a key whose public half carries the seed of the case above; any ciphertext will do *)
Example C62_accepts_only_reencryption_case : exists A, GenMatrix 1 (firstn 32 (sha3_512 case_d)) false (kK Params1632) = Ok A /\ forall s : list Z, length s = 32%nat -> skipn 768 (slice (zeros 768 ++ zeros 768 ++ s ++ zeros 64) 768 (768 + 32)) = s.
Proof.
  destruct (case_matrix false) as (A & E & _). exists A. split; [exact E|]. intros s Hs. exact (case_seed 768 s Hs).
Qed.
