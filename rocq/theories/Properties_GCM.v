(** Theorems C21-C25 and C49: carry-less multiplication, GHASH, GCM. *)
From Verif Require Import Base Spec_Common Spec_Modes Spec_Feed Spec_GCM Model_IntegerTools Model_Modes Model_GHASH Model_GCM Session_GCM ProofsP_Modes2 ProofsP_GCM.
Open Scope Z_scope.

(** ** C21 The carry-less multiplication is the product in GF(2)[x]/(x^128+x^7+x^2+x+1) *)
Theorem C21_permute_is_field_product h : bytes h -> length h = 16%nat ->
  exists k0 k1, BeBytesTo64 h 0 = Ok k0 /\ BeBytesTo64 h 8 = Ok k1 /\
    forall x, bytes x -> length x = 16%nat -> CMUL_Permute (k0, k1) x = Ok (gmul h x).
Proof. exact (c21_words h). Qed.
Print Assumptions C21_permute_is_field_product.
(** the specification's product is the remainder of the polynomial product: it differs from it by a
    multiple of the modulus and has degree below 128 *)
Theorem C21_product_is_remainder h x : bytes h -> length h = 16%nat -> bytes x -> length x = 16%nat ->
  bytes (gmul h x) /\ length (gmul h x) = 16%nat /\
  exists q, gf2_mul 128 (poly h) (poly x) = Z.lxor (poly (gmul h x)) (gf2_mul 128 gcm_modulus q).
Proof. exact (c21_remainder h x). Qed.
Print Assumptions C21_product_is_remainder.
Theorem C21_commutative h x : bytes h -> length h = 16%nat -> bytes x -> length x = 16%nat -> gmul h x = gmul x h.
Proof. exact (c21_comm h x). Qed.
Print Assumptions C21_commutative.
Theorem C21_linear h x y : bytes h -> length h = 16%nat -> bytes x -> length x = 16%nat -> bytes y -> length y = 16%nat ->
  gmul h (xorl x y) = xorl (gmul h x) (gmul h y).
Proof. exact (c21_linear h x y). Qed.
Print Assumptions C21_linear.
(** x * x^127 = x^128 = x^7 + x^2 + x + 1; the key words of x^1 are (2^62, 0) *)
Example C21_case : CMUL_Permute (2 ^ 62, 0) (zeros 15 ++ [1]) = Ok (225 :: zeros 15).
Proof. vm_compute. reflexivity. Qed.

(** ** C22 GHASH over any division of the data into Update calls *)
Theorem C22_ghash_any_chunking h aad ps : bytes h -> length h = 16%nat -> bytes aad -> Forall p_ok ps ->
  Z.of_nat (length aad) < 2 ^ 61 -> Z.of_nat (length (joined ps)) < 2 ^ 61 ->
  ghash_run h aad ps = Ok (ghash_of h aad (joined ps)).
Proof. exact (c22_run h aad ps). Qed.
Print Assumptions C22_ghash_any_chunking.
Example C22_case : Forall p_ok [Piece [1;2;3] 1 2; Piece (repeat 7 40) 3 33; Piece [] 0 0] /\
  joined [Piece [1;2;3] 1 2; Piece (repeat 7 40) 3 33; Piece [] 0 0] = [2;3] ++ repeat 7 33.
Proof. split; [|reflexivity]. repeat constructor; cbn; try lia; cbv; congruence. Qed.

(** ** C23 Encryption writes the ciphertext followed by its 16-byte tag; decryption returns the plaintext *)
Definition usable (p : prof) (ord : nat -> list nat) : Prop :=
  par p = true -> good_profile (deg p) (pblk p) /\ (forall i, schedule (deg p) (ord i)) /\ Z.of_nat (pblk p) <= 1044480.
Theorem C23_encrypt_definition sizes E s p ord g key iv ad inp io out oo len : cipher E -> usable p ord ->
  gcm_ready sizes E s p ord g -> In (length key) sizes -> key <> [] -> session_ok true iv ad inp io out oo len ->
  let c := gcm_wide (E key) iv (slice inp io len) in
  exists g' out', gcm_session sizes E s p ord g true key iv ad inp io out oo len = Ok (g', out', None) /\
    written out out' oo (c ++ gcm_tag (E key) iv (ad_bytes ad) c) /\ g_tag g' = gcm_tag (E key) iv (ad_bytes ad) c.
Proof. intros HE HP. exact (c23_encrypt sizes E s p ord HE HP g key iv ad inp io out oo len). Qed.
Print Assumptions C23_encrypt_definition.
Theorem C23_round_trip sizes E s p ord g g' key iv ad ad' inp io out oo len out2 oo2 : cipher E -> usable p ord ->
  gcm_ready sizes E s p ord g -> gcm_ready sizes E s p ord g' -> In (length key) sizes -> key <> [] ->
  session_ok true iv ad inp io out oo len -> ad_ok ad' -> ad_bytes ad' = ad_bytes ad -> bytes out2 -> (oo2 + len <= length out2)%nat ->
  exists g1 out1 g2 out2', gcm_session sizes E s p ord g true key iv ad inp io out oo len = Ok (g1, out1, None) /\
    gcm_session sizes E s p ord g' false key iv ad' out1 oo out2 oo2 len = Ok (g2, out2', None) /\
    written out2 out2' oo2 (slice inp io len).
Proof. intros HE HP. exact (c23_round_trip sizes E s p ord HE HP g g' key iv ad ad' inp io out oo len out2 oo2). Qed.
Print Assumptions C23_round_trip.
(** a toy cipher meeting the hypothesis: add the first key byte to every byte *)
Definition toy (k b : list Z) : list Z := map (fun x => (x + nth 0 k 0) mod 256) b.
Definition seq_prof : prof := {| par := false; deg := 1; pblk := 0 |}.
Example C23_case : cipher toy /\ usable seq_prof (fun _ => [0%nat]) /\ gcm_ready [1%nat] toy 1 seq_prof (fun _ => [0%nat]) GCM_new /\
  session_ok true (repeat 5 12) (Some ([1;2;3], 1%nat, 2%nat)) (repeat 9 20) 0 (zeros 40) 2 20 /\
  exists g' o, gcm_session [1%nat] toy 1 seq_prof (fun _ => [0%nat]) GCM_new true [3] (repeat 5 12) (Some ([1;2;3], 1%nat, 2%nat)) (repeat 9 20) 0 (zeros 40) 2 20 = Ok (g', o, None).
Proof.
  split. { intros k b L. split; [unfold toy; now rewrite map_length|]. intros _. apply Forall_map, Forall_forall. intros x _. unfold is_byte. lia. }
  split; [discriminate|]. split; [constructor|]. split.
  - unfold session_ok, ad_ok. repeat split; try (cbn; lia); repeat constructor; unfold is_byte; lia.
  - do 2 eexists. vm_compute. reflexivity.
Qed.

(** ** C24 Decryption is accepted exactly when the appended tag is the tag of what was received;
    otherwise Transform throws AuthenticationFailure and the output array is untouched *)
Theorem C24_decrypt_exact sizes E s p ord g key iv ad inp io out oo len : cipher E -> usable p ord ->
  gcm_ready sizes E s p ord g -> In (length key) sizes -> key <> [] -> session_ok false iv ad inp io out oo len ->
  let c := slice inp io len in
  exists g' out' e, gcm_session sizes E s p ord g false key iv ad inp io out oo len = Ok (g', out', e) /\
    ((slice inp (io + len) 16 = gcm_tag (E key) iv (ad_bytes ad) c /\ e = None /\ written out out' oo (gcm_wide (E key) iv c)) \/
     (slice inp (io + len) 16 <> gcm_tag (E key) iv (ad_bytes ad) c /\ e = Some AuthenticationFailure /\ out' = out)).
Proof. intros HE HP. exact (c24_decrypt sizes E s p ord HE HP g key iv ad inp io out oo len). Qed.
Print Assumptions C24_decrypt_exact.
Example C24_case : session_ok false (repeat 5 12) None (repeat 9 36) 0 (repeat 77 20) 0 20 /\
  exists g', gcm_session [1%nat] toy 1 seq_prof (fun _ => [0%nat]) GCM_new false [3] (repeat 5 12) None (repeat 9 36) 0 (repeat 77 20) 0 20
    = Ok (g', repeat 77 20, Some AuthenticationFailure).
Proof.
  split. { unfold session_ok, ad_ok. repeat split; try (cbn; lia); repeat constructor; unfold is_byte; lia. }
  eexists. vm_compute. reflexivity.
Qed.

(** ** C25 Initialization with a nonce and no key, after any session under [key]: the tag is the
    cipher image of the pre-counter block, whatever the message and the associated data *)
Theorem C25_keyless_tag_ignores_data sizes E s p ord g enc0 key iv0 ad0 inp0 io0 out0 oo0 len0 g1 o1 e1 : cipher E -> usable p ord ->
  gcm_ready sizes E s p ord g -> In (length key) sizes -> key <> [] -> session_ok enc0 iv0 ad0 inp0 io0 out0 oo0 len0 ->
  gcm_session sizes E s p ord g enc0 key iv0 ad0 inp0 io0 out0 oo0 len0 = Ok (g1, o1, e1) ->
  forall iv ad inp io out oo len, session_ok true iv ad inp io out oo len -> iv <> zeros (length iv0) ->
  exists g2 out2, gcm_session sizes E s p ord g1 true [] iv ad inp io out oo len = Ok (g2, out2, None) /\
    written out out2 oo (ctr_crypt (E key) (be_bytes 16) (value_be (keyless_j0 iv) + 1) (slice inp io len) ++ E key (keyless_j0 iv)).
Proof. intros HE HP. exact (c25_encrypt sizes E s p ord HE HP g enc0 key iv0 ad0 inp0 io0 out0 oo0 len0 g1 o1 e1). Qed.
Print Assumptions C25_keyless_tag_ignores_data.
(** and decryption then accepts every ciphertext and every associated data carrying that tag *)
Theorem C25_keyless_forgery_accepted sizes E s p ord g enc0 key iv0 ad0 inp0 io0 out0 oo0 len0 g1 o1 e1 : cipher E -> usable p ord ->
  gcm_ready sizes E s p ord g -> In (length key) sizes -> key <> [] -> session_ok enc0 iv0 ad0 inp0 io0 out0 oo0 len0 ->
  gcm_session sizes E s p ord g enc0 key iv0 ad0 inp0 io0 out0 oo0 len0 = Ok (g1, o1, e1) ->
  forall iv ad inp io out oo len, session_ok false iv ad inp io out oo len -> iv <> zeros (length iv0) ->
  slice inp (io + len) 16 = E key (keyless_j0 iv) ->
  exists g2 out2, gcm_session sizes E s p ord g1 false [] iv ad inp io out oo len = Ok (g2, out2, None) /\
    written out out2 oo (ctr_crypt (E key) (be_bytes 16) (value_be (keyless_j0 iv) + 1) (slice inp io len)).
Proof. intros HE HP. exact (c25_decrypt sizes E s p ord HE HP g enc0 key iv0 ad0 inp0 io0 out0 oo0 len0 g1 o1 e1). Qed.
Print Assumptions C25_keyless_forgery_accepted.
(** the property itself is false: the key-less tag is not the GCM tag *)
Theorem C25_keyless_tag_refuted : exists g1 o1 g2 out2 out3 g3,
  gcm_session [1%nat] toy 1 seq_prof (fun _ => [0%nat]) GCM_new true [3] (repeat 5 12) None [9] 0 (zeros 17) 0 1 = Ok (g1, o1, None) /\
  gcm_session [1%nat] toy 1 seq_prof (fun _ => [0%nat]) g1 true [] (repeat 6 12) None [9] 0 (zeros 17) 0 1 = Ok (g2, out2, None) /\
  gcm_session [1%nat] toy 1 seq_prof (fun _ => [0%nat]) g1 true [3] (repeat 6 12) None [9] 0 (zeros 17) 0 1 = Ok (g3, out3, None) /\
  out2 <> out3.
Proof. do 6 eexists. split; [vm_compute; reflexivity|]. split; [vm_compute; reflexivity|]. split; [vm_compute; reflexivity|]. discriminate. Qed.
Print Assumptions C25_keyless_tag_refuted.
(** for nonces that are not 12 bytes long, every key-less session uses the same keystream *)
Theorem C25_keyless_keystream_repeats iv iv' : length iv <> 12%nat -> length iv' <> 12%nat -> keyless_j0 iv = keyless_j0 iv'.
Proof. intros H H'. unfold keyless_j0. apply Nat.eqb_neq in H, H'. now rewrite H, H'. Qed.
Print Assumptions C25_keyless_keystream_repeats.

(** ** C49 Agreement with NIST SP 800-38D *)
Theorem C49_is_gcm sizes E s p ord g key iv ad inp io out oo len : cipher E -> usable p ord ->
  gcm_ready sizes E s p ord g -> In (length key) sizes -> key <> [] -> session_ok true iv ad inp io out oo len ->
  value_be (skipn 12 (gcm_j0 (E key (zeros 16)) iv)) + Z.of_nat (blocks_for len) < 2 ^ 32 ->
  exists g' out', gcm_session sizes E s p ord g true key iv ad inp io out oo len = Ok (g', out', None) /\
    written out out' oo (fst (gcm_seal (E key) iv (ad_bytes ad) (slice inp io len)) ++ snd (gcm_seal (E key) iv (ad_bytes ad) (slice inp io len))).
Proof. intros HE HP. exact (c49_gcm sizes E s p ord HE HP g key iv ad inp io out oo len). Qed.
Print Assumptions C49_is_gcm.
(** for 12-byte nonces the side condition is a bound on the length alone *)
Theorem C49_twelve_byte_nonce h iv : length iv = 12%nat -> value_be (skipn 12 (gcm_j0 h iv)) = 1.
Proof. exact (c49_twelve h iv). Qed.
Print Assumptions C49_twelve_byte_nonce.
(** without it the claim is false: the code increments all 128 bits of the counter.  The witness
    is a permutation of blocks with hash key 1 and a 16-byte nonce *)
Definition swap (k b : list Z) : list Z :=
  if list_eq_dec Z.eq_dec b (zeros 16) then 128 :: zeros 15 else if list_eq_dec Z.eq_dec b (128 :: zeros 15) then zeros 16 else b.
Theorem C49_counter_width_refuted : cipher swap /\ (forall k b, swap k (swap k b) = b) /\ exists g' out',
  gcm_session [1%nat] swap 1 seq_prof (fun _ => [0%nat]) GCM_new true [3] (repeat 255 15 ++ [127]) None [0] 0 (zeros 17) 0 1 = Ok (g', out', None) /\
  firstn 1 out' = [128] /\ fst (gcm_seal (swap [3]) (repeat 255 15 ++ [127]) [] [0]) = [255].
Proof.
  split. { intros k b L. unfold swap. destruct (list_eq_dec _ _ _); [|destruct (list_eq_dec _ _ _)]; split; auto; intros; repeat constructor; unfold is_byte; lia. }
  split. { intros k b. unfold swap. destruct (list_eq_dec Z.eq_dec b (zeros 16)) as [->|N]; [reflexivity|]. destruct (list_eq_dec Z.eq_dec b (128 :: zeros 15)) as [->|N']; [reflexivity|]. destruct (list_eq_dec Z.eq_dec b (zeros 16)); [contradiction|]. destruct (list_eq_dec Z.eq_dec b (128 :: zeros 15)); [contradiction|reflexivity]. }
  do 2 eexists. split; [vm_compute; reflexivity|]. split; [reflexivity|vm_compute; reflexivity].
Qed.
Print Assumptions C49_counter_width_refuted.
