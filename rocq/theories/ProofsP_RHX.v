(** The RHX properties, assembled: the generators of the extended variants, round trips, findings. *)
From Verif Require Import Base BaseLemmas Spec_Common Proofs_Common Spec_Feed Spec_SHA2 Spec_AES Spec_MAC Spec_KDF Spec_Keccak Model_IntegerTools Model_Modes Proofs_Windows Proofs_GCM Model_SHA2 Session_SHA2 Proofs_SHA2obj Proofs_SHA2cmp ProofsP_SHA2 ProofsP_MAC
  Model_KDF Model_SHAKE Model_Keys Session_Digest Session_KMAC Session_SHAKE Session_Kdf Proofs_Keccak Proofs_Sponge Proofs_XOF Proofs_KMAC Proofs_SHAKE Proofs_HMAC Proofs_KDF ProofsP_KDF Proofs_AES Model_Rijndael Proofs_Rijndael Proofs_Rijndael2 Model_RHX Session_Block Proofs_Block Proofs_RHX.
Open Scope Z_scope.

(** ** generators; [len] bytes on request *)
Definition generates {G} (x : kgen G) (F : list Z -> list Z -> nat -> list Z) (cok : list Z -> Prop) (GR : G -> Prop) : Prop :=
  forall g key custom len, GR g -> bytes key -> (16 <= length key)%nat -> bytes custom -> length custom <> 0%nat -> cok custom -> (len <= 2048)%nat ->
    exists g1 g2, xg_init x g key [] custom = Ok (g1, None) /\ xg_fill x g1 (zeros len) = Ok (g2, F key custom len) /\ GR g2 /\ length (F key custom len) = len /\ bytes (F key custom len).
Section hk.
Context {D : Type} (rate n : nat) (dupd : D -> list Z -> nat -> nat -> res D) (dfin : D -> list Z -> nat -> res (D * list Z)) (dnew : D).
Context (A : D -> list Z -> Prop) (H : list Z -> list Z).
Hypothesis Hn : (n <= rate)%nat.
Hypothesis Hn8 : (32 <= n)%nat.
Hypothesis Anew : A dnew [].
Hypothesis Aupd : forall o m p, A o m -> p_ok p -> exists o', dupd o (p_in p) (p_off p) (p_len p) = Ok o' /\ A o' (m ++ p_data p).
Hypothesis Afin : forall o m out oo, A o m -> (oo + n <= length out)%nat -> dfin o out oo = Ok (dnew, splice out oo (H m)).
Hypothesis Hlen : forall m, length (H m) = n.
Hypothesis Hbytes : forall m, bytes (H m).
Lemma hk_generates name : generates (hkdf_gen name rate n dupd dfin dnew) (hkdf_stream (hmac H rate) n) (fun _ => True) (fun g => exists st, hkR rate n A H st g).
Proof.
  intros g key custom len (st & HG) B LK BC NC _ LL.
  assert (H8 : (8 <= n)%nat) by lia. cbn [hkdf_gen xg_init xg_fill].
  destruct (hk_step rate n dupd dfin dnew A H Hn H8 Anew Aupd Afin Hlen Hbytes st g (KInit key [] custom) HG) as (g1 & r & E & R & HG1); [cbn [kcall_ok]; repeat split; auto; constructor|].
  assert (K : kspec (hkdf_kdf_spec (hmac H rate) n) st (KInit key [] custom) = (KOn (key, custom) 0, fun r => r = Done)).
  { cbn [kspec hkdf_kdf_spec ks_minkey ks_init]. rewrite (proj2 (Nat.ltb_ge _ _) LK). cbn [length Nat.eqb]. rewrite (proj2 (Nat.eqb_neq _ _) NC). reflexivity. }
  rewrite K in R, HG1. cbn [fst snd] in R, HG1. subst r. cbn [kstep hkdf_ops k_initialize] in E. unfold bind at 1 in E.
  destruct (HKDF_Initialize rate n dupd dfin dnew g key [] custom) as [[g' [e|]]|e|]; cbn [fst snd] in E; try discriminate. injection E as ->.
  exists g1. destruct (hk_step rate n dupd dfin dnew A H Hn H8 Anew Aupd Afin Hlen Hbytes _ g1 (KGenAllS (zeros len)) HG1 I) as (g2 & r & E & R & HG2).
  cbn [kspec request hkdf_kdf_spec ks_refuse ks_count ks_block fst snd] in R, HG2. rewrite length_zeros in R, HG2. replace (0 mod 256)%nat with 0%nat in R, HG2 by reflexivity.
  assert (LN : (len / n <= 64)%nat) by (apply Nat.div_le_upper_bound; lia). rewrite (proj2 (Nat.ltb_ge _ _)) in R, HG2 by lia. rewrite (proj2 (Nat.leb_le _ _)) in R, HG2 by lia. cbn [fst snd] in R, HG2.
  destruct R as (out' & -> & W). cbn [kstep hkdf_ops k_alls] in E. unfold caught in E. destruct (HKDF_GenAllS n dupd dfin g1 (zeros len)) as [[g2' out2]|e|]; try discriminate. injection E as -> ->.
  assert (FE : firstn len (blocks_from (fun i => hkdf_T (hmac H rate) key custom (S (i mod 256))) 0 (blocks_for n len)) = hkdf_stream (hmac H rate) n key custom len).
  { unfold hkdf_stream, hkdf_expand. erewrite <- blocks_shift; [reflexivity|]. intros i Hi. cbv beta. rewrite Nat.mod_small; [reflexivity|]. assert (blocks_for n len <= 256)%nat; [|lia]. unfold blocks_for. apply Nat.div_le_upper_bound; lia. }
  assert (HL : forall p i, length (hkdf_T (hmac H rate) (fst p) (snd p) (S i)) = n) by (intros p i; cbn [hkdf_T]; unfold hmac; apply Hlen).
  assert (FL : length (hkdf_stream (hmac H rate) n key custom len) = len).
  { rewrite <- FE. apply (request_len _ n); [lia|intros i; apply (HL (key, custom))|lia]. }
  assert (FB : bytes (hkdf_stream (hmac H rate) n key custom len)).
  { unfold hkdf_stream, hkdf_expand. apply bytes_firstn. unfold blocks_from. apply Forall_concat, Forall_map, Forall_forall. intros i Hi. apply in_seq in Hi. destruct i as [|i]; [lia|]. cbn [hkdf_T]. unfold hmac. apply Hbytes. }
  exists g2. split; [reflexivity|]. split; [|split; [eexists; exact HG2|auto]]. f_equal. f_equal.
  cbn [hkdf_kdf_spec ks_block ks_count fst snd] in W. rewrite FE in W. apply written_eq in W; [|rewrite FL, length_zeros; lia]. rewrite W. rewrite splice_all; [reflexivity|rewrite FL, length_zeros; reflexivity].
Qed.
End hk.
Lemma squeeze_bytes R rate k : forall st, bytes (squeeze (keccak R) rate k st).
Proof. induction k as [|k IH]; intros st; [constructor|]. cbn [squeeze]. apply Forall_app. split; [apply bytes_firstn; apply u64_bytes_bytes|apply IH]. Qed.
Lemma cshake_bytes rate key len name cust : bytes (cshake 24 rate key len name cust).
Proof. unfold cshake, shake, sponge. destruct (_ =? 0)%nat; apply bytes_firstn, squeeze_bytes. Qed.
Lemma shake_generates name rate : (11 <= rate <= 200)%nat ->
  generates (shake_gen name rate) (shake_stream rate) (fun c => short c /\ fits_block rate c []) (fun g => exists a, sabs rate g a).
Proof.
  intros Hr g key custom len (a & HG) B LK BC NC (S1 & S2) LL. cbn [shake_gen xg_init xg_fill].
  destruct (SHAKE_Init_ok rate Hr g a key [] custom HG) as (g1 & E1 & HG1); [cbn [scall_ok]; refine (conj B (conj (Forall_nil _) (conj BC (conj _ (conj S1 S2))))); red; cbn; lia|lia|left; reflexivity|].
  rewrite E1. exists g1. rewrite length_zeros.
  destruct (SHAKE_Gen_ok rate Hr g1 key [] custom 0 0 (zeros len) 0 len HG1) as (g2 & E2 & L2 & HG2); [rewrite length_zeros; lia|assert (len / rate <= 2048)%nat by (apply Nat.div_le_upper_bound; nia); revert H; generalize (len / rate)%nat; intros; lia|].
  cbn [Nat.mul Nat.add skipn] in E2, L2. exists g2. split; [reflexivity|]. rewrite E2. fold (shake_stream rate key custom len) in *. split; [rewrite splice_all; [reflexivity|rewrite length_zeros; exact L2]|].
  split; [eexists; exact HG2|]. split; [exact L2|apply cshake_bytes].
Qed.
Lemma fits_len rate a b : length a = length b -> fits_block rate a [] -> fits_block rate b [].
Proof. unfold fits_block, encode_string. intros E. rewrite !app_length, E. auto. Qed.
Lemma custom_len name key info : length (custom_string name key info) = (length name + 2 + length info)%nat.
Proof. unfold custom_string. rewrite !app_length, length_le_bytes. lia. Qed.

(** ** every history *)
Section both.
  Context {G : Type} (x : kgen G) (F : list Z -> list Z -> nat -> list Z) (cok : list Z -> Prop) (iok : list Z -> Prop) (GR : G -> Prop) (g0 : G).
  Hypothesis Hname : bytes (xg_name x) /\ length (xg_name x) = 7%nat.
  Hypothesis Hgen : generates x F cok GR.
  Hypothesis Hiok : forall info key, iok info -> Z.of_nat (length info) < 2 ^ 32 /\ (rhx_legal (length key) = true -> cok (custom_string (xg_name x) key info)).
  Hypothesis Hg0 : GR g0.
  Notation C := (rijndael_with (extended_schedule (xg_name x) F)).
  Lemma both_ok : (forall cs a, bcalls_ok C iok false cs -> exists rs, bhistory (rhx_ops (Some x)) (RHX_new g0) cs = Ok rs /\ bexpected C a cs rs) /\ inverts C iok.
  Proof.
    destruct Hname as [Bn Ln]. assert (Nn : length (xg_name x) <> 0%nat) by lia.
    assert (HG : forall g key custom len, GR g -> bytes key -> (16 <= length key)%nat -> bytes custom -> length custom <> 0%nat -> cok custom -> (len <= 496)%nat ->
      exists g1 g2, xg_init x g key [] custom = Ok (g1, None) /\ xg_fill x g1 (zeros len) = Ok (g2, F key custom len) /\ GR g2 /\ length (F key custom len) = len /\ bytes (F key custom len))
      by (intros g key custom len Gg B LK BC NC CK LL; exact (Hgen g key custom len Gg B LK BC NC CK ltac:(lia))).
    split; [intros cs a; exact (ext_history x F cok iok GR Bn Nn HG Hiok g0 cs a Hg0)|].
    apply rij_inverts. intros key info L B BI HI. exact (ext_keys x F cok iok GR Bn Nn HG Hiok g0 key info Hg0 L B BI HI).
  Qed.
End both.
Lemma name_ok kind d : is_byte kind -> d = s256 \/ d = s512 -> bytes (rhx_name kind d) /\ length (rhx_name kind d) = 7%nat.
Proof. intros K [-> | ->]; (split; [|reflexivity]); repeat (apply Forall_cons; [first [exact K|red; lia]|]); apply Forall_nil. Qed.
Definition works (v : variant) : Prop :=
  (forall cs a, bcalls_ok (v_cipher v) (v_info v) false cs -> exists rs, bhistory (v_ops v) (v_new v) cs = Ok rs /\ bexpected (v_cipher v) a cs rs) /\ inverts (v_cipher v) (v_info v).
Lemma w_aes : works v_AES.
Proof. split; [exact aes_history|]. apply rij_inverts. intros key info L B _ _. now apply aes_keys. Qed.
Lemma w_h256 : works v_RHXH256.
Proof.
  exact (both_ok (gen_H256 (rhx_name 0x48 s256)) _ _ any_info _ _ (name_ok 0x48 s256 ltac:(red; lia) (or_introl eq_refl))
    (hk_generates 64 32 SHA2256_Update SHA2256_Finalize SHA2256_new after256 sha256 ltac:(lia) ltac:(lia) after256_new upd256 final256 sha256_len sha256_bytes (rhx_name 0x48 s256))
    (fun info key Hi => conj Hi (fun _ => I)) (ex_intro _ (KIdle []) (hk_new 64 32 SHA2256_new after256 sha256 after256_new))).
Qed.
Lemma w_h512 : works v_RHXH512.
Proof.
  exact (both_ok (gen_H512 (rhx_name 0x48 s512)) _ _ any_info _ _ (name_ok 0x48 s512 ltac:(red; lia) (or_intror eq_refl))
    (hk_generates 128 64 SHA2512_Update SHA2512_Finalize SHA2512_new after512 sha512_code ltac:(lia) ltac:(lia) after512_new upd512 c31_final sha512_code_len sha512_code_bytes (rhx_name 0x48 s512))
    (fun info key Hi => conj Hi (fun _ => I)) (ex_intro _ (KIdle []) (hk_new 128 64 SHA2512_new after512 sha512_code after512_new))).
Qed.
Lemma shake_custom name rate info key : length name = 7%nat -> shake_info rate info -> Z.of_nat (length info) < 2 ^ 32 /\ (rhx_legal (length key) = true -> short (custom_string name key info) /\ fits_block rate (custom_string name key info) []).
Proof.
  intros Ln (H1 & H2). split; [exact H1|]. intros L. split; [unfold short; rewrite custom_len; lia|]. apply (fits_len rate (zeros (9 + length info))); [rewrite length_zeros, custom_len; lia|exact H2].
Qed.
Lemma w_s256 : works v_RHXS256.
Proof.
  exact (both_ok (shake_gen (rhx_name 0x53 s256) 136) _ _ (shake_info 136) _ _ (name_ok 0x53 s256 ltac:(red; lia) (or_introl eq_refl)) (shake_generates (rhx_name 0x53 s256) 136 ltac:(lia))
    (fun info key => shake_custom (rhx_name 0x53 s256) 136 info key eq_refl) (ex_intro _ None eq_refl)).
Qed.
Lemma w_s512 : works v_RHXS512.
Proof.
  exact (both_ok (shake_gen (rhx_name 0x53 s512) 72) _ _ (shake_info 72) _ _ (name_ok 0x53 s512 ltac:(red; lia) (or_intror eq_refl)) (shake_generates (rhx_name 0x53 s512) 72 ltac:(lia))
    (fun info key => shake_custom (rhx_name 0x53 s512) 72 info key eq_refl) (ex_intro _ None eq_refl)).
Qed.

Lemma rhx_works v : In v rhx_variants -> works v.
Proof. intros [<- | [<- | [<- | [<- | [<- | []]]]]]; [exact w_aes|exact w_h256|exact w_h512|exact w_s256|exact w_s512]. Qed.
Lemma rhx_small v n : In v rhx_variants -> cp_legal (v_cipher v) n = rhx_legal n.
Proof. intros [<- | [<- | [<- | [<- | [<- | []]]]]]; reflexivity. Qed.

(** ** round trips *)
Section trips.
  Context {O : Type} (X : bc_ops O) (o0 : O) (C : block_cipher) (iok : list Z -> Prop).
  Hypothesis hist : forall cs a, bcalls_ok C iok false cs -> exists rs, bhistory X o0 cs = Ok rs /\ bexpected C a cs rs.
  Hypothesis inverse : forall key info b, cp_legal C (length key) = true -> bytes key -> bytes info -> iok info -> length b = 16%nat -> bytes b ->
    (length (cp_enc C key info b) = 16%nat /\ bytes (cp_enc C key info b) /\ length (cp_dec C key info b) = 16%nat /\ bytes (cp_dec C key info b)) /\
    cp_dec C key info (cp_enc C key info b) = b /\ cp_enc C key info (cp_dec C key info b) = b.
  Hypothesis small : forall n, cp_legal C n = true -> Z.of_nat n < 2 ^ 32.
  Lemma two_calls enc key info k inp io out oo : cp_legal C (length key) = true -> bytes key -> bytes info -> iok info -> (k <= 4)%nat -> window (16 * 2 ^ k) inp io out oo ->
    exists out', bhistory X o0 [BInit enc key info; BTransform k inp io out oo] = Ok [Done; Wrote out'] /\
      out' = splice out oo (concat (map ((if enc then cp_enc C else cp_dec C) key info) (chunks 16 (taken (16 * 2 ^ k) inp io out)))).
  Proof.
    intros L B BI HI K W. destruct (hist [BInit enc key info; BTransform k inp io out oo] (true, [], [])) as (rs & E & X1).
    { cbn [bcalls_ok]. rewrite L. cbn [orb]. repeat split; auto; apply W. }
    destruct rs as [|r1 rs]; cbn [bexpected] in X1; [contradiction|]. rewrite L in X1. destruct X1 as (-> & X1). destruct rs as [|r2 rs]; cbn [bexpected] in X1; [contradiction|].
    destruct X1 as ((out' & -> & W1) & X1). destruct rs; [|contradiction]. exists out'. split; [exact E|]. apply written_eq; [|exact W1].
    assert (BW : blockwise ((if enc then cp_enc C else cp_dec C) key info)) by (intros b Lb Bb; destruct (inverse key info b L B BI HI Lb Bb) as ((I1 & I2 & I3 & I4) & _); destruct enc; split; assumption).
    rewrite (proj1 (blocks_ok _ (2 ^ k) BW _ (taken_len _ _ _ _ _ W) (taken_bytes _ _ _ _ _ W))). exact (proj1 W).
  Qed.
  Lemma map_back (f g : list Z -> list Z) n : (forall b, length b = 16%nat -> bytes b -> length (f b) = 16%nat /\ bytes (f b) /\ g (f b) = b) ->
    forall l, length l = (16 * n)%nat -> bytes l -> concat (map g (chunks 16 (concat (map f (chunks 16 l))))) = l.
  Proof.
    clear. intros HF. induction n as [|n IH]; intros l L B; [destruct l; [reflexivity|cbn [length] in L; lia]|].
    rewrite <- (firstn_skipn 16 l) at 1. assert (LF : length (firstn 16 l) = 16%nat) by (rewrite firstn_length; lia).
    rewrite (chunks_app 16 (firstn 16 l)) by (auto; lia). cbn [map concat]. destruct (HF _ LF (bytes_firstn 16 l B)) as (F1 & F2 & F3).
    rewrite (chunks_app 16 (f (firstn 16 l))) by (auto; lia). cbn [map concat]. rewrite F3, IH by (try (rewrite skipn_length; lia); now apply bytes_skipn). apply firstn_skipn.
  Qed.
  Lemma round_trip enc key info k inp io out oo out2 oo2 : cp_legal C (length key) = true -> bytes key -> bytes info -> iok info -> (k <= 4)%nat ->
    window (16 * 2 ^ k) inp io out oo -> bytes out -> (oo2 + 16 * 2 ^ k <= length out2)%nat ->
    exists c p, bhistory X o0 [BInit enc key info; BTransform k inp io out oo] = Ok [Done; Wrote c] /\
      bhistory X o0 [BInit (negb enc) key info; BTransform k (Some c) oo out2 oo2] = Ok [Done; Wrote p] /\
      slice p oo2 (16 * 2 ^ k) = taken (16 * 2 ^ k) inp io out.
  Proof.
    intros L B BI HI K W BO LO. set (n := (16 * 2 ^ k)%nat) in *.
    destruct (two_calls enc key info k inp io out oo L B BI HI K W) as (c & E1 & EC). fold n in EC. set (f := (if enc then cp_enc C else cp_dec C) key info) in *. set (g := (if negb enc then cp_enc C else cp_dec C) key info).
    assert (HF : forall b, length b = 16%nat -> bytes b -> length (f b) = 16%nat /\ bytes (f b) /\ g (f b) = b).
    { intros b Lb Bb. unfold f, g. destruct (inverse key info b L B BI HI Lb Bb) as ((I1 & I2 & I3 & I4) & I5 & I6). destruct enc; cbn [negb]; auto. }
    pose proof (taken_len _ _ _ _ _ W) as LT. pose proof (taken_bytes _ _ _ _ _ W) as BT.
    set (d := concat (map f (chunks 16 (taken n inp io out)))) in *.
    destruct (blocks_ok f (2 ^ k) ltac:(intros b Lb Bb; destruct (HF b Lb Bb); tauto) _ LT BT) as [LD BD]. fold d in LD, BD.
    assert (LC : length c = length out) by (rewrite EC; apply length_splice; fold n in LD; destruct W; lia).
    assert (W2 : window (16 * 2 ^ k) (Some c) oo out2 oo2).
    { split; [exact LO|]. split; [rewrite EC; now apply bytes_splice|]. fold n. rewrite LC. exact (proj1 W). }
    destruct (two_calls (negb enc) key info k (Some c) oo out2 oo2 L B BI HI K W2) as (p & E2 & EP). fold n in EP.
    exists c, p. split; [exact E1|]. split; [exact E2|].
    assert (TC : taken n (Some c) oo out2 = d).
    { unfold taken. rewrite EC. fold n in LD. rewrite <- LD. apply slice_splice_same. destruct W; lia. }
    rewrite TC in EP. fold g in EP. unfold d in EP. rewrite (map_back f g (2 ^ k) HF _ LT BT) in EP. rewrite EP. rewrite <- LT at 2. rewrite slice_splice_same by (rewrite LT; exact LO). reflexivity.
  Qed.
End trips.

(** ** C40 *)
Lemma c40_hist v cs : In v rhx_variants -> bcalls_ok (v_cipher v) (v_info v) false cs ->
  exists rs, bhistory (v_ops v) (v_new v) cs = Ok rs /\ bexpected (v_cipher v) (true, [], []) cs rs.
Proof. intros I. exact (proj1 (rhx_works v I) cs (true, [], [])). Qed.
Lemma c40_trip v enc key info k inp io out oo out2 oo2 : In v rhx_variants -> cp_legal (v_cipher v) (length key) = true -> bytes key -> bytes info -> v_info v info -> (k <= 4)%nat ->
  window (16 * 2 ^ k) inp io out oo -> bytes out -> (oo2 + 16 * 2 ^ k <= length out2)%nat ->
  exists c p, bhistory (v_ops v) (v_new v) [BInit enc key info; BTransform k inp io out oo] = Ok [Done; Wrote c] /\
    bhistory (v_ops v) (v_new v) [BInit (negb enc) key info; BTransform k (Some c) oo out2 oo2] = Ok [Done; Wrote p] /\
    slice p oo2 (16 * 2 ^ k) = taken (16 * 2 ^ k) inp io out.
Proof.
  intros I. destruct (rhx_works v I) as [H1 H2]. apply (round_trip (v_ops v) (v_new v) (v_cipher v) (v_info v) H1 H2). intros n. rewrite (rhx_small v n I). apply legal_small.
Qed.
Lemma c40_fips key info : (length key = 16 \/ length key = 24 \/ length key = 32)%nat -> cp_enc aes_cipher key info = aes key /\ cp_dec aes_cipher key info = inv_aes key.
Proof. intros L. unfold aes_cipher. cbn [rijndael_with cp_enc cp_dec]. unfold aes_schedule. destruct (Nat.eqb_spec (length key) 64) as [E|_]; [lia|]. split; reflexivity. Qed.
(** the session with two keys *)
Definition rekey (key : list Z) (c : bcall) : bcall := match c with BInit enc _ info => BInit enc key info | c => c end.
Lemma c40_long key key' cs : length key = 64%nat -> length key' = 64%nat -> firstn 16 key = firstn 16 key' -> bytes key -> bytes key' ->
  bcalls_ok aes_cipher (fun _ => True) false (map (rekey key) cs) -> bhistory AES AES_new (map (rekey key) cs) = bhistory AES AES_new (map (rekey key') cs).
Proof.
  intros L L' EF B B' H.
  assert (S1 : aes_schedule key = aes_schedule key') by (unfold aes_schedule; rewrite L, L', EF; reflexivity).
  assert (H' : bcalls_ok aes_cipher (fun _ => True) false (map (rekey key') cs)).
  { revert H. generalize false. induction cs as [|c cs IH]; intros on H; [exact I|]. destruct c; cbn [map rekey bcalls_ok] in *; rewrite ?L, ?L' in *; intuition auto. }
  destruct (aes_history (map (rekey key) cs) (true, key, []) H) as (rs & E & X). destruct (aes_history (map (rekey key') cs) (true, key', []) H') as (rs' & E' & X'). rewrite E, E'. f_equal.
  clear E E'. assert (BW : blockwise (rijndael aes_offsets (aes_schedule key')) /\ blockwise (inv_rijndael aes_offsets (aes_schedule key'))).
  { assert (LL : cp_legal aes_cipher (length key') = true) by (cbn [aes_cipher rijndael_with cp_legal]; rewrite L'; reflexivity).
    split; intros b Lb Bb; destruct (proj2 w_aes key' [] b LL B' (Forall_nil _) I Lb Bb) as ((I1 & I2 & I3 & I4) & _); split; assumption. }
  assert (G : forall enc on info cs rs rs', bcalls_ok aes_cipher (fun _ => True) on (map (rekey key) cs) -> bcalls_ok aes_cipher (fun _ => True) on (map (rekey key') cs) ->
    bexpected aes_cipher (enc, key, info) (map (rekey key) cs) rs -> bexpected aes_cipher (enc, key', info) (map (rekey key') cs) rs' -> rs = rs').
  { clear - L L' S1 BW. intros enc on info cs. revert enc on info. induction cs as [|c cs IH]; intros enc on info rs rs' H H' X X'; cbn [map bexpected] in X, X'.
    - destruct rs, rs'; (reflexivity || contradiction).
    - destruct rs as [|r rs]; [destruct c; contradiction|]. destruct rs' as [|r' rs']; [destruct c; contradiction|]. destruct c; cbn [rekey bexpected bcalls_ok] in *.
      + cbn [aes_cipher rijndael_with cp_legal] in X, X'. rewrite L in X. rewrite L' in X'. change (rhx_legal 64) with true in X, X'. destruct X as (-> & X), X' as (-> & X'). f_equal. eapply IH; [| |exact X|exact X']; [apply H|]. destruct H' as (_ & _ & _ & _ & H'). rewrite L' in H'. rewrite L. exact H'.
      + destruct X as ((o1 & -> & W1) & X), X' as ((o2 & -> & W2) & X'). cbn [aes_cipher rijndael_with cp_enc] in W1, W2. rewrite S1 in W1. f_equal; [f_equal; refine (Proofs_Common.written_unique _ _ _ _ _ _ W1 W2); destruct H as (_ & W & _); rewrite (proj1 (proj1 BW _ (taken_len _ _ _ _ _ W) (taken_bytes _ _ _ _ _ W))); exact (proj1 W)|]. eapply IH; [| |exact X|exact X']; [apply H|apply H'].
      + destruct X as ((o1 & -> & W1) & X), X' as ((o2 & -> & W2) & X'). cbn [aes_cipher rijndael_with cp_dec] in W1, W2. rewrite S1 in W1. f_equal; [f_equal; refine (Proofs_Common.written_unique _ _ _ _ _ _ W1 W2); destruct H as (_ & W & _); rewrite (proj1 (proj2 BW _ (taken_len _ _ _ _ _ W) (taken_bytes _ _ _ _ _ W))); exact (proj1 W)|]. eapply IH; [| |exact X|exact X']; [apply H|apply H'].
      + destruct X as ((o1 & -> & W1) & X), X' as ((o2 & -> & W2) & X'). assert (EE : forall b : bool, (if b then cp_enc aes_cipher else cp_dec aes_cipher) key info = (if b then cp_enc aes_cipher else cp_dec aes_cipher) key' info) by (intros []; cbn [aes_cipher rijndael_with cp_enc cp_dec]; rewrite S1; reflexivity). rewrite EE in W1. f_equal; [f_equal; refine (Proofs_Common.written_unique _ _ _ _ _ _ W1 W2); destruct H as (_ & _ & W & _); assert (BE : blockwise ((if enc then cp_enc aes_cipher else cp_dec aes_cipher) key' info)) by (destruct enc; apply BW); rewrite (proj1 (blocks_ok _ (2 ^ k) BE _ (taken_len _ _ _ _ _ W) (taken_bytes _ _ _ _ _ W))); exact (proj1 W)|]. eapply IH; [| |exact X|exact X']; [apply H|apply H']. }
  exact (G true false [] cs rs rs' H H' X X').
Qed.
Lemma c40_uninit v inp io out oo : In v rhx_variants -> window 16 inp io out oo -> bo_enc (v_ops v) (v_new v) inp io out oo = UB /\ bo_dec (v_ops v) (v_new v) inp io out oo = UB.
Proof.
  intros I W. assert (E : forall s, length s = 16%nat -> KeyAddition s [0] 0 = UB).
  { intros s L. do 16 (destruct s as [|? s]; [discriminate L|]). destruct s; [|discriminate L]. reflexivity. }
  assert (T : exists s, wcopy (src inp out) io (zeros 16) 0 16 = Ok s /\ length s = 16%nat).
  { assert (E1 : wcopy (src inp out) io (zeros 16) 0 16 = Ok (splice (zeros 16) 0 (slice (src inp out) io 16))); [apply wcopy_ok; [destruct W as (W1 & W2); destruct inp; cbn [src]; lia|rewrite length_zeros; lia]|].
    rewrite E1. eexists. split; [reflexivity|]. rewrite length_splice; [reflexivity|]. rewrite length_slice; [rewrite length_zeros; lia|]. destruct W as (W1 & W2); destruct inp; cbn [src]; lia. }
  destruct T as (s & T & L).
  assert (G : RHX_Encrypt128 0 [0] inp io out oo = UB /\ RHX_Decrypt128 0 [0] inp io out oo = UB).
  { unfold RHX_Encrypt128, RHX_Decrypt128. rewrite T. cbn [bind]. change (4 * 0)%nat with 0%nat. rewrite (E s L). split; reflexivity. }
  destruct I as [<- | [<- | [<- | [<- | [<- | []]]]]]; exact G.
Qed.
Lemma c40_1024 v enc key info : In v rhx_variants -> length key = 128%nat -> bhistory (v_ops v) (v_new v) [BInit enc key info] = Ok [Failed InvalidKey].
Proof.
  intros I L. assert (E : Z.of_nat (length key) mod 2 ^ 32 = 128) by (rewrite L; reflexivity).
  destruct I as [<- | [<- | [<- | [<- | [<- | []]]]]]; cbn [v_ops v_new v_obj v_AES v_RHXH256 v_RHXH512 v_RHXS256 v_RHXS512 bhistory bstep AES RHXH256 RHXH512 RHXS256 RHXS512 rhx_ops bo_init]; unfold RHX_Initialize; rewrite E; reflexivity.
Qed.
