(** The RHX object refines the Rijndael of Spec_AES under its key schedules. *)
From Verif Require Import Base BaseLemmas Spec_Common Proofs_Common Spec_AES Spec_MAC Spec_KDF Spec_Keccak Model_IntegerTools Proofs_IntegerTools Model_Modes Proofs_Windows Model_KDF Model_SHAKE Model_Keys
  Session_Digest Session_KMAC Session_SHAKE Session_Kdf Proofs_Sponge Proofs_XOF Proofs_KMAC Proofs_SHAKE Proofs_HMAC Proofs_KDF Proofs_AES Model_Rijndael Proofs_Rijndael Proofs_Rijndael2 Model_RHX Session_Block Proofs_Block.
Open Scope Z_scope.

Lemma legal_ok (key : list Z) : Z.of_nat (length key) < 2 ^ 32 -> KeySize_Contains RHX_LegalKeySizes (Z.of_nat (length key) mod 2 ^ 32) 0 0 = rhx_legal (length key).
Proof.
  intros H. rewrite Z.mod_small by lia. set (n := length key) in *. unfold KeySize_Contains, RHX_LegalKeySizes, rhx_legal, KeySize_new. cbn [map existsb ks_key Z.eqb negb andb]. rewrite !andb_false_r.
  replace (16 mod 2 ^ 32) with 16 by reflexivity. replace (24 mod 2 ^ 32) with 24 by reflexivity. replace (32 mod 2 ^ 32) with 32 by reflexivity. replace (64 mod 2 ^ 32) with 64 by reflexivity. rewrite orb_false_r.
  assert (Q : forall m, (Z.of_nat m =? Z.of_nat n) = (n =? m)%nat).
  { intros m. destruct (Nat.eqb_spec n m) as [->|N]; [apply Z.eqb_refl|apply Z.eqb_neq; lia]. }
  assert (Q1 : (16 =? Z.of_nat n) = (n =? 16)%nat) by exact (Q 16%nat). assert (Q2 : (24 =? Z.of_nat n) = (n =? 24)%nat) by exact (Q 24%nat).
  assert (Q3 : (32 =? Z.of_nat n) = (n =? 32)%nat) by exact (Q 32%nat). assert (Q4 : (64 =? Z.of_nat n) = (n =? 64)%nat) by exact (Q 64%nat).
  rewrite Q1, Q2, Q3, Q4. now rewrite !orb_assoc.
Qed.
Lemma legal_cases n : rhx_legal n = true -> (n = 16 \/ n = 24 \/ n = 32 \/ n = 64)%nat.
Proof. unfold rhx_legal. destruct (Nat.eqb_spec n 16), (Nat.eqb_spec n 24), (Nat.eqb_spec n 32), (Nat.eqb_spec n 64); cbn [orb]; intros; try discriminate; auto. Qed.
(** ** words and bytes *)
Lemma next_word4 nk ws : (1 <= nk <= length ws)%nat -> Forall word4 ws -> word4 (rcon (length ws / nk)) -> Forall word4 (next_word nk ws).
Proof.
  intros L F HC. unfold next_word. apply Forall_app. split; [exact F|]. constructor; [|constructor].
  assert (N : forall j, (j < length ws)%nat -> word4 (nth j ws [])) by (intros j Hj; apply (proj1 (Forall_forall _ _) F); now apply nth_In).
  assert (NE : ws <> []) by (intros ->; cbn [length] in L; lia).
  assert (LW : word4 (last ws [])) by (rewrite (last_nth 4 ltac:(lia)) by exact NE; apply N; lia).
  apply word4_xorl; [apply N; lia|]. destruct (_ =? 0)%nat; [apply word4_xorl; [now apply word4_sbox, word4_rot|exact HC]|]. destruct (_ && _); [now apply word4_sbox|exact LW].
Qed.
Lemma byte_xtime x : is_byte x -> is_byte (xtime x).
Proof. intros H. apply (each_byte (fun x => (0 <=? xtime x) && (xtime x <? 256))) in H; [red; lia|vm_compute; reflexivity]. Qed.
Lemma rcon_word4 r : word4 (rcon r).
Proof.
  split; [reflexivity|]. unfold rcon.
  assert (B : is_byte (Nat.iter (r - 1) xtime 1)) by (induction (r - 1)%nat as [|k IH]; [red; cbn; lia|cbn [Nat.iter nat_rect]; now apply byte_xtime]).
  assert (Z0 : is_byte 0) by (red; lia). repeat (apply Forall_cons; [assumption|]). apply Forall_nil.
Qed.
Lemma iter_word4 nk k : (1 <= nk)%nat -> forall ws, (nk <= length ws)%nat -> Forall word4 ws -> Forall word4 (Nat.iter k (next_word nk) ws) /\ length (Nat.iter k (next_word nk) ws) = (k + length ws)%nat.
Proof.
  intros H. induction k as [|k IH]; intros ws L F; [auto|]. destruct (IH ws L F) as [F1 L1]. cbn [Nat.iter nat_rect]. fold (Nat.iter k (next_word nk) ws).
  split; [apply next_word4; [lia|exact F1|apply rcon_word4]|rewrite next_len, L1; lia].
Qed.
Lemma chunks_word4 k : forall key, length key = (4 * k)%nat -> bytes key -> Forall word4 (chunks 4 key).
Proof.
  induction k as [|k IH]; intros key L B; [destruct key; [constructor|cbn [length] in L; lia]|].
  rewrite <- (firstn_skipn 4 key). assert (LF : length (firstn 4 key) = 4%nat) by (rewrite firstn_length; lia). rewrite chunks_app by (auto; lia).
  constructor; [split; [exact LF|now apply bytes_firstn]|apply IH; [rewrite skipn_length; lia|now apply bytes_skipn]].
Qed.
Lemma expansion_ok key k : length key = (4 * k)%nat -> (1 <= k)%nat -> bytes key -> Forall word4 (key_expansion key) /\ length (key_expansion key) = (4 * (k + 7))%nat.
Proof.
  intros L K B. unfold key_expansion. rewrite L. replace (4 * k / 4)%nat with k by (rewrite Nat.mul_comm, Nat.div_mul; lia).
  pose proof (chunks_len key k L) as LC. destruct (iter_word4 k (4 * (k + 6 + 1) - k) K (chunks 4 key) ltac:(lia) (chunks_word4 k key L B)) as [F LL]. split; [exact F|]. rewrite LL, LC. lia.
Qed.
Lemma word_bytes ws : Forall word4 ws -> rk_bytes (map be_val ws) = concat ws.
Proof.
  induction 1 as [|w ws [L B] F IH]; [reflexivity|]. unfold rk_bytes in *. cbn [map concat]. rewrite IH. f_equal. rewrite <- L. now apply be_bytes_be_val.
Qed.
Lemma zero_words k : rk_bytes (zeros k) = zeros (4 * k).
Proof. induction k as [|k IH]; [reflexivity|]. unfold rk_bytes, zeros in *. cbn [repeat map concat]. rewrite IH. replace (4 * S k)%nat with (4 + 4 * k)%nat by lia. rewrite repeat_app. reflexivity. Qed.
Lemma zero_chunks k : chunks 16 (zeros (16 * k)) = repeat (zeros 16) k.
Proof.
  induction k as [|k IH]; [reflexivity|]. replace (16 * S k)%nat with (16 + 16 * k)%nat by lia. unfold zeros in *. rewrite repeat_app, chunks_app by (try lia; apply repeat_length). cbn [repeat]. now rewrite IH.
Qed.
Lemma rk_bytes_app a b : rk_bytes (a ++ b) = rk_bytes a ++ rk_bytes b.
Proof. unfold rk_bytes. now rewrite map_app, concat_app. Qed.
Lemma from_words l k : length l = (4 * k)%nat -> bytes l -> rk_bytes (words_from l) = concat (map (@rev Z) (chunks 4 l)) /\ length (words_from l) = k.
Proof.
  intros L B. split; [|unfold words_from; rewrite map_length; now apply chunks_len]. pose proof (chunks_word4 k l L B) as F. unfold rk_bytes, words_from. rewrite map_map. f_equal.
  apply map_ext_in. intros w Hw. apply (proj1 (Forall_forall _ _) F) in Hw. destruct Hw as [L4 B4]. unfold be_bytes. f_equal. rewrite <- L4. now apply le_bytes_le_val.
Qed.

(** ** an initialised object *)
Definition keyed {G} (o : bc_obj G) (e : bool) (ks : list (list Z)) : Prop :=
  bc_on o = true /\ bc_encr o = e /\ (1 <= bc_rounds o)%nat /\ length (bc_rk o) = (4 * (bc_rounds o + 1))%nat /\ chunks 16 (rk_bytes (bc_rk o)) = ks.
Lemma keyed_keys {G} (o : bc_obj G) e ks : keyed o e ks -> keys_ok 4 ks.
Proof. intros (_ & _ & H1 & H2 & <-). rewrite (rkeys_chunks _ _ H1 H2). now apply rkeys_ok. Qed.
Lemma src_window n inp io out oo : window n inp io out oo -> (io + n <= length (src inp out))%nat /\ (oo + n <= length out)%nat /\ bytes (src inp out) /\ taken n inp io out = slice (src inp out) io n.
Proof. intros (W & V). destruct inp; cbn [src taken]; intuition. Qed.
Lemma keyed_enc {G} (o : bc_obj G) e ks : keyed o e ks -> forall inp io out oo, window 16 inp io out oo ->
  RHX_EncryptBlock o inp io out oo = Ok (splice out oo (rijndael aes_offsets ks (taken 16 inp io out))).
Proof.
  intros (_ & _ & H1 & H2 & <-) inp io out oo W. destruct (src_window _ _ _ _ _ W) as (W1 & W2 & W3 & ->). unfold RHX_EncryptBlock. rewrite (Encrypt128_ok _ _ H1 H2) by auto. now rewrite (rkeys_chunks _ _ H1 H2).
Qed.
Lemma keyed_dec {G} (o : bc_obj G) e ks : keyed o e ks -> forall inp io out oo, window 16 inp io out oo ->
  RHX_DecryptBlock o inp io out oo = Ok (splice out oo (inv_rijndael aes_offsets ks (taken 16 inp io out))).
Proof.
  intros (_ & _ & H1 & H2 & <-) inp io out oo W. destruct (src_window _ _ _ _ _ W) as (W1 & W2 & W3 & ->). unfold RHX_DecryptBlock. rewrite (Decrypt128_ok _ _ H1 H2) by auto. now rewrite (rkeys_chunks _ _ H1 H2).
Qed.
Lemma aes_offs r : (nth r aes_offsets 0 <= 4)%nat.
Proof. unfold aes_offsets. destruct r as [|[|[|[|[|r]]]]]; cbn; lia. Qed.
Lemma rij_16 ks b : keys_ok 4 ks -> st 4 b -> st 4 (rijndael aes_offsets ks b) /\ st 4 (inv_rijndael aes_offsets ks b) /\
  inv_rijndael aes_offsets ks (rijndael aes_offsets ks b) = b /\ rijndael aes_offsets ks (inv_rijndael aes_offsets ks b) = b.
Proof.
  intros H Hs. assert (P : (0 < 4)%nat) by lia.
  exact (conj (rijndael_st 4 aes_offsets P aes_offs ks b H Hs) (conj (inv_rijndael_st 4 aes_offsets P aes_offs ks b H Hs)
    (conj (decrypt_encrypt 4 aes_offsets P aes_offs ks b H Hs) (encrypt_decrypt 4 aes_offsets P aes_offs ks b H Hs)))).
Qed.
Lemma rij_blockwise ks : keys_ok 4 ks -> blockwise (rijndael aes_offsets ks) /\ blockwise (inv_rijndael aes_offsets ks).
Proof. intros H. split; intros b L B; destruct (rij_16 ks b H (conj L B)) as ([L1 B1] & [L2 B2] & _); split; auto. Qed.
Section rhx_hist.
  Context {G : Type} (x : option (kgen G)) (sched : list Z -> list Z -> list (list Z)) (iok : list Z -> Prop) (GR : G -> Prop).
  Definition rhxR (o : bc_obj G) (a : option (bool * list Z * list Z)) : Prop :=
    GR (bc_gen o) /\ match a with None => bc_on o = false /\ bc_rk o = zeros 1 | Some (e, k, i) => keyed o e (sched k i) end.
  Hypothesis Hexp : forall o m enc key info, GR (bc_gen o) -> bc_on o = false -> bc_rk o = zeros m -> bytes key -> bytes info -> iok info -> rhx_legal (length key) = true ->
    exists o', RHX_Initialize x o enc key info = Ok (o', None) /\ GR (bc_gen o') /\ keyed o' enc (sched key info).
  Lemma reset_ok o a : rhxR o a -> exists m, GR (bc_gen (if bc_on o then RHX_Reset o else o)) /\ bc_on (if bc_on o then RHX_Reset o else o) = false /\ bc_rk (if bc_on o then RHX_Reset o else o) = zeros m.
  Proof.
    intros (HG & HA). destruct (bc_on o) eqn:E; [eexists; split; [exact HG|]; split; reflexivity|]. exists 1%nat. split; [exact HG|]. split; [exact E|].
    destruct a as [[[e k] i]|]; [destruct HA as (E1 & _); congruence|tauto].
  Qed.
  Lemma init_reset o enc key info : bc_on o = true -> RHX_Initialize x o enc key info = RHX_Initialize x (RHX_Reset o) enc key info \/ KeySize_Contains RHX_LegalKeySizes (Z.of_nat (length key) mod 2 ^ 32) 0 0 = false.
  Proof. intros E. unfold RHX_Initialize. destruct (KeySize_Contains _ _ _ _); [left|right; reflexivity]. rewrite E. reflexivity. Qed.
  Lemma rhx_history cs o a : rhxR o None -> bcalls_ok (rijndael_with sched) iok false cs -> exists rs, bhistory (rhx_ops x) o cs = Ok rs /\ bexpected (rijndael_with sched) a cs rs.
  Proof.
    intros HR HC. refine (bhistory_ok (rhx_ops x) (rijndael_with sched) iok rhxR _ _ _ _ _ _ cs false o a HR HC); clear o a HR HC cs.
    - intros o a enc key info HR B1 B2 I1 S1 L. cbn [rijndael_with cp_legal] in L. cbn [rhx_ops bo_init]. destruct (reset_ok o a HR) as (m & G1 & G2 & G3).
      assert (E : RHX_Initialize x o enc key info = RHX_Initialize x (if bc_on o then RHX_Reset o else o) enc key info).
      { destruct (bc_on o) eqn:E; [|reflexivity]. destruct (init_reset o enc key info E) as [Q|Q]; [exact Q|]. rewrite legal_ok in Q by exact S1. congruence. }
      rewrite E. destruct (Hexp _ m enc key info G1 G2 G3 B1 B2 I1 L) as (o' & E' & G4 & K). exists o'. split; [exact E'|]. split; [exact G4|exact K].
    - intros o enc key info S1 L. cbn [rijndael_with cp_legal] in L. cbn [rhx_ops bo_init]. unfold RHX_Initialize. rewrite legal_ok by exact S1. rewrite L. reflexivity.
    - intros o e k i (_ & K). exact (keyed_enc o e _ K).
    - intros o e k i (_ & K). exact (keyed_dec o e _ K).
    - intros o e k i (_ & K). cbn [rhx_ops bo_transform bo_enc bo_dec]. unfold RHX_Transform. rewrite (proj1 (proj2 K)). destruct e; reflexivity.
    - intros o e k i (_ & K). exact (rij_blockwise _ (keyed_keys o e _ K)).
  Qed.
End rhx_hist.
(** ** AES *)
Lemma aes_expand o m enc key info : bc_on o = false -> bc_rk o = zeros m -> bytes key -> rhx_legal (length key) = true ->
  exists o', RHX_Initialize (G := unit) None o enc key info = Ok (o', None) /\ keyed o' enc (aes_schedule key).
Proof.
  intros H1 H2 B L. assert (LS : Z.of_nat (length key) < 2 ^ 32) by (unfold rhx_legal in L; destruct (Nat.eqb_spec (length key) 16), (Nat.eqb_spec (length key) 24), (Nat.eqb_spec (length key) 32), (Nat.eqb_spec (length key) 64); cbn [orb] in L; lia).
  unfold RHX_Initialize. rewrite legal_ok by exact LS. rewrite L, H1. cbn [negb]. cbv zeta. cbn [bc_rk bc_rounds bc_encr bc_on bc_gen]. rewrite H2.
  assert (R : forall nr rk, StandardExpand (zeros m) key = Ok (nr, rk) -> (1 <= nr)%nat -> length rk = (4 * (nr + 1))%nat -> chunks 16 (rk_bytes rk) = aes_schedule key ->
    exists o', (r <- (r <- StandardExpand (zeros m) key ;; Ok (BCo (fst r) (snd r) enc (bc_on o) (bc_gen o), @None err)) ;;
       (let '(o, e) := r in match e with Some e => Ok (o, Some e) | None => Ok (BCo (bc_rounds o) (bc_rk o) (bc_encr o) true (bc_gen o), None) end)) = Ok (o', None) /\ keyed o' enc (aes_schedule key)).
  { intros nr rk E R1 R2 R3. rewrite E. cbn [bind fst snd]. eexists. split; [reflexivity|]. unfold keyed. cbn [bc_on bc_encr bc_rounds bc_rk]. auto. }
  assert (V : forall k nr, length key = (4 * k)%nat -> (1 <= k)%nat -> (nr = k + 6)%nat -> (length key =? 64)%nat = false -> StandardExpand (zeros m) key = Ok (nr, map be_val (key_expansion key)) ->
    exists o', (r <- (r <- StandardExpand (zeros m) key ;; Ok (BCo (fst r) (snd r) enc (bc_on o) (bc_gen o), @None err)) ;;
       (let '(o, e) := r in match e with Some e => Ok (o, Some e) | None => Ok (BCo (bc_rounds o) (bc_rk o) (bc_encr o) true (bc_gen o), None) end)) = Ok (o', None) /\ keyed o' enc (aes_schedule key)).
  { intros k nr LK K1 N N64 E. destruct (expansion_ok key k LK K1 B) as [F FL]. apply (R _ _ E); [lia|rewrite map_length, FL; lia|]. unfold aes_schedule. rewrite N64, (word_bytes _ F). reflexivity. }
  unfold rhx_legal in L. destruct (Nat.eqb_spec (length key) 16) as [E|]; [apply (V 4%nat 10%nat); [lia|lia|lia|rewrite E; reflexivity|now apply Expand128]|].
  destruct (Nat.eqb_spec (length key) 24) as [E|]; [apply (V 6%nat 12%nat); [lia|lia|lia|rewrite E; reflexivity|now apply Expand192]|].
  destruct (Nat.eqb_spec (length key) 32) as [E|]; [apply (V 8%nat 14%nat); [lia|lia|lia|rewrite E; reflexivity|now apply Expand256]|].
  destruct (Nat.eqb_spec (length key) 64) as [E|]; [|discriminate].
  assert (L16 : length (firstn 16 key) = (4 * 4)%nat) by (rewrite firstn_length; lia).
  destruct (expansion_ok (firstn 16 key) 4 L16 ltac:(lia) (bytes_firstn 16 key B)) as [F FL].
  apply (R _ _ (Expand512 m key E B)); [lia|rewrite app_length, map_length, FL, length_zeros; lia|].
  unfold aes_schedule. rewrite E. change (64 =? 64)%nat with true. cbv iota. rewrite rk_bytes_app, (word_bytes _ F), zero_words. unfold round_keys.
  rewrite (chunks_app_many 16 ltac:(lia) 11).
  - f_equal.
  - clear - F FL. assert (Q : forall ws, Forall word4 ws -> length (concat ws) = (4 * length ws)%nat) by (induction 1 as [|w ws [L4 _] Hf IH]; [reflexivity|]; cbn [concat length]; rewrite app_length, IH, L4; lia).
    rewrite Q by exact F. rewrite FL. lia.
Qed.
Lemma aes_history cs a : bcalls_ok aes_cipher (fun _ => True) false cs -> exists rs, bhistory AES AES_new cs = Ok rs /\ bexpected aes_cipher a cs rs.
Proof.
  apply (rhx_history None (fun key info => aes_schedule key) (fun _ => True) (fun _ => True)).
  - intros o m enc key info _ H1 H2 B _ _ L. destruct (aes_expand o m enc key info H1 H2 B L) as (o' & E & K). exists o'. auto.
  - split; [exact I|]. split; reflexivity.
Qed.
(** ** extended *)
Lemma custom_ok name key info : Z.of_nat (length key) < 2 ^ 13 -> Z.of_nat (length info) < 2 ^ 32 -> make_custom name key info = Ok (custom_string name key info).
Proof.
  intros LK LI. unfold make_custom. rewrite Z.mod_small by lia. rewrite Nat2Z.id. set (c := zeros _). assert (LC : length c = (length name + 2 + length info)%nat) by apply length_zeros.
  rewrite wcopy_ok by lia. cbn [bind]. rewrite slice_all by reflexivity.
  assert (E : u16 (u16 (Z.of_nat (length key) mod 2 ^ 32) * 8) = 8 * Z.of_nat (length key)) by (unfold u16; rewrite !Z.mod_small; rewrite ?Z.mod_small; try lia).
  rewrite E. unfold Le16ToBytes, LeToBytes. rewrite wr_ok by (rewrite length_le_bytes, length_splice; lia). cbn [bind].
  set (v := le_bytes 2 _). assert (LV : length v = 2%nat) by apply length_le_bytes.
  replace (splice (splice c 0 name) (length name) v) with (splice c 0 (name ++ v)) by (symmetry; apply (splice_splice_next c 0 name v); lia).
  assert (LA : length (name ++ v) = (length name + 2)%nat) by (rewrite app_length; lia).
  assert (LS : length (splice c 0 (name ++ v)) = length c) by (apply length_splice; lia).
  rewrite wcopy_ok by lia. rewrite slice_all by reflexivity. replace (length name + 2)%nat with (0 + length (name ++ v))%nat by (rewrite app_length; lia).
  rewrite (splice_splice_next c 0 (name ++ v) info) by lia. rewrite splice_all by (rewrite !app_length; lia). unfold custom_string. now rewrite app_assoc.
Qed.
Section extended.
  Context {G : Type} (x : kgen G) (F : list Z -> list Z -> nat -> list Z) (cok : list Z -> Prop) (iok : list Z -> Prop) (GR : G -> Prop).
  Hypothesis Hname : bytes (xg_name x).
  Hypothesis Hnl : length (xg_name x) <> 0%nat.
  Hypothesis Hgen : forall g key custom len, GR g -> bytes key -> (16 <= length key)%nat -> bytes custom -> length custom <> 0%nat -> cok custom -> (len <= 496)%nat ->
    exists g1 g2, xg_init x g key [] custom = Ok (g1, None) /\ xg_fill x g1 (zeros len) = Ok (g2, F key custom len) /\ GR g2 /\ length (F key custom len) = len /\ bytes (F key custom len).
  Hypothesis Hiok : forall info key, iok info -> Z.of_nat (length info) < 2 ^ 32 /\ (rhx_legal (length key) = true -> cok (custom_string (xg_name x) key info)).
  Lemma ext_expand o m enc key info : GR (bc_gen o) -> bc_on o = false -> bc_rk o = zeros m -> bytes key -> bytes info -> iok info -> rhx_legal (length key) = true ->
    exists o', RHX_Initialize (Some x) o enc key info = Ok (o', None) /\ GR (bc_gen o') /\ keyed o' enc (extended_schedule (xg_name x) F key info).
  Proof.
    intros HG H1 H2 B BI HI L. destruct (Hiok info key HI) as [LI CK]. specialize (CK L).
    assert (LK : (16 <= length key <= 64 /\ length key / 4 <= 16 /\ 4 <= length key / 4)%nat) by (destruct (legal_cases _ L) as [-> | [-> | [-> | -> ]]]; cbn; lia).
    unfold RHX_Initialize. rewrite legal_ok by lia. rewrite L, H1. cbn [negb]. cbv zeta. rewrite custom_ok by lia. cbn [bind]. unfold RHX_SecureExpand. cbn [bc_rk bc_rounds bc_encr bc_on bc_gen].
    replace (length key =? 128)%nat with false by (symmetry; apply Nat.eqb_neq; lia). cbn [negb]. cbv iota.
    set (r := (length key / 4 + 14)%nat). set (cs := custom_string _ _ _) in *. set (len := (4 * (r + 1) * 4)%nat).
    assert (BC : bytes cs) by (unfold cs, custom_string, bytes; rewrite !Forall_app; split; [exact Hname|split; [apply bytes_le_bytes|exact BI]]).
    assert (NC : length cs <> 0%nat) by (unfold cs, custom_string; rewrite app_length; lia).
    destruct (Hgen (bc_gen o) key cs len HG B ltac:(lia) BC NC CK ltac:(unfold len, r; lia)) as (g1 & g2 & E1 & E2 & G2 & FL & FB).
    rewrite E1. cbn [bind snd fst]. rewrite E2. cbn [bind]. eexists. split; [reflexivity|]. split; [exact G2|].
    destruct (from_words (F key cs len) (4 * (r + 1)) ltac:(lia) FB) as [W1 W2]. unfold keyed. cbn [bc_on bc_encr bc_rounds bc_rk].
    split; [reflexivity|]. split; [reflexivity|]. split; [unfold r; lia|]. split; [exact W2|]. rewrite W1. unfold extended_schedule. fold cs. replace (16 * (length key / 4 + 15))%nat with len; [reflexivity|]. unfold len, r. lia.
  Qed.
  Lemma ext_history g cs a : GR g -> bcalls_ok (rijndael_with (extended_schedule (xg_name x) F)) iok false cs ->
    exists rs, bhistory (rhx_ops (Some x)) (RHX_new g) cs = Ok rs /\ bexpected (rijndael_with (extended_schedule (xg_name x) F)) a cs rs.
  Proof.
    intros HG. apply (rhx_history (Some x) (extended_schedule (xg_name x) F) iok GR).
    - intros o m enc key info. apply ext_expand.
    - split; [exact HG|]. split; reflexivity.
  Qed.
  Lemma ext_keys g key info : GR g -> rhx_legal (length key) = true -> bytes key -> bytes info -> iok info -> keys_ok 4 (extended_schedule (xg_name x) F key info).
  Proof. intros HG L B BI HI. destruct (ext_expand (RHX_new g) 1 true key info HG eq_refl eq_refl B BI HI L) as (o' & _ & _ & K). exact (keyed_keys o' true _ K). Qed.
End extended.
Lemma aes_keys key : rhx_legal (length key) = true -> bytes key -> keys_ok 4 (aes_schedule key).
Proof. intros L B. destruct (aes_expand AES_new 1 true key [] eq_refl eq_refl B L) as (o' & _ & K). exact (keyed_keys o' true _ K). Qed.
Definition inverts (C : block_cipher) (iok : list Z -> Prop) : Prop := forall key info b, cp_legal C (length key) = true -> bytes key -> bytes info -> iok info -> length b = 16%nat -> bytes b ->
    (length (cp_enc C key info b) = 16%nat /\ bytes (cp_enc C key info b) /\ length (cp_dec C key info b) = 16%nat /\ bytes (cp_dec C key info b)) /\
    cp_dec C key info (cp_enc C key info b) = b /\ cp_enc C key info (cp_dec C key info b) = b.
Lemma rij_inverts sched (iok : list Z -> Prop) : (forall key info, rhx_legal (length key) = true -> bytes key -> bytes info -> iok info -> keys_ok 4 (sched key info)) -> inverts (rijndael_with sched) iok.
Proof.
  intros HK key info b L B BI HI Lb Bb. cbn [rijndael_with cp_legal cp_enc cp_dec] in *. destruct (rij_16 (sched key info) b (HK key info L B BI HI) (conj Lb Bb)) as ((L1 & B1) & (L2 & B2) & E1 & E2). cbn in L1, L2. auto.
Qed.
Lemma legal_small n : rhx_legal n = true -> Z.of_nat n < 2 ^ 32.
Proof. intros L. destruct (legal_cases n L) as [-> | [-> | [-> | -> ]]]; lia. Qed.
