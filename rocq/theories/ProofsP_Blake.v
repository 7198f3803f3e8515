(** Glue for Properties_Blake.v. *)
From Verif Require Import BaseLemmas Spec_Common Proofs_Common Spec_Feed Session_Digest Session_Blake Model_IntegerTools Model_Modes
  Model_Absorb Proofs_Absorb Model_Straight Model_BlakeGen Model_Blake Spec_ChaCha Spec_SHA2 Spec_Blake Proofs_Blake Proofs_Blake2 Proofs_GCM.
Open Scope Z_scope.

Definition par256 (dst : list Z) (kk : nat) : bparams := BParams 32 (Z.of_nat kk) 1 1 0 0 0 0 0 dst.
Definition par512 (kk : nat) : bparams := BParams 64 (Z.of_nat kk) 1 1 0 0 0 0 0 (zeros 40).
(** the distribution code of BlakeParams fills the last 12 bytes of the parameter block: half of the salt and the personalization *)
Definition param256 (dst : list Z) (kk : nat) : list Z := s_param kk (zeros 4 ++ firstn 4 dst) (skipn 4 dst).
Definition param512 (kk : nat) : list Z := b_param kk (zeros 16) (zeros 16).
Lemma word256 kk : (kk <= 32)%nat -> Z.lor (Z.lor (Z.lor 32 (wshl 32 (Z.of_nat kk) 8)) (wshl 32 1 16)) (wshl 32 1 24) = le_val [32; Z.of_nat kk; 1; 1].
Proof.
  intros H. assert (G : forallb (fun k => Z.lor (Z.lor (Z.lor 32 (wshl 32 (Z.of_nat k) 8)) (wshl 32 1 16)) (wshl 32 1 24) =? le_val [32; Z.of_nat k; 1; 1]) (seq 0 33) = true) by (vm_compute; reflexivity).
  rewrite forallb_forall in G. apply Z.eqb_eq. apply G. apply in_seq. lia.
Qed.
Lemma word512 kk : (kk <= 64)%nat -> Z.lor (Z.lor (Z.lor (Z.lor 64 (wshl 64 (Z.of_nat kk) 8)) (wshl 64 1 16)) (wshl 64 1 24)) (wshl 64 0 32) = le_val [64; Z.of_nat kk; 1; 1; 0; 0; 0; 0].
Proof.
  intros H. assert (G : forallb (fun k => Z.lor (Z.lor (Z.lor (Z.lor 64 (wshl 64 (Z.of_nat k) 8)) (wshl 64 1 16)) (wshl 64 1 24)) (wshl 64 0 32) =? le_val [64; Z.of_nat k; 1; 1; 0; 0; 0; 0]) (seq 0 65) = true) by (vm_compute; reflexivity).
  rewrite forallb_forall in G. apply Z.eqb_eq. apply G. apply in_seq. lia.
Qed.
Ltac split12 s H := do 12 (destruct s as [|? s]; [discriminate H|]); destruct s; [|discriminate H].
Lemma config256 dst kk cfg : length dst = 12%nat -> (kk <= 32)%nat -> length cfg = 8%nat -> nth 3 cfg 0 = 0 -> GetConfig32 (par256 dst kk) cfg = Ok (le_words 4 (param256 dst kk)).
Proof.
  intros HD HK HC H3. split12 dst HD. split8 cfg HC. cbn [nth] in H3. subst.
  unfold GetConfig32, par256, param256, s_param. cbn [p_out p_key p_fan p_depth p_leaf p_noff p_ndepth p_inner p_res p_dst]. rewrite word256 by exact HK. reflexivity.
Qed.
Lemma config512 kk cfg : (kk <= 64)%nat -> length cfg = 8%nat -> GetConfig64 (par512 kk) cfg = Ok (le_words 8 (param512 kk)).
Proof.
  intros HK HC. split8 cfg HC.
  unfold GetConfig64, par512, param512, b_param. cbn [p_out p_key p_fan p_depth p_leaf p_noff p_ndepth p_inner p_res p_dst]. rewrite word512 by exact HK. reflexivity.
Qed.

(** ** the compression functions *)
Lemma perm256 inp io h iv : length h = 8%nat -> length iv = 8%nat -> (io + 64 <= length inp)%nat ->
  PermuteR10P512U inp io h iv = Ok (F_of 32 10 (16, 12, 8, 7) h iv (le_words 4 (slice inp io 64))).
Proof. intros. apply (U_code 32 4 10 (16, 12, 8, 7) blake256_U ltac:(lia) blake256_U_text); auto. Qed.
Lemma perm512 inp io h iv : length h = 8%nat -> length iv = 8%nat -> (io + 128 <= length inp)%nat ->
  PermuteR12P1024U inp io h iv = Ok (F_of 64 12 (32, 24, 16, 63) h iv (le_words 8 (slice inp io 128))).
Proof. intros. apply (U_code 64 8 12 (32, 24, 16, 63) blake512_U ltac:(lia) blake512_U_text); auto. Qed.
Lemma perm256C inp io h iv : length h = 8%nat -> length iv = 8%nat -> (io + 64 <= length inp)%nat ->
  PermuteR10P512C inp io h iv = Ok (F_of 32 10 (16, 12, 8, 7) h iv (le_words 4 (slice inp io 64))).
Proof. intros. apply (C_code 32 4 10 (16, 12, 8, 7) ltac:(lia) Sigma256 blake256_C blake256_C_fin blake256_C_text blake256_C_fin_text sigma256_text); auto; lia. Qed.
Lemma perm512C inp io h iv : length h = 8%nat -> length iv = 8%nat -> (io + 128 <= length inp)%nat ->
  PermuteR12P1024C inp io h iv = Ok (F_of 64 12 (32, 24, 16, 63) h iv (le_words 8 (slice inp io 128))).
Proof. intros. apply (C_code 64 8 12 (32, 24, 16, 63) ltac:(lia) Sigma512 blake512_C blake512_C_fin blake512_C_text blake512_C_fin_text sigma512_text); auto. Qed.
(** ** the objects *)
Definition bhist256 := bhistory Blake256_Initialize Blake256_Update Blake256_Finalize Blake256_Compute Blake256_Reset.
Definition bhist512 := bhistory Blake512_Initialize Blake512_Update Blake512_Finalize Blake512_Compute Blake512_Reset.
Lemma iv256_len : length IV256 = 8%nat. Proof. reflexivity. Qed.
Lemma iv512_len : length IV512 = 8%nat. Proof. reflexivity. Qed.
Lemma km256 : (0 < 16 /\ 32 <= 16 * 4 /\ 32 < 256 /\ 8 = 2 * 4)%nat. Proof. lia. Qed.
Lemma km512 : (0 < 32 /\ 64 <= 16 * 8 /\ 64 < 256 /\ 16 = 2 * 8)%nat. Proof. lia. Qed.
Lemma param256_len dst kk : length dst = 12%nat -> length (param256 dst kk) = (4 * 8)%nat.
Proof. intros HD. split12 dst HD. reflexivity. Qed.
Lemma hist256 dst bl cs : length dst = 12%nat -> (64 <= bl)%nat -> Forall bcall_ok cs ->
  exists rs, (o <- Blake_start IV256 GetConfig32 bl (par256 dst 0) ;; bhist256 o cs) = Ok rs /\
  bexpected (fun kk data => blake2s_data (param256 dst kk) data) 32 64 16 32 8 0 [] cs rs.
Proof.
  intros HD Hbl HC.
  pose proof (fun kk cfg => config256 dst kk cfg HD) as Hcfg. pose proof (fun kk => param256_len dst kk HD) as Hlen.
  rewrite (start_ok 32 4 IV256 GetConfig32 32 (par256 dst) (param256 dst) Hcfg (fun _ => eq_refl) bl 0) by lia. cbn [bind]. unfold blake2s_data. rewrite <- iv256_text.
  apply (bhistory_ok 32 4 10 (16, 12, 8, 7) IV256 PermuteR10P512U GetConfig32 16 32 8 ltac:(lia) ltac:(lia) iv256_len perm256 (par256 dst) (param256 dst) km256 Hcfg
    (fun _ => eq_refl) (fun _ _ => eq_refl) Hlen bl Hbl cs 0%nat [] _); [|exact HC].
  apply (A_fresh 32 4 10 (16, 12, 8, 7) IV256 PermuteR10P512U GetConfig32 16 32 8 ltac:(lia) iv256_len perm256 (par256 dst) (param256 dst) km256 Hcfg
    (fun _ => eq_refl) (fun _ _ => eq_refl) Hlen bl Hbl 0%nat). lia.
Qed.
Lemma hist512 bl cs : (128 <= bl)%nat -> Forall bcall_ok cs ->
  exists rs, (o <- Blake_start IV512 GetConfig64 bl (par512 0) ;; bhist512 o cs) = Ok rs /\
  bexpected (fun kk data => blake2b_data (param512 kk) data) 64 128 32 64 16 0 [] cs rs.
Proof.
  intros Hbl HC.
  pose proof (fun kk cfg H1 H2 (_ : nth 3 cfg 0 = 0) => config512 kk cfg H1 H2) as Hcfg.
  rewrite (start_ok 64 8 IV512 GetConfig64 64 par512 param512 Hcfg (fun _ => eq_refl) bl 0) by lia. cbn [bind]. unfold blake2b_data. rewrite <- iv512_text.
  apply (bhistory_ok 64 8 12 (32, 24, 16, 63) IV512 PermuteR12P1024U GetConfig64 32 64 16 ltac:(lia) ltac:(lia) iv512_len perm512 par512 param512 km512 Hcfg
    (fun _ => eq_refl) (fun _ _ => eq_refl) (fun _ => eq_refl) bl Hbl cs 0%nat [] _); [|exact HC].
  apply (A_fresh 64 8 12 (32, 24, 16, 63) IV512 PermuteR12P1024U GetConfig64 32 64 16 ltac:(lia) iv512_len perm512 par512 param512 km512 Hcfg
    (fun _ => eq_refl) (fun _ _ => eq_refl) (fun _ => eq_refl) bl Hbl 0%nat). lia.
Qed.
(** ** the constructors *)
Lemma new256 : Blake256_new = Blake_start IV256 GetConfig32 64 (par256 (zeros 12) 0).
Proof. reflexivity. Qed.
Lemma with256 p : 1 <= p_fan p <= 64 -> Blake256_with p = Blake_start IV256 GetConfig32 (2 * Z.to_nat (p_fan p) * 64) (par256 (resize_to (p_dst p) 12) 0).
Proof.
  intros H. unfold Blake256_with. replace (p_fan p =? 0) with false by (symmetry; apply Z.eqb_neq; lia). replace (p_fan p <=? 64) with true by (symmetry; apply Z.leb_le; lia). reflexivity.
Qed.
Lemma new512 : Blake512_new = Blake_start IV512 GetConfig64 128 (par512 0).
Proof. reflexivity. Qed.
Lemma with512 p : 1 <= p_fan p <= 64 -> Blake512_with p = Blake_start IV512 GetConfig64 (2 * Z.to_nat (p_fan p) * 128) (par512 0).
Proof.
  intros H. unfold Blake512_with. replace (p_fan p =? 0) with false by (symmetry; apply Z.eqb_neq; lia). replace (p_fan p <=? 64) with true by (symmetry; apply Z.leb_le; lia). reflexivity.
Qed.
Lemma resize_len l k : length (resize_to l k) = k.
Proof. unfold resize_to. rewrite app_length, firstn_length, length_zeros. lia. Qed.

Lemma c36_history256 cs : Forall bcall_ok cs -> exists rs, (o <- Blake256_new ;; bhist256 o cs) = Ok rs /\
  bexpected (fun kk data => blake2s_data (s_param kk (zeros 8) (zeros 8)) data) 32 64 16 32 8 0 [] cs rs.
Proof. intros HC. rewrite new256. exact (hist256 (zeros 12) 64 cs eq_refl ltac:(lia) HC). Qed.
Lemma c36_history512 cs : Forall bcall_ok cs -> exists rs, (o <- Blake512_new ;; bhist512 o cs) = Ok rs /\
  bexpected (fun kk data => blake2b_data (b_param kk (zeros 16) (zeros 16)) data) 64 128 32 64 16 0 [] cs rs.
Proof. intros HC. rewrite new512. exact (hist512 128 cs ltac:(lia) HC). Qed.
Lemma c36_params256 p cs : 1 <= p_fan p <= 64 -> length (p_dst p) = 12%nat -> Forall bcall_ok cs -> exists rs, (o <- Blake256_with p ;; bhist256 o cs) = Ok rs /\
  bexpected (fun kk data => blake2s_data (s_param kk (zeros 4 ++ firstn 4 (p_dst p)) (skipn 4 (p_dst p))) data) 32 64 16 32 8 0 [] cs rs.
Proof.
  intros HP HD HC. rewrite with256 by exact HP.
  assert (E : resize_to (p_dst p) 12 = p_dst p) by (unfold resize_to; rewrite HD, firstn_all2 by lia; apply app_nil_r).
  rewrite E. apply (hist256 (p_dst p)); [exact HD|lia|exact HC].
Qed.
Lemma c36_params512 p cs : 1 <= p_fan p <= 64 -> Forall bcall_ok cs -> exists rs, (o <- Blake512_with p ;; bhist512 o cs) = Ok rs /\
  bexpected (fun kk data => blake2b_data (b_param kk (zeros 16) (zeros 16)) data) 64 128 32 64 16 0 [] cs rs.
Proof. intros HP HC. rewrite with512 by exact HP. apply hist512; [lia|exact HC]. Qed.
(** ** consequences *)
Section cons.
Context (H : nat -> list Z -> list Z) (n B kmin kmax slen : nat).
Notation bex := (bexpected H n B kmin kmax slen).
Lemma bex_do kk cs : forall m rs, bex kk m (map BDo cs) rs -> expected (H kk) n m cs rs.
Proof.
  induction cs as [|c cs IH]; intros m rs E; [exact E|]. destruct c; destruct rs as [|r rs]; cbn in E; try contradiction; cbn.
  - destruct E as [E1 E2]. split; [exact E1|]. now apply IH.
  - destruct (oo + n <=? length out)%nat; destruct E as [E1 E2]; (split; [exact E1|]; now apply IH).
  - destruct (n <=? length out)%nat; destruct E as [E1 E2]; (split; [exact E1|]; now apply IH).
  - destruct E as [E1 E2]. split; [exact E1|]. now apply IH.
Qed.
Lemma bex_feed kk ps : forall m cs rs, bex kk m (map (fun p => BDo (CUpdate p)) ps ++ cs) rs ->
  exists rs', rs = repeat Done (length ps) ++ rs' /\ bex kk (m ++ concat (map p_data ps)) cs rs'.
Proof.
  induction ps as [|p ps IH]; intros m cs rs E.
  - exists rs. cbn. rewrite app_nil_r. auto.
  - destruct rs as [|r rs]; cbn in E; [contradiction|]. destruct E as [-> E]. apply IH in E. destruct E as (rs' & -> & E). exists rs'. cbn. rewrite app_assoc. auto.
Qed.
Lemma bex_key kk m key iv info cs rs : (kmin <= length key <= kmax)%nat -> (length iv = 0 \/ length iv = slen)%nat -> (length info = 0 \/ length info = slen)%nat ->
  bex kk m (BKey key iv info :: cs) rs -> exists rs', rs = Done :: rs' /\ bex (length key) (key ++ zeros (B - length key)) cs rs'.
Proof.
  intros HK HI HF E. destruct rs as [|r rs]; cbn in E; [contradiction|].
  assert (N : key_error kmin kmax slen key iv info = None).
  { unfold key_error. replace (length key <? kmin)%nat with false by (symmetry; apply Nat.ltb_ge; lia). replace (kmax <? length key)%nat with false by (symmetry; apply Nat.ltb_ge; lia). cbn [orb].
    replace ((length iv =? 0) || (length iv =? slen))%nat with true by (symmetry; apply orb_true_iff; rewrite !Nat.eqb_eq; exact HI).
    replace ((length info =? 0) || (length info =? slen))%nat with true by (symmetry; apply orb_true_iff; rewrite !Nat.eqb_eq; exact HF). reflexivity. }
  rewrite N in E. destruct E as [-> E]. eauto.
Qed.
Lemma bex_fin kk m out oo cs rs : (oo + n <= length out)%nat -> bex kk m (BDo (CFinal out oo) :: cs) rs ->
  exists out' rs', rs = Wrote out' :: rs' /\ written out out' oo (H kk m) /\ bex kk [] cs rs'.
Proof.
  intros HO E. destruct rs as [|r rs]; cbn in E; [contradiction|]. replace (oo + n <=? length out)%nat with true in E by (symmetry; now apply Nat.leb_le).
  destruct E as [(out' & -> & E1) E2]. eauto.
Qed.
End cons.
Lemma forall_bdo cs : Forall dcall_ok cs -> Forall bcall_ok (map BDo cs).
Proof. induction 1; cbn; constructor; auto. Qed.
Lemma c36_unkeyed256 cs : Forall dcall_ok cs -> exists rs, (o <- Blake256_new ;; bhist256 o (map BDo cs)) = Ok rs /\ expected (blake2s []) 32 [] cs rs.
Proof.
  intros HC. destruct (c36_history256 (map BDo cs) (forall_bdo cs HC)) as (rs & E & X). exists rs. split; [exact E|].
  exact (bex_do _ _ _ _ _ _ _ _ _ _ X).
Qed.
Lemma c36_unkeyed512 cs : Forall dcall_ok cs -> exists rs, (o <- Blake512_new ;; bhist512 o (map BDo cs)) = Ok rs /\ expected (blake2b []) 64 [] cs rs.
Proof.
  intros HC. destruct (c36_history512 (map BDo cs) (forall_bdo cs HC)) as (rs & E & X). exists rs. split; [exact E|].
  exact (bex_do _ _ _ _ _ _ _ _ _ _ X).
Qed.
Lemma feeds_ok ps : Forall p_ok ps -> Forall bcall_ok (map (fun p => BDo (CUpdate p)) ps).
Proof. induction 1; cbn; constructor; auto. Qed.
Lemma mac_calls_ok key iv info ps out oo ps2 out2 oo2 : bytes key -> Forall p_ok ps -> Forall p_ok ps2 -> (oo <= length out)%nat -> (oo2 <= length out2)%nat ->
  Forall bcall_ok (mac_calls key iv info ps out oo ps2 out2 oo2).
Proof.
  intros. unfold mac_calls. constructor; [assumption|]. apply Forall_app. split; [now apply feeds_ok|]. constructor; [assumption|]. apply Forall_app. split; [now apply feeds_ok|].
  constructor; [assumption|constructor].
Qed.
Lemma key_nonnil (key : list Z) (k : nat) : (0 < k <= length key)%nat -> key <> [].
Proof. intros H E. subst. cbn in H. lia. Qed.
Lemma keyed_eq n key msg : key <> [] -> keyed_data n key msg = (key ++ zeros (16 * n - length key)) ++ msg.
Proof. destruct key; [congruence|]. intros _. unfold keyed_data. now rewrite app_assoc. Qed.
Lemma mac_calls_ex H n B kmin kmax slen key iv info ps out oo ps2 out2 oo2 rs :
  (kmin <= length key <= kmax)%nat -> (length iv = 0 \/ length iv = slen)%nat -> (length info = 0 \/ length info = slen)%nat ->
  (oo + n <= length out)%nat -> (oo2 + n <= length out2)%nat ->
  bexpected H n B kmin kmax slen 0 [] (mac_calls key iv info ps out oo ps2 out2 oo2) rs ->
  exists t t2, rs = Done :: repeat Done (length ps) ++ Wrote t :: repeat Done (length ps2) ++ [Wrote t2] /\
    written out t oo (H (length key) ((key ++ zeros (B - length key)) ++ concat (map p_data ps))) /\
    written out2 t2 oo2 (H (length key) (concat (map p_data ps2))).
Proof.
  intros HK HI HF HO HO2 E. unfold mac_calls in E.
  apply bex_key in E; try assumption. destruct E as (r1 & -> & E).
  apply bex_feed in E. destruct E as (r2 & -> & E).
  apply bex_fin in E; [|assumption]. destruct E as (t & r3 & -> & W & E).
  apply bex_feed in E. destruct E as (r4 & -> & E).
  apply bex_fin in E; [|assumption]. destruct E as (t2 & r5 & -> & W2 & E).
  destruct r5; [|contradiction]. exists t, t2. auto.
Qed.
Lemma c36_keyed256 key iv info ps out oo ps2 out2 oo2 : (16 <= length key <= 32)%nat -> (length iv = 0 \/ length iv = 8)%nat -> (length info = 0 \/ length info = 8)%nat ->
  bytes key -> Forall p_ok ps -> Forall p_ok ps2 -> (oo + 32 <= length out)%nat -> (oo2 + 32 <= length out2)%nat ->
  exists t t2, (o <- Blake256_new ;; bhist256 o (mac_calls key iv info ps out oo ps2 out2 oo2)) =
      Ok (Done :: repeat Done (length ps) ++ Wrote t :: repeat Done (length ps2) ++ [Wrote t2]) /\
    written out t oo (blake2s key (concat (map p_data ps))) /\
    written out2 t2 oo2 (blake2s_data (s_param (length key) (zeros 8) (zeros 8)) (concat (map p_data ps2))).
Proof.
  intros HK HI HF HB HP HP2 HO HO2.
  destruct (c36_history256 (mac_calls key iv info ps out oo ps2 out2 oo2)) as (rs & E & X); [apply mac_calls_ok; auto; lia|].
  apply mac_calls_ex in X; try assumption. destruct X as (t & t2 & -> & W & W2). exists t, t2. split; [exact E|]. split; [|exact W2].
  unfold blake2s, blake2s_with. rewrite keyed_eq by (apply (key_nonnil key 16); lia). exact W.
Qed.
Lemma c36_keyed512 key iv info ps out oo ps2 out2 oo2 : (32 <= length key <= 64)%nat -> (length iv = 0 \/ length iv = 16)%nat -> (length info = 0 \/ length info = 16)%nat ->
  bytes key -> Forall p_ok ps -> Forall p_ok ps2 -> (oo + 64 <= length out)%nat -> (oo2 + 64 <= length out2)%nat ->
  exists t t2, (o <- Blake512_new ;; bhist512 o (mac_calls key iv info ps out oo ps2 out2 oo2)) =
      Ok (Done :: repeat Done (length ps) ++ Wrote t :: repeat Done (length ps2) ++ [Wrote t2]) /\
    written out t oo (blake2b key (concat (map p_data ps))) /\
    written out2 t2 oo2 (blake2b_data (b_param (length key) (zeros 16) (zeros 16)) (concat (map p_data ps2))).
Proof.
  intros HK HI HF HB HP HP2 HO HO2.
  destruct (c36_history512 (mac_calls key iv info ps out oo ps2 out2 oo2)) as (rs & E & X); [apply mac_calls_ok; auto; lia|].
  apply mac_calls_ex in X; try assumption. destruct X as (t & t2 & -> & W & W2). exists t, t2. split; [exact E|]. split; [|exact W2].
  unfold blake2b, blake2b_with. rewrite keyed_eq by (apply (key_nonnil key 32); lia). exact W.
Qed.
(** ** the block functions *)
Lemma words256 t (f0 f1 : bool) : xorl IV256 [0; 0; 0; 0; t mod 2 ^ 32; t / 2 ^ 32 mod 2 ^ 32; if f0 then 2 ^ 32 - 1 else 0; if f1 then 2 ^ 32 - 1 else 0] =
  xorl H256 [0; 0; 0; 0; t mod 2 ^ 32; t / 2 ^ 32 mod 2 ^ 32; if f0 then 2 ^ 32 - 1 else 0; if f1 then 2 ^ 32 - 1 else 0].
Proof. now rewrite iv256_text. Qed.
Lemma c36_compress256 inp io h t (f0 f1 : bool) : length h = 8%nat -> (io + 64 <= length inp)%nat ->
  let iv := xorl H256 [0; 0; 0; 0; t mod 2 ^ 32; t / 2 ^ 32 mod 2 ^ 32; if f0 then 2 ^ 32 - 1 else 0; if f1 then 2 ^ 32 - 1 else 0] in
  PermuteR10P512U inp io h iv = Ok (compress 32 4 10 (16, 12, 8, 7) H256 h (slice inp io 64) t f0 f1) /\
  PermuteR10P512C inp io h iv = Ok (compress 32 4 10 (16, 12, 8, 7) H256 h (slice inp io 64) t f0 f1).
Proof.
  intros L HB iv. assert (LI : length iv = 8%nat) by (subst iv; rewrite length_xorl; reflexivity). rewrite perm256, perm256C by auto. split; reflexivity.
Qed.
Lemma c36_compress512 inp io h t (f0 f1 : bool) : length h = 8%nat -> (io + 128 <= length inp)%nat ->
  let iv := xorl H512 [0; 0; 0; 0; t mod 2 ^ 64; t / 2 ^ 64 mod 2 ^ 64; if f0 then 2 ^ 64 - 1 else 0; if f1 then 2 ^ 64 - 1 else 0] in
  PermuteR12P1024U inp io h iv = Ok (compress 64 8 12 (32, 24, 16, 63) H512 h (slice inp io 128) t f0 f1) /\
  PermuteR12P1024C inp io h iv = Ok (compress 64 8 12 (32, 24, 16, 63) H512 h (slice inp io 128) t f0 f1).
Proof.
  intros L HB iv. assert (LI : length iv = 8%nat) by (subst iv; rewrite length_xorl; reflexivity). rewrite perm512, perm512C by auto. split; reflexivity.
Qed.
(** ** refutations *)
Definition wkey : list Z := zeros 16.
Definition wsalt : list Z := [1; 0; 0; 0; 0; 0; 0; 0].
Lemma wkey_bytes : bytes wkey. Proof. apply bytes_zeros. Qed.
Lemma written_whole out t d : length d = length out -> written out t 0 d -> t = d.
Proof. intros L W. apply written_eq in W; [|lia]. subst t. now apply splice_all. Qed.
Lemma c36_salt_refuted : exists key salt t, (16 <= length key <= 32)%nat /\ length salt = 8%nat /\
  (o <- Blake256_new ;; bhist256 o [BKey key salt []; BDo (CFinal (zeros 32) 0)]) = Ok [Done; Wrote t] /\ t <> blake2s_with salt (zeros 8) key [].
Proof.
  destruct (c36_history256 [BKey wkey wsalt []; BDo (CFinal (zeros 32) 0)]) as (rs & E & X).
  { constructor; [exact wkey_bytes|]. constructor; [cbn; lia|constructor]. }
  apply bex_key in X; [|cbn; lia|now right|now left]. destruct X as (r1 & -> & X). apply bex_fin in X; [|rewrite length_zeros; lia]. destruct X as (t & r2 & -> & W & X). destruct r2; [|contradiction].
  exists wkey, wsalt, t. split; [cbn; lia|split; [reflexivity|split; [exact E|]]].
  apply written_whole in W; [|vm_compute; reflexivity]. subst t. vm_compute. discriminate.
Qed.
Lemma c36_second_refuted : exists key t t2, (16 <= length key <= 32)%nat /\
  (o <- Blake256_new ;; bhist256 o [BKey key [] []; BDo (CFinal (zeros 32) 0); BDo (CFinal (zeros 32) 0)]) = Ok [Done; Wrote t; Wrote t2] /\
  t = blake2s key [] /\ t2 <> blake2s key [] /\ t2 <> blake2s [] [].
Proof.
  destruct (c36_history256 [BKey wkey [] []; BDo (CFinal (zeros 32) 0); BDo (CFinal (zeros 32) 0)]) as (rs & E & X).
  { constructor; [exact wkey_bytes|]. constructor; [cbn; lia|]. constructor; [cbn; lia|constructor]. }
  apply bex_key in X; [|cbn; lia|now left|now left]. destruct X as (r1 & -> & X). apply bex_fin in X; [|rewrite length_zeros; lia]. destruct X as (t & r2 & -> & W & X).
  apply bex_fin in X; [|rewrite length_zeros; lia]. destruct X as (t2 & r3 & -> & W2 & X). destruct r3; [|contradiction].
  exists wkey, t, t2. split; [cbn; lia|split; [exact E|]].
  apply written_whole in W; [|vm_compute; reflexivity]. apply written_whole in W2; [|vm_compute; reflexivity]. subst t t2. split; [|split; vm_compute; discriminate].
  unfold blake2s, blake2s_with. rewrite keyed_eq by discriminate. now rewrite app_nil_r.
Qed.
Lemma c36_params512_refuted : exists p t, p_fan p = 1 /\ length (p_dst p) = 40%nat /\
  (o <- Blake512_with p ;; bhist512 o [BDo (CFinal (zeros 64) 0)]) = Ok [Wrote t] /\ t <> blake2b_data ([64; 0; 1; 1] ++ zeros 20 ++ p_dst p) [].
Proof.
  set (p := BParams 64 0 1 1 0 0 0 0 0 (zeros 39 ++ [1])).
  destruct (c36_params512 p [BDo (CFinal (zeros 64) 0)]) as (rs & E & X); [cbn; lia| |].
  { constructor; [cbn; lia|constructor]. }
  apply bex_fin in X; [|rewrite length_zeros; lia]. destruct X as (t & r2 & -> & W & X). destruct r2; [|contradiction].
  exists p, t. split; [reflexivity|split; [reflexivity|split; [exact E|]]].
  apply written_whole in W; [|vm_compute; reflexivity]. subst t. vm_compute. discriminate.
Qed.
