(** Skein: the configuration, the constructors and the width of the position. *)
From Verif Require Import BaseLemmas Spec_Common Proofs_Common Spec_Feed Session_Digest Model_IntegerTools Proofs_IntegerTools Model_Modes Proofs_Windows
  Model_CSX Proofs_CSX Spec_ChaCha Spec_Threefish Proofs_Threefish2 Model_Threefish Spec_Skein Model_Skein Session_Skein Proofs_Skein.
Open Scope Z_scope.

Lemma le_words_8 a b : length a = 8%nat -> le_words 8 (a ++ b) = le_val a :: le_words 8 b.
Proof. intros H. rewrite (le_words_app 8 1) by (auto; lia). f_equal. unfold le_words. rewrite chunks_cons; [|lia|destruct a; [discriminate|discriminate]]. rewrite firstn_all2, skipn_all2 by lia. rewrite chunks_nil. reflexivity. Qed.
Lemma pack a x n k : 0 <= n -> 0 <= k -> n + k <= 64 -> 0 <= a < 2 ^ n -> 0 <= x < 2 ^ k -> Z.lor a (wshl 64 x n) = a + 2 ^ n * x /\ 0 <= a + 2 ^ n * x < 2 ^ (n + k).
Proof.
  intros Hn Hk Hs Ha Hx. assert (B : 0 <= a + 2 ^ n * x < 2 ^ (n + k)).
  { rewrite Z.pow_add_r by lia. nia. }
  split; [|exact B]. unfold wshl. rewrite Z.mod_small; [now apply lor_shiftl_add|]. rewrite Z.shiftl_mul_pow2 by lia.
  assert (2 ^ (n + k) <= 2 ^ 64) by (apply Z.pow_le_mono_r; lia). nia.
Qed.
Lemma word0 s ver r1 : length s = 4%nat -> bytes s -> is_word 16 ver -> is_word 16 r1 ->
  Z.lor (Z.lor (le_val s) (wshl 64 ver 32)) (wshl 64 r1 48) = le_val (s ++ le_bytes 2 ver ++ le_bytes 2 r1).
Proof.
  intros L B V R. unfold is_word in *. pose proof (le_val_range s B) as RS. rewrite L in RS. change (256 ^ Z.of_nat 4) with (2 ^ 32) in RS.
  destruct (pack (le_val s) ver 32 16) as (-> & E1); try lia. destruct (pack (le_val s + 2 ^ 32 * ver) r1 48 16) as (-> & _); try lia.
  rewrite !le_val_app, L, !length_le_bytes, !le_val_le_bytes. change (256 ^ Z.of_nat 2) with (2 ^ 16). change (256 ^ Z.of_nat 4) with (2 ^ 32).
  rewrite !Z.mod_small by lia. ring.
Qed.
Lemma word2 a b c d e : is_byte a -> is_byte b -> is_byte c -> is_byte d -> is_word 32 e ->
  Z.lor (Z.lor (Z.lor (Z.lor a (wshl 64 b 8)) (wshl 64 c 16)) (wshl 64 d 24)) (wshl 64 e 32) = le_val ([a; b; c; d] ++ le_bytes 4 e).
Proof.
  intros A B C D E. unfold is_word, is_byte in *. change 256 with (2 ^ 8) in *.
  destruct (pack a b 8 8) as (-> & E1); try lia. destruct (pack (a + 2 ^ 8 * b) c 16 8) as (-> & E2); try lia.
  destruct (pack (a + 2 ^ 8 * b + 2 ^ 16 * c) d 24 8) as (-> & E3); try lia. destruct (pack (a + 2 ^ 8 * b + 2 ^ 16 * c + 2 ^ 24 * d) e 32 32) as (-> & E4); try lia.
  rewrite !le_val_app, !le_val_le_bytes. cbn [length]. change (256 ^ Z.of_nat 4) with (2 ^ 32). rewrite Z.mod_small by lia. cbn [le_val]. ring.
Qed.
Section cfg.
Context (v : skv) (Hv : (4 <= f_n (sv_F v))%nat) (Hv2 : (f_n (sv_F v) <= 16)%nat).
Lemma cfg_len p : params_ok v p -> length (cfg_bytes p) = sv_rate v.
Proof.
  intros ((S1 & S2) & V & R1 & O & Lf & D & Fn & R2 & R3 & Db & Dl). unfold cfg_bytes. rewrite !app_length, !length_le_bytes, S2, Dl. cbn [length]. unfold sv_rate, nb in *. lia.
Qed.
Lemma GetConfig_ok p : params_ok v p -> GetConfig p = Ok (le_words 8 (cfg_bytes p)).
Proof.
  intros ((S1 & S2) & V & R1 & O & Lf & D & Fn & R2 & R3 & Db & Dl). unfold GetConfig. cbv zeta.
  assert (K : Z.to_nat (q_out p / 8) = f_n (sv_F v)).
  { rewrite O. unfold sv_rate, nb. rewrite Nat2Z.inj_mul. change (Z.of_nat 8) with 8. rewrite Z.mul_comm, Z_div_mult by lia. apply Nat2Z.id. }
  rewrite K. replace (3 <=? f_n (sv_F v))%nat with true by (symmetry; apply Nat.leb_le; lia). cbn [safe bind].
  unfold LeBytesTo. rewrite rd_ok by lia. cbn [bind]. rewrite (slice_full _ 4 S2).
  rewrite words_ok by (rewrite ?Dl; unfold sv_rate, nb; lia). cbn [bind].
  rewrite slice_full by (rewrite Dl; unfold sv_rate, nb; lia).
  rewrite word0, word2 by auto. unfold cfg_bytes.
  replace (q_schema p ++ le_bytes 2 (q_ver p) ++ le_bytes 2 (q_r1 p) ++ le_bytes 8 (8 * q_out p) ++ [q_leaf p; q_fan p; q_depth p; q_r2 p] ++ le_bytes 4 (q_r3 p) ++ q_dst p)
    with ((q_schema p ++ le_bytes 2 (q_ver p) ++ le_bytes 2 (q_r1 p)) ++ le_bytes 8 (8 * q_out p) ++ ([q_leaf p; q_fan p; q_depth p; q_r2 p] ++ le_bytes 4 (q_r3 p)) ++ q_dst p) by (rewrite <- !app_assoc; reflexivity).
  rewrite le_words_8 by (rewrite !app_length, !length_le_bytes, S2; reflexivity). rewrite le_words_8 by apply length_le_bytes.
  rewrite le_words_8 by (rewrite app_length, length_le_bytes; reflexivity). do 2 f_equal. f_equal.
  rewrite le_val_le_bytes. change (256 ^ Z.of_nat 8) with (2 ^ 64). unfold u64. f_equal. lia.
Qed.
End cfg.

Section new.
Context (v : skv).
Notation F := (sv_F v). Notation n := (f_n F). Notation perm := (sv_perm v). Notation rounds := (sv_rounds v).
Hypothesis Hn : (4 <= n)%nat.
Hypothesis Hn2 : (n <= 16)%nat.
Hypothesis Hpi : length (f_pi F) = n.
Hypothesis Hperm : forall m t k, length m = n -> length t = 2%nat -> length k = n -> perm m t k = Ok (threefish F rounds k t m).
Notation R := (8 * n)%nat.
Lemma cfg_tweak : Increase (SetFinal (StartNew 4)) 32 = tw 4 true true 32.
Proof. reflexivity. Qed.
Lemma start_len cfg i : length cfg = R -> length (leaf_start F rounds (2 ^ 64) cfg i) = n.
Proof.
  intros H. assert (LC : length (le_words 8 cfg) = n) by (apply le_words_len; lia).
  destruct i; cbn [leaf_start].
  - unfold chain0, ubi_step. rewrite length_xorl, threefish_len by auto. lia.
  - assert (L : length (leaf_start F rounds (2 ^ 64) cfg i) = n).
    { induction i as [|i IH]; cbn [leaf_start]; [unfold chain0, ubi_step; rewrite length_xorl, threefish_len by auto; lia|]. rewrite length_xorl, threefish_len by auto. lia. }
    rewrite length_xorl, threefish_len by auto. lia.
Qed.
Definition leaf0 (cfg : list Z) (i : nat) : kstate := mk 48 (leaf_start F rounds (2 ^ 64) cfg i) (leaf_start F rounds (2 ^ 64) cfg i) true false 0.
Lemma chain_ok cfg k : length cfg = R -> forall i, exists ss, chain_states perm (le_words 8 cfg) (leaf_start F rounds (2 ^ 64) cfg i) (repeat (kzero n) k) = Ok ss /\
  map kV ss = map (leaf_start F rounds (2 ^ 64) cfg) (seq (S i) k).
Proof.
  intros H. assert (LC : length (le_words 8 cfg) = n) by (apply le_words_len; lia).
  induction k as [|k IH]; intros i; [exists []; split; reflexivity|]. cbn [repeat chain_states]. cbv zeta. rewrite cfg_tweak. cbn [kzero kS].
  rewrite Hperm; [|now apply start_len|reflexivity|apply length_zeros]. cbn [bind].
  assert (E : xorl (threefish F rounds (zeros n) (tw 4 true true 32) (leaf_start F rounds (2 ^ 64) cfg i)) (le_words 8 cfg) = leaf_start F rounds (2 ^ 64) cfg (S i)).
  { cbn [leaf_start]. rewrite tweak_is. reflexivity. }
  rewrite E. destruct (IH (S i)) as (ss & -> & M). cbn [bind]. eexists. split; [reflexivity|]. cbn [map kV seq]. f_equal. exact M.
Qed.
Lemma Load_zero cfg : length cfg = R -> KLoadState perm (kzero n) (le_words 8 cfg) =
  Ok (mk 4 (threefish F rounds (zeros n) (tweak (2 ^ 64) 4 true true 32) (le_words 8 cfg)) (chain0 F rounds (2 ^ 64) cfg) true true 32).
Proof.
  intros H. assert (LC : length (le_words 8 cfg) = n) by (apply le_words_len; lia).
  unfold KLoadState. cbv zeta. rewrite cfg_tweak. cbn [kzero kS]. rewrite Hperm; [|exact LC|reflexivity|apply length_zeros]. cbn [bind].
  unfold mk, chain0, ubi_step. rewrite tweak_is. reflexivity.
Qed.
Lemma KNew_ok fan p : (0 < fan)%nat -> params_ok v p -> sk_new v fan p = Ok (map (leaf0 (cfg_bytes p)) (seq 0 fan), zeros (fan * R), 0%nat).
Proof.
  intros Hf HP. unfold sk_new, KNew, KInitialize. rewrite (GetConfig_ok v) by (auto; lia). cbn [bind].
  assert (L : length (cfg_bytes p) = R) by (rewrite (cfg_len v); auto; reflexivity).
  assert (LC : length (le_words 8 (cfg_bytes p)) = n) by (apply le_words_len; lia).
  rewrite rd_ok by (rewrite LC; lia). cbn [bind]. rewrite slice_full by exact LC.
  destruct fan as [|k]; [lia|]. cbn [repeat]. rewrite Load_zero by exact L. cbn [bind mk kV].
  destruct (chain_ok (cfg_bytes p) k L 0) as (ss & E & M). cbn [leaf_start] in E. rewrite E. cbn [bind]. unfold rate. apply f_equal. apply (f_equal (fun x : list kstate => (x, zeros (S k * (8 * n)), 0%nat))).
  cbn [map seq]. cbn [kV]. f_equal. rewrite StartNew_tw by auto.
  rewrite <- (map_map kV (fun x => KState x x (tw 48 true false 0))). rewrite M, map_map. reflexivity.
Qed.
(** a single state is the sequential object *)
Lemma KNew_one p : params_ok v p -> sk_new v 1 p = Ok (fresh F (chain0 F rounds (2 ^ 64) (cfg_bytes p))).
Proof. intros H. rewrite KNew_ok by (auto; lia). cbn [seq map]. unfold fresh, s0, leaf0. cbn [leaf_start]. rewrite Nat.mul_1_l. reflexivity. Qed.
End new.

(** * the standard configuration *)
Lemma default_ok v : a_skein v -> params_ok v (default_params v).
Proof. intros [->|[->| ->]]; (split; [split; [repeat constructor; unfold is_byte; lia|reflexivity]|]); repeat (split; [unfold is_word, is_byte; cbn; lia|]); (split; [apply bytes_zeros|apply length_zeros]). Qed.
Lemma tree_ok v : a_skein v -> params_ok v (tree_params v).
Proof. intros [->|[->| ->]]; (split; [split; [repeat constructor; unfold is_byte; lia|reflexivity]|]); repeat (split; [unfold is_word, is_byte; cbn; lia|]); (split; [apply bytes_zeros|apply length_zeros]). Qed.
Lemma default_cfg v : a_skein v -> cfg_bytes (default_params v) = config (sv_F v) ++ zeros (nb (sv_F v) - 32).
Proof. intros [->|[->| ->]]; vm_compute; reflexivity. Qed.
Lemma chain_std F rounds W : (4 <= f_n F)%nat -> ubi F rounds W ty_cfg (zeros (f_n F)) (config F) = chain0 F rounds W (config F ++ zeros (nb F - 32)).
Proof.
  intros H. unfold ubi, chain0. assert (L : length (config F) = 32%nat) by (unfold config; rewrite !app_length, !length_le_bytes, !length_zeros; reflexivity).
  assert (C : (match config F with [] => [[]] | _ :: _ => chunks (nb F) (config F) end) = [config F]).
  { destruct (config F) eqn:E; [discriminate|]. rewrite chunks_cons; [|unfold nb; lia|discriminate]. rewrite <- E in *. rewrite firstn_all2, skipn_all2 by (unfold nb; lia). now rewrite chunks_nil. }
  rewrite C. cbn [ubi_blocks]. rewrite L. reflexivity.
Qed.
Lemma skein_default v m : a_skein v -> skein_hash v (2 ^ 64) m = skein_hash_cfg v (2 ^ 64) (cfg_bytes (default_params v)) m.
Proof. intros H. rewrite default_cfg by exact H. unfold skein_hash, skein_hash_cfg, skein, skein_cfg. rewrite chain_std; [reflexivity|]. destruct H as [->|[->| ->]]; cbn; lia. Qed.

(** * positions below 2^64 *)
Lemma step_W F rounds W ty f l t G m : 0 <= t < 2 ^ 64 -> 2 ^ 64 <= W -> ubi_step F rounds W ty f l t G m = ubi_step F rounds (2 ^ 64) ty f l t G m.
Proof. intros H1 H2. unfold ubi_step, tweak. cbv zeta. rewrite !(Z.mod_small t) by lia. reflexivity. Qed.
Lemma blocks_W F rounds W ty : (4 <= f_n F)%nat -> 2 ^ 64 <= W -> forall k m f t G, (length m <= k)%nat -> m <> [] -> 0 <= t -> t + Z.of_nat (length m) < 2 ^ 64 ->
  ubi_blocks F rounds W ty f t G (chunks (nb F) m) = ubi_blocks F rounds (2 ^ 64) ty f t G (chunks (nb F) m).
Proof.
  intros HN HW. assert (HB : (0 < nb F)%nat) by (unfold nb; lia). induction k as [|k IH]; intros m f t G Hk Hm Ht Hl; [destruct m; [congruence|cbn [length] in Hk; lia]|].
  rewrite chunks_cons by auto. cbn [ubi_blocks]. destruct (skipn (nb F) m) as [|x m'] eqn:E.
  - rewrite chunks_nil. apply step_W; [|exact HW]. rewrite firstn_length. lia.
  - rewrite <- E. assert (LS : length (skipn (nb F) m) = (length m - nb F)%nat) by apply skipn_length. assert (LP : (0 < length (skipn (nb F) m))%nat) by (rewrite E; cbn [length]; lia).
    destruct (chunks (nb F) (skipn (nb F) m)) as [|c cs] eqn:EC; [rewrite chunks_cons in EC by (auto; rewrite E; discriminate); discriminate|].
    rewrite <- EC, (step_W F rounds W) by lia. apply IH; [lia|rewrite E; discriminate|lia|lia].
Qed.
Lemma ubi_W F rounds W ty G m : (4 <= f_n F)%nat -> 2 ^ 64 <= W -> Z.of_nat (length m) < 2 ^ 64 -> ubi F rounds W ty G m = ubi F rounds (2 ^ 64) ty G m.
Proof.
  intros H1 H2 H3. unfold ubi. destruct m as [|x m]; [cbn [ubi_blocks length]; apply step_W; [cbn; lia|exact H2]|].
  apply (blocks_W F rounds W ty H1 H2 (length (x :: m))); try discriminate; lia.
Qed.
Lemma skein_W v W m : a_skein v -> 2 ^ 64 <= W -> Z.of_nat (length m) < 2 ^ 64 -> skein_hash v W m = skein_hash v (2 ^ 64) m.
Proof.
  intros Hv H2 H3. assert (HN : (4 <= f_n (sv_F v))%nat) by (destruct Hv as [->|[->| ->]]; cbn; lia).
  assert (L : length (config (sv_F v)) = 32%nat) by (unfold config; rewrite !app_length, !length_le_bytes, !length_zeros; reflexivity).
  unfold skein_hash, skein, output. rewrite (ubi_W (sv_F v) (sv_rounds v) W ty_out) by (auto; rewrite length_zeros; lia).
  rewrite (ubi_W (sv_F v) (sv_rounds v) W ty_msg) by auto. rewrite (ubi_W (sv_F v) (sv_rounds v) W ty_cfg) by (auto; rewrite L; lia). reflexivity.
Qed.
