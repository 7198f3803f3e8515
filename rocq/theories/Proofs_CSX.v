(** The stream cipher objects: Initialize, SetAssociatedData, Transform against Spec_Stream. *)
From Coq Require Import Permutation.
From Verif Require Import BaseLemmas Spec_Common Proofs_Common Model_IntegerTools Proofs_IntegerTools Proofs_IntegerTools2 Model_Modes Proofs_Windows Model_KDF Proofs_KDF Proofs_KDF2
  Spec_Keccak Proofs_Keccak Session_Digest Session_KMAC Session_SHAKE Model_SHAKE Proofs_KMAC2 Proofs_SHAKE
  Model_ChaCha Spec_ChaCha Proofs_ChaCha Proofs_ChaCha2 Spec_Stream Model_CSX Session_CSX.
Open Scope Z_scope.

(** * words *)
Lemma words_ok n inp cnt : (0 < n)%nat -> forall o, (o + n * cnt <= length inp)%nat -> words n inp o cnt = Ok (le_words n (slice inp o (n * cnt))).
Proof.
  intros Hn. induction cnt as [|k IH]; intros o H; cbn [words].
  - rewrite Nat.mul_0_r. unfold slice. rewrite firstn_O. reflexivity.
  - unfold LeBytesTo. rewrite rd_ok by lia. cbn [bind]. rewrite IH by lia. cbn [bind]. f_equal. replace (n * S k)%nat with (n + n * k)%nat by lia. rewrite slice_app.
    unfold le_words. rewrite chunks_app by (auto; rewrite length_slice; lia). reflexivity.
Qed.
Lemma le_words_app n k a b : (0 < n)%nat -> length a = (n * k)%nat -> le_words n (a ++ b) = le_words n a ++ le_words n b.
Proof.
  intros Hn. revert a. induction k as [|k IH]; intros a H.
  - rewrite Nat.mul_0_r in H. destruct a; [reflexivity|discriminate].
  - replace a with (firstn n a ++ skipn n a) by apply firstn_skipn. rewrite <- app_assoc. unfold le_words in *. assert (L : length (firstn n a) = n) by (rewrite firstn_length; lia).
    rewrite (chunks_app n (firstn n a) (skipn n a ++ b) Hn L), (chunks_app n (firstn n a) (skipn n a) Hn L). cbn [map app]. f_equal. apply IH. rewrite skipn_length. lia.
Qed.
Lemma le_words_len n k a : (0 < n)%nat -> length a = (n * k)%nat -> length (le_words n a) = k.
Proof.
  intros Hn. revert a. induction k as [|k IH]; intros a H.
  - rewrite Nat.mul_0_r in H. destruct a; [reflexivity|discriminate].
  - replace a with (firstn n a ++ skipn n a) by apply firstn_skipn. unfold le_words in *. rewrite chunks_app by (auto; rewrite firstn_length; lia).
    cbn [map length]. f_equal. apply IH. rewrite skipn_length. lia.
Qed.
Lemma slice_full (l : list Z) n : length l = n -> slice l 0 n = l.
Proof. intros <-. apply slice_all. reflexivity. Qed.

(** * the two configurations *)
Record matches (cf : sconf) (c : cipher) : Prop := {
  M_w : c_w cf = b_w c; M_wb : c_wb cf = Z.to_nat (b_w c / 8); M_B : c_B cf = b_B c; M_key : c_key cf = b_key c; M_iv : c_iv cf = b_iv c;
  M_info : c_info cf = b_code c; M_strict : c_strict cf = b_exact c; M_sigma : c_sigma cf = b_sigma c; M_name : c_name cf = b_name c;
  M_rate : c_rate cf = b_rate c; M_tag : c_tag cf = b_tag c; M_mark : c_aadlen cf = b_mark c;
  M_w0 : 0 < b_w c; M_B0 : (0 < b_B c)%nat;
  M_len : forall st v, length st = 14%nat -> length (b_block c st v) = b_B c;
  M_bytes : forall st v, bytes (b_block c st v);
  M_perm : forall st out oo v, length st = 14%nat -> (oo + b_B c <= length out)%nat -> c_perm cf out oo (counter_words (b_w c) v) st = Ok (splice out oo (b_block c st v));
  M_load : forall key iv code, length key = b_key c -> length iv = b_iv c -> length code = b_code c -> bytes iv ->
    S_Load cf key iv code (zeros 2) = Ok (fst (b_layout c key iv code), counter_words (b_w c) (snd (b_layout c key iv code))) /\ length (fst (b_layout c key iv code)) = 14%nat;
  M_num : (64 <= b_rate c <= 190)%nat /\ (b_rate c mod 8 = 0)%nat /\ (16 <= b_key c <= b_rate c)%nat /\ (16 <= b_tag c <= b_rate c)%nat /\ (0 < b_code c)%nat;
  M_sl : length (b_sigma c) = b_code c /\ bytes (b_sigma c);
  M_nm : bytes (b_name c) /\ short (b_name c) /\ fits_block (b_rate c) (b_name c) [] /\ (0 < length (b_name c))%nat;
  M_wip : c_wipe cf = true -> b_exact c = true }.
Lemma lbytes l : Forall (fun x => 0 <= x < 256) l -> bytes l.
Proof. exact (fun H => H). Qed.
Ltac bytelist := repeat (apply Forall_cons; [red; lia|]); apply Forall_nil.
Lemma concat_le_bytes n l : bytes (concat (map (le_bytes n) l)).
Proof. induction l as [|x l IH]; [constructor|]. cbn [map concat]. apply Forall_app. split; [apply bytes_le_bytes|exact IH]. Qed.
Lemma concat_le_len n l : length (concat (map (le_bytes n) l)) = (n * length l)%nat.
Proof. induction l as [|x l IH]; [cbn; lia|]. cbn [map concat length]. rewrite app_length, length_le_bytes, IH. lia. Qed.
Lemma block_len w rots n st ctr : length st = 14%nat -> length ctr = 2%nat -> length (block_words w rots n (input_words st ctr)) = 16%nat.
Proof.
  intros H1 H2. unfold block_words. rewrite map_length, combine_length. pose proof (input_len st ctr H1 H2) as L. rewrite (iter_len w rots n _ L). rewrite L. reflexivity.
Qed.
Lemma stream_block_len w rots n st v : length st = 14%nat -> length (stream_block w rots n st v) = (Z.to_nat (w / 8) * 16)%nat.
Proof. intros H. unfold stream_block. rewrite concat_le_len, block_len by (auto; reflexivity). reflexivity. Qed.
Lemma chacha_matches : matches chacha_conf chacha20.
Proof.
  constructor; try reflexivity.
  - cbn [b_B chacha20]. lia.
  - intros st v H. cbn [b_block b_B chacha20]. unfold chacha_block. rewrite stream_block_len by exact H. reflexivity.
  - intros st v. cbn [b_block chacha20]. unfold chacha_block, stream_block. apply concat_le_bytes.
  - intros st out oo v H HO. cbn [c_perm chacha_conf b_w chacha20 b_block b_B] in *. rewrite (U_ok st (counter_words 32 v) out oo H eq_refl HO). unfold chacha_block, stream_block, block_of. reflexivity.
  - intros key iv code H1 H2 H3 Bi. cbn [b_key b_iv b_code chacha20 b_layout fst snd b_w] in *. unfold S_Load. cbn [c_wb c_ivctr chacha_conf].
    rewrite !words_ok by lia. cbn [bind]. rewrite !slice_full by lia.
    rewrite (le_words_app 4 4) by (try lia; exact H3). rewrite (le_words_app 4 8) by (try lia; exact H1). split; [reflexivity|].
    rewrite !app_length, (le_words_len 4 4), (le_words_len 4 8), (le_words_len 4 2) by lia. reflexivity.
  - cbn [b_rate b_key b_tag b_code chacha20]. repeat split; try lia; reflexivity.
  - cbn [b_sigma b_code chacha20]. split; [reflexivity|bytelist].
  - cbn [b_name b_rate chacha20]. split; [bytelist|]. split; [red; cbn; lia|]. split; [|cbn; lia]. apply Nat.leb_le. vm_compute. reflexivity.
Qed.
Lemma csx_matches : matches csx_conf csx512.
Proof.
  constructor; try reflexivity.
  - cbn [b_B csx512]. lia.
  - intros st v H. cbn [b_block b_B csx512]. unfold csx_block. rewrite stream_block_len by exact H. reflexivity.
  - intros st v. cbn [b_block csx512]. unfold csx_block, stream_block. apply concat_le_bytes.
  - intros st out oo v H HO. cbn [c_perm csx_conf b_w csx512 b_block b_B] in *. rewrite (csx_ok 40 st (counter_words 64 v) out oo eq_refl H eq_refl HO). unfold csx_block, stream_block, block_of. change (40 / 2)%nat with 20%nat. reflexivity.
  - intros key iv code H1 H2 H3 Bi. cbn [b_key b_iv b_code csx512 b_layout fst snd b_w] in *. unfold S_Load. cbn [c_wb c_ivctr csx_conf].
    rewrite H1, H2, H3. change (64 / 8)%nat with 8%nat. change (48 / 8)%nat with 6%nat. change (16 / 8)%nat with 2%nat.
    rewrite !words_ok by lia. cbn [bind]. rewrite !slice_full by lia. rewrite (le_words_len 8 8), (le_words_len 8 6), (le_words_len 8 2) by lia. cbn [Nat.add Nat.eqb andb safe bind].
    rewrite (le_words_app 8 8) by (try lia; exact H1). split; [|rewrite app_length, (le_words_len 8 8), (le_words_len 8 6) by lia; reflexivity]. do 2 f_equal.
    replace iv with (firstn 8 iv ++ skipn 8 iv) at 1 by apply firstn_skipn. unfold le_words. rewrite chunks_app by (rewrite ?firstn_length; lia).
    replace (skipn 8 iv) with (skipn 8 iv ++ []) by apply app_nil_r. rewrite chunks_app by (rewrite ?skipn_length; lia). rewrite chunks_nil. cbn [map].
    pose proof (le_val_range _ (bytes_firstn 8 iv Bi)) as R1. pose proof (le_val_range _ (bytes_skipn 8 iv Bi)) as R2.
    rewrite firstn_length, H2 in R1. rewrite skipn_length, H2 in R2.
    apply counter_uniq; [lia|exact R1|exact R2|]. rewrite value_le_eq. replace iv with (firstn 8 iv ++ skipn 8 iv) at 3 by apply firstn_skipn.
    rewrite le_val_app, firstn_length, H2. change (256 ^ Z.of_nat (Nat.min 8 16)) with (2 ^ 64) in *. change (256 ^ Z.of_nat (16 - 8)) with (2 ^ 64) in *.
    rewrite Z.mod_small; [reflexivity|]. change (2 ^ (2 * 64)) with (2 ^ 64 * 2 ^ 64). set (M := 2 ^ 64) in *. nia.
  - cbn [b_rate b_key b_tag b_code csx512]. repeat split; try lia; reflexivity.
  - cbn [b_sigma b_code csx512]. split; [reflexivity|bytelist].
  - cbn [b_name b_rate csx512]. split; [bytelist|]. split; [red; cbn; lia|]. split; [|cbn; lia]. apply Nat.leb_le. vm_compute. reflexivity.
  - cbn. discriminate.
Qed.
Lemma all_match cf c : In (cf, c) stream_ciphers -> matches cf c.
Proof. unfold stream_ciphers. cbn [In]. intros [E|[E|[]]]; injection E as <- <-; [exact chacha_matches|exact csx_matches]. Qed.
