(** The SHX object refines Serpent under its key schedules. *)
From Verif Require Import Base BaseLemmas Spec_Common Spec_Serpent Spec_AES Proofs_Common Model_IntegerTools Proofs_IntegerTools Model_Modes Proofs_Windows Model_KDF Model_Keys Session_Digest Proofs_SHA2obj Proofs_KDF Model_RHX Session_Block Proofs_Block
  Proofs_RHX ProofsP_KMAC ProofsP_RHX Model_Serpent Session_SHX Proofs_Serpent Proofs_Serpent2 Proofs_Serpent3.
Open Scope Z_scope.

(** ** the words of the key *)
Lemma words_val n : forall l, length l = (4 * n)%nat -> bytes l -> words32 n (le_val l) = map le_val (chunks 4 l).
Proof.
  induction n as [|n IH]; intros l L B; [destruct l; [reflexivity|cbn [length] in L; lia]|].
  rewrite <- (firstn_skipn 4 l). assert (LF : length (firstn 4 l) = 4%nat) by (rewrite firstn_length; lia). rewrite chunks_app by (try lia; exact LF). cbn [map]. rewrite <- IH by (try (rewrite skipn_length; lia); now apply bytes_skipn).
  rewrite le_val_app, LF. set (a := le_val (firstn 4 l)). set (b := le_val (skipn 4 l)). assert (Ha : 0 <= a < 2 ^ 32) by (apply (le4_word (firstn 4 l)); [exact LF|now apply bytes_firstn]).
  change (256 ^ Z.of_nat 4) with (2 ^ 32). unfold words32. cbn [seq map]. f_equal.
  - rewrite Z.mul_0_r, Z.pow_0_r, Z.div_1_r. rewrite (Z.mul_comm (2 ^ 32) b), Z.mod_add by lia. now apply Z.mod_small.
  - rewrite <- seq_shift, map_map. apply map_ext. intros i. f_equal. replace (32 * Z.of_nat (S i)) with (32 + 32 * Z.of_nat i) by lia. rewrite Z.pow_add_r by lia. rewrite <- Z.div_div by (try lia; apply Z.pow_pos_nonneg; lia). f_equal.
    rewrite (Z.mul_comm (2 ^ 32) b), Z.div_add by lia. rewrite Z.div_small by exact Ha. lia.
Qed.
Lemma le_val_zeros k : le_val (zeros k) = 0.
Proof. induction k as [|k IH]; [reflexivity|]. unfold zeros in *. cbn [repeat le_val]. lia. Qed.
Lemma number_words l k : length l = (4 * k)%nat -> (k < 8)%nat -> bytes l -> words32 8 (key_number l) = map le_val (chunks 4 l) ++ [1] ++ zeros (7 - k).
Proof.
  intros L K B. assert (E : key_number l = le_val (l ++ le_bytes 4 1 ++ zeros (4 * (7 - k)))).
  { unfold key_number. destruct (Nat.ltb_spec (length l) 32); [|lia]. rewrite !le_val_app, le_val_zeros, le_val_le_bytes. rewrite Z.mod_small by lia. lia. }
  assert (LT : length (l ++ le_bytes 4 1 ++ zeros (4 * (7 - k))) = 32%nat) by (rewrite !app_length, length_le_bytes, length_zeros; lia).
  assert (BB : bytes (l ++ le_bytes 4 1 ++ zeros (4 * (7 - k)))) by (apply Forall_app; split; [exact B|]; apply Forall_app; split; [apply bytes_le_bytes|apply bytes_zeros]).
  rewrite E, words_val by assumption. rewrite (chunks_app_many 4 ltac:(lia) k) by exact L. rewrite map_app. f_equal. rewrite chunks_app by (try lia; apply length_le_bytes). cbn [map app]. f_equal.
  clear. induction (7 - k)%nat as [|j IH]; [reflexivity|]. replace (4 * S j)%nat with (4 + 4 * j)%nat by lia. unfold zeros in *. rewrite repeat_app, chunks_app by (try lia; apply repeat_length). cbn [map]. rewrite IH. reflexivity.
Qed.
Lemma number_long l : length l = 32%nat -> bytes l -> words32 8 (key_number l) = map le_val (chunks 4 l).
Proof. intros L B. unfold key_number. rewrite L. cbn [Nat.ltb Nat.leb]. rewrite Z.add_0_r. now apply words_val. Qed.
Lemma rev_slice (l : list Z) i n : (i + n <= length l)%nat -> rev (slice l (length l - i - n) n) = slice (rev l) i n.
Proof.
  intros H. apply (list_ext 0); [rewrite rev_length, !length_slice; rewrite ?rev_length; lia|]. intros j Hj. rewrite rev_length, length_slice in Hj by lia. rewrite rev_nth by (rewrite length_slice; lia). rewrite length_slice by lia.
  rewrite !BaseLemmas.nth_slice by lia. rewrite rev_nth by lia. f_equal. lia.
Qed.
Lemma key_words key k m : length key = (4 * k)%nat -> bytes key -> (k <= m)%nat ->
  for_up 0 k (fun k w => x <- BeBytesTo32 key (length key - 4 * k - 4) ;; put w k x) (zeros m) = Ok (map le_val (chunks 4 (rev key)) ++ zeros (m - k)).
Proof.
  intros L B M. set (W := map le_val (chunks 4 (rev key))). assert (LR : length (rev key) = (4 * k)%nat) by (rewrite rev_length; exact L).
  assert (LW : length W = k) by (unfold W; rewrite map_length; apply Proofs_Serpent2.chunks_len; [lia|exact LR]).
  destruct (for_up_inv (fun i w => w = firstn i W ++ zeros (m - i)) (fun k w => x <- BeBytesTo32 key (length key - 4 * k - 4) ;; put w k x) 0 k (zeros m)) as (w & E & F).
  - rewrite Nat.sub_0_r. reflexivity.
  - intros i w Hi ->. rewrite BeBytesTo32_correct by (try exact B; lia). cbn [bind]. assert (LF : length (firstn i W) = i) by (rewrite firstn_length; lia).
    rewrite put_ok by (rewrite app_length, LF, length_zeros; lia). eexists. split; [reflexivity|]. unfold be_val. rewrite rev_slice by lia.
    assert (NW : nth i W 0 = le_val (slice (rev key) (4 * i) 4)).
    { unfold W. change 0 with (le_val []). rewrite map_nth. f_equal. apply chunk_at; lia. }
    rewrite <- NW. replace (m - i)%nat with (S (m - S i)) by lia. change (zeros (S (m - S i))) with (0 :: zeros (m - S i)).
    assert (U : forall (l r : list Z) v, upd (l ++ 0 :: r) (length l) v = l ++ v :: r) by (clear; induction l as [|a l IH]; intros r v; [reflexivity|]; cbn [app length upd]; f_equal; apply IH).
    assert (U' : upd (firstn i W ++ 0 :: zeros (m - S i)) i (nth i W 0) = firstn i W ++ nth i W 0 :: zeros (m - S i)) by (rewrite <- LF at 3; apply U). rewrite U'. assert (FS : firstn (S i) W = firstn i W ++ [nth i W 0]).
    { rewrite <- (firstn_skipn i W) at 1. rewrite firstn_app, LF. rewrite firstn_all2 by lia. f_equal. replace (S i - i)%nat with 1%nat by lia.
      rewrite <- nth_skipn0. destruct (skipn i W) eqn:ES; [|reflexivity]. apply (f_equal (@length Z)) in ES. rewrite skipn_length in ES. cbn in ES. lia. }
    rewrite FS, <- app_assoc. reflexivity.
  - cbn [Nat.add] in F. rewrite E, F. f_equal. f_equal. apply firstn_all2. lia.
Qed.

(** ** StandardExpand *)
Lemma sched_tail w m rounds : Forall (is_word 32) w -> length w = (32 * m + 4)%nat ->
  (r <- working_keys (length w) w 0 ;; rk <- sbox_at 3 (fst r) (snd r) ;; Ok (rounds, rk)) = Ok (rounds : nat, concat (scheduled (8 * m + 1) w)).
Proof.
  intros F L. pose proof (work_ok w m F L) as E. destruct (working_keys (length w) w 0) as [r|e|]; cbn [bind] in *; try discriminate E. rewrite E. reflexivity.
Qed.
Lemma key_part key m : bytes key -> rhx_legal (length key) = true -> (length key / 4 <= m)%nat ->
  for_up 0 (length key / 4) (fun k w => x <- BeBytesTo32 key (length key - 4 * k - 4) ;; put w k x) (zeros m) = Ok (map le_val (chunks 4 (rev key)) ++ zeros (m - length key / 4)).
Proof.
  intros B L M. assert (E : length key = (4 * (length key / 4))%nat) by (destruct (legal_cases _ L) as [-> | [-> | [-> | -> ]]]; reflexivity). now apply key_words.
Qed.
Lemma rev_words key k : length key = (4 * k)%nat -> bytes key -> length (map le_val (chunks 4 (rev key))) = k /\ Forall (is_word 32) (map le_val (chunks 4 (rev key))).
Proof.
  intros L B. assert (LR : length (rev key) = (4 * k)%nat) by (rewrite rev_length; exact L). assert (LC : length (chunks 4 (rev key)) = k) by (apply Proofs_Serpent2.chunks_len; [lia|exact LR]). split; [now rewrite map_length|].
  apply Forall_map, Forall_forall. intros c Hc. apply (In_nth _ _ []) in Hc. destruct Hc as (i & Hi & <-). rewrite chunk_at by lia. apply le4_word; [rewrite length_slice; lia|]. apply bytes_slice. now apply Forall_rev.
Qed.
Notation taps8 := ([8; 5; 3; 1]%nat) (only parsing).
Notation taps16 := ([16; 13; 11; 10; 8; 5; 3; 1]%nat) (only parsing).
Lemma taps8_ok t : In t taps8 -> (1 <= t <= 8)%nat. Proof. cbn. lia. Qed.
Lemma taps16_ok t : In t taps16 -> (1 <= t <= 16)%nat. Proof. cbn. lia. Qed.
Lemma put_after (a : list Z) k v : (0 < k)%nat -> put (a ++ zeros k) (length a) v = Ok (a ++ v :: zeros (k - 1)).
Proof.
  intros K. rewrite put_ok by (rewrite app_length, length_zeros; lia). f_equal. replace k with (S (k - 1)) at 1 by lia. generalize (k - 1)%nat. clear. intros k. induction a as [|x a IH]; [reflexivity|]. cbn [app length upd]. f_equal. exact IH.
Qed.
Section std.
  Variables old key : list Z.
  Hypothesis B : bytes key.
  Notation W := (map le_val (chunks 4 (rev key))).
  Lemma bytes_rev_key : bytes (rev key). Proof. now apply Forall_rev. Qed.
  (** the recurrence with four terms; [w]: the words of the key, 1 after them if there is room *)
  Lemma tail8 w : length w = 8%nat -> Forall (is_word 32) w ->
    (rk <- (tmpw <- for_up 8 8 (fun i w => x <- mixed taps8 w i (i - 8) ;; put w i x) (w ++ zeros 8) ;; rk <- wcopy tmpw 8 (resized old 132) 0 8 ;; for_up 8 (132 - 8) (fun i rk => x <- mixed taps8 rk i i ;; put rk i x) rk) ;;
     r <- working_keys (length rk) rk 0 ;; rk <- sbox_at 3 (fst r) (snd r) ;; Ok (32%nat, rk)) = Ok (32%nat, concat (scheduled 33 (prekeys taps8 132 w))).
  Proof.
    intros L F. assert (FN : firstn 8 (w ++ zeros 8) = w) by (rewrite firstn_app, L, Nat.sub_diag, firstn_O, app_nil_r; apply firstn_all2; lia). assert (LZ : length (w ++ zeros 8) = (8 + 8)%nat) by (rewrite app_length, length_zeros; lia).
    rewrite (expand_ok taps8 8 w taps8_ok L F 132 old (w ++ zeros 8) LZ FN ltac:(lia) ltac:(lia)). cbn [bind]. apply (sched_tail _ 4); [apply (pre_words taps8 8 w); (exact taps8_ok || exact L || exact F || lia)|apply (pre_len taps8 8 w); (exact taps8_ok || exact L || exact F)].
  Qed.
  Lemma tail16 w : length w = 16%nat -> Forall (is_word 32) w ->
    (rk <- (tmpw <- for_up 16 16 (fun i w => x <- mixed taps16 w i (i - 16) ;; put w i x) (w ++ zeros 16) ;; rk <- wcopy tmpw 16 (resized old 164) 0 16 ;; for_up 16 (164 - 16) (fun i rk => x <- mixed taps16 rk i i ;; put rk i x) rk) ;;
     r <- working_keys (length rk) rk 0 ;; rk <- sbox_at 3 (fst r) (snd r) ;; Ok (40%nat, rk)) = Ok (40%nat, concat (scheduled 41 (prekeys taps16 164 w))).
  Proof.
    intros L F. assert (FN : firstn 16 (w ++ zeros 16) = w) by (rewrite firstn_app, L, Nat.sub_diag, firstn_O, app_nil_r; apply firstn_all2; lia). assert (LZ : length (w ++ zeros 16) = (16 + 16)%nat) by (rewrite app_length, length_zeros; lia).
    rewrite (expand_ok taps16 16 w taps16_ok L F 164 old (w ++ zeros 16) LZ FN ltac:(lia) ltac:(lia)). cbn [bind]. apply (sched_tail _ 5); [apply (pre_words taps16 16 w); (exact taps16_ok || exact L || exact F || lia)|apply (pre_len taps16 16 w); (exact taps16_ok || exact L || exact F)].
  Qed.
  Lemma short_words k : length key = (4 * k)%nat -> (k < 8)%nat -> length (W ++ 1 :: zeros (7 - k)) = 8%nat /\ Forall (is_word 32) (W ++ 1 :: zeros (7 - k)) /\ prekeys taps8 132 (W ++ 1 :: zeros (7 - k)) = prekeys taps8 132 (words32 8 (key_number (rev key))).
  Proof.
    intros L K. destruct (rev_words key k L B) as [LW FW]. split; [rewrite app_length; cbn [length]; rewrite length_zeros; lia|]. split.
    - apply Forall_app. split; [exact FW|]. constructor; [red; lia|]. apply Forall_forall. intros x Hx. apply repeat_spec in Hx. subst x. red. lia.
    - rewrite (number_words (rev key) k) by (try (rewrite rev_length; exact L); try exact bytes_rev_key; exact K). reflexivity.
  Qed.
  Lemma short_case k : length key = (4 * k)%nat -> (k = 4 \/ k = 6)%nat -> SHX_StandardExpand old key = Ok (32%nat, concat (serpent_schedule (rev key))).
  Proof.
    intros L K. assert (LG : rhx_legal (length key) = true) by (rewrite L; destruct K as [-> | ->]; reflexivity). destruct (rev_words key k L B) as [LW FW].
    assert (D4 : (length key / 4 = k)%nat) by (rewrite L, Nat.mul_comm, Nat.div_mul; lia).
    destruct (short_words k L ltac:(lia)) as (L8 & F8 & P8).
    unfold SHX_StandardExpand. destruct (Nat.ltb_spec (length key) 32); [|lia]. cbv zeta. change (16 =? 16)%nat with true. cbv iota. rewrite key_part by (try assumption; lia). cbn [bind]. rewrite D4.
    destruct (Nat.ltb_spec k 8); [|lia]. rewrite <- LW at 2. rewrite put_after by lia. cbn [bind]. destruct (Nat.eqb_spec (length key) 64); [lia|]. change (4 * (32 + 1))%nat with 132%nat.
    replace (W ++ 1 :: zeros (16 - k - 1)) with ((W ++ 1 :: zeros (7 - k)) ++ zeros 8).
    - rewrite (tail8 _ L8 F8), P8. reflexivity.
    - rewrite <- app_assoc. f_equal. cbn [app]. f_equal. unfold zeros. rewrite <- repeat_app. f_equal. lia.
  Qed.
  Lemma case_32 : length key = 32%nat -> SHX_StandardExpand old key = Ok (32%nat, concat (serpent_schedule (rev key))).
  Proof.
    intros L. assert (LG : rhx_legal (length key) = true) by (rewrite L; reflexivity). destruct (rev_words key 8 L B) as [LW FW].
    assert (D4 : (length key / 4 = 8)%nat) by (rewrite L; reflexivity). assert (D2 : (length key / 2 = 16)%nat) by (rewrite L; reflexivity).
    unfold SHX_StandardExpand. destruct (Nat.ltb_spec (length key) 32); [lia|]. cbv zeta. rewrite D2. change (16 =? 16)%nat with true. cbv iota. rewrite key_part by (try assumption; lia). cbn [bind]. rewrite D4. change (8 <? 8)%nat with false. cbv iota. cbn [bind].
    destruct (Nat.eqb_spec (length key) 64); [lia|]. change (4 * (32 + 1))%nat with 132%nat. change (16 - 8)%nat with 8%nat. rewrite (tail8 W LW FW). unfold serpent_schedule. rewrite number_long by (try (rewrite rev_length; exact L); exact bytes_rev_key). reflexivity.
  Qed.
  Lemma case_64 : length key = 64%nat -> SHX_StandardExpand old key = Ok (40%nat, concat (shx_schedule key)).
  Proof.
    intros L. assert (LG : rhx_legal (length key) = true) by (rewrite L; reflexivity). destruct (rev_words key 16 L B) as [LW FW].
    assert (D4 : (length key / 4 = 16)%nat) by (rewrite L; reflexivity). assert (D2 : (length key / 2 = 32)%nat) by (rewrite L; reflexivity).
    unfold SHX_StandardExpand, shx_schedule. destruct (Nat.ltb_spec (length key) 32); [lia|]. cbv zeta. rewrite D2. change (32 =? 16)%nat with false. cbv iota. rewrite key_part by (try assumption; lia). cbn [bind]. rewrite D4. change (16 <? 8)%nat with false. cbv iota. cbn [bind].
    destruct (Nat.eqb_spec (length key) 64); [|lia]. change (4 * (40 + 1))%nat with 164%nat. change (32 - 16)%nat with 16%nat. rewrite (tail16 W LW FW). rewrite (words_val 16) by (try (rewrite rev_length; exact L); exact bytes_rev_key). reflexivity.
  Qed.
  Lemma std_ok : rhx_legal (length key) = true -> exists r, SHX_StandardExpand old key = Ok (r, concat (shx_schedule key)).
  Proof.
    intros L. destruct (legal_cases _ L) as [E | [E | [E | E]]].
    - exists 32%nat. rewrite (short_case 4) by lia. unfold shx_schedule. rewrite E. reflexivity.
    - exists 32%nat. rewrite (short_case 6) by lia. unfold shx_schedule. rewrite E. reflexivity.
    - exists 32%nat. rewrite case_32 by exact E. unfold shx_schedule. rewrite E. reflexivity.
    - exists 40%nat. now apply case_64.
  Qed.
End std.
Lemma sched_chunks key : exists m, keys_are (concat (shx_schedule key)) m /\ chunks 4 (concat (shx_schedule key)) = shx_schedule key.
Proof.
  unfold shx_schedule, serpent_schedule. destruct (length key =? 64)%nat; [exists 5%nat; exact (sched_keys _ 5 ltac:(lia))|exists 4%nat; exact (sched_keys _ 4 ltac:(lia))].
Qed.
(** ** initialised objects *)
Definition keyed4 {G} (o : bc_obj G) (e : bool) (ks : list (list Z)) : Prop := bc_encr o = e /\ (exists m, keys_are (bc_rk o) m) /\ chunks 4 (bc_rk o) = ks.
Section shx_hist.
  Context {G : Type} (x : option (kgen G)) (sched : list Z -> list Z -> list (list Z)) (iok : list Z -> Prop) (GR : G -> Prop).
  Definition shxR (o : bc_obj G) (a : option (bool * list Z * list Z)) : Prop := GR (bc_gen o) /\ match a with None => True | Some (e, k, i) => keyed4 o e (sched k i) end.
  Hypothesis Hexp : forall o enc key info, GR (bc_gen o) -> bytes key -> bytes info -> iok info -> rhx_legal (length key) = true ->
    exists o', SHX_Initialize x o enc key info = Ok (o', None) /\ GR (bc_gen o') /\ keyed4 o' enc (sched key info).
  Lemma shx_history cs o a : GR (bc_gen o) -> bcalls_ok (serpent_with sched) iok false cs -> exists rs, bhistory (shx_ops x) o cs = Ok rs /\ bexpected (serpent_with sched) a cs rs.
  Proof.
    intros HR HC. refine (bhistory_ok (shx_ops x) (serpent_with sched) iok shxR _ _ _ _ _ _ cs false o a (conj HR I) HC); clear o a HR HC cs.
    - intros o a enc key info (HG & _) B1 B2 I1 S1 L. cbn [serpent_with cp_legal] in L. cbn [shx_ops bo_init]. destruct (Hexp o enc key info HG B1 B2 I1 L) as (o' & E & G1 & K). exists o'. split; [exact E|]. split; [exact G1|exact K].
    - intros o enc key info S1 L. cbn [serpent_with cp_legal] in L. cbn [shx_ops bo_init]. unfold SHX_Initialize. change SHX_LegalKeySizes with RHX_LegalKeySizes. rewrite legal_ok by exact S1. rewrite L. reflexivity.
    - intros o e k i (_ & _ & (m & K) & E) inp io out oo W. destruct (src_window _ _ _ _ _ W) as (W1 & W2 & W3 & ->). cbn [serpent_with cp_enc shx_ops bo_enc]. unfold SHX_EncryptBlock. rewrite (shx_encrypt _ m K) by assumption. now rewrite E.
    - intros o e k i (_ & _ & (m & K) & E) inp io out oo W. destruct (src_window _ _ _ _ _ W) as (W1 & W2 & W3 & ->). cbn [serpent_with cp_dec shx_ops bo_dec]. unfold SHX_DecryptBlock. rewrite (shx_decrypt _ m K) by assumption. now rewrite E.
    - intros o e k i (_ & E & _). cbn [shx_ops bo_transform bo_enc bo_dec]. unfold SHX_Transform. rewrite E. destruct e; reflexivity.
    - intros o e k i (_ & _ & (m & K) & E). cbn [serpent_with cp_enc cp_dec]. rewrite <- E. pose proof (keys_good _ m K) as GK. split; intros b Lb Bb; apply (serpent_16 _ b GK Lb Bb).
  Qed.
End shx_hist.
Lemma std_expand o enc key info : bytes key -> rhx_legal (length key) = true ->
  exists o', SHX_Initialize (G := unit) None o enc key info = Ok (o', None) /\ keyed4 o' enc (shx_schedule key).
Proof.
  intros B L. unfold SHX_Initialize. change SHX_LegalKeySizes with RHX_LegalKeySizes. rewrite legal_ok by (apply legal_small; exact L). rewrite L. cbn [negb]. cbv zeta. cbn [bc_rk bc_rounds bc_encr bc_on bc_gen].
  destruct (std_ok (bc_rk o) key B L) as (r & ->). cbn [bind fst snd]. eexists. split; [reflexivity|]. unfold keyed4. cbn [bc_rk bc_encr]. split; [reflexivity|]. destruct (sched_chunks key) as (m & K & E). split; [exists m; exact K|exact E].
Qed.
Definition good (C : list Z -> list Z -> list (list Z)) (iok : list Z -> Prop) : Prop := forall key info, rhx_legal (length key) = true -> bytes key -> bytes info -> iok info -> good_keys (C key info).
Lemma ser_inverts sched (iok : list Z -> Prop) : good sched iok -> inverts (serpent_with sched) iok.
Proof.
  intros HK key info b L B BI HI Lb Bb. cbn [serpent_with cp_legal cp_enc cp_dec] in *. destruct (serpent_16 _ b (HK key info L B BI HI) Lb Bb) as (((L1 & B1) & L2 & B2) & E). auto.
Qed.
Lemma keyed_good {G} (o : bc_obj G) e ks : keyed4 o e ks -> good_keys ks. Proof. intros (_ & (m & K) & <-). exact (keys_good _ m K). Qed.
Lemma std_works : works v_Serpent.
Proof.
  split.
  - intros cs a. apply (shx_history None (fun key info => shx_schedule key) (fun _ => True) (fun _ => True)); [|exact I]. intros o enc key info _ B _ _ L. destruct (std_expand o enc key info B L) as (o' & E & K). exists o'. auto.
  - apply ser_inverts. intros key info L B _ _. destruct (std_expand (RHX_new tt) true key [] B L) as (o' & _ & K). exact (keyed_good o' true _ K).
Qed.
(** ** extended *)
Lemma words_from_keys l m : length l = (16 * (8 * m + 1))%nat -> (1 <= m)%nat -> bytes l -> keys_are (words_from l) m.
Proof.
  intros L M B. unfold words_from. assert (LC : length (chunks 4 l) = (32 * m + 4)%nat) by (apply Proofs_Serpent2.chunks_len; lia). split; [now rewrite map_length|]. split; [exact M|]. apply Forall_map, Forall_forall. intros c Hc. apply (In_nth _ _ []) in Hc. destruct Hc as (i & Hi & <-). rewrite chunk_at by lia. apply le4_word; [rewrite length_slice; lia|now apply bytes_slice].
Qed.
Section extended.
  Context {G : Type} (x : kgen G) (F : list Z -> list Z -> nat -> list Z) (cok : list Z -> Prop) (iok : list Z -> Prop) (GR : G -> Prop) (g0 : G).
  Hypothesis Hname : bytes (xg_name x) /\ length (xg_name x) = 7%nat.
  Hypothesis Hgen : generates x F cok GR.
  Hypothesis Hiok : forall info key, iok info -> Z.of_nat (length info) < 2 ^ 32 /\ (rhx_legal (length key) = true -> cok (custom_string (xg_name x) key info)).
  Hypothesis Hg0 : GR g0.
  Lemma shx_ext_expand o enc key info : GR (bc_gen o) -> bytes key -> bytes info -> iok info -> rhx_legal (length key) = true ->
    exists o', SHX_Initialize (Some x) o enc key info = Ok (o', None) /\ GR (bc_gen o') /\ keyed4 o' enc (shx_extended (xg_name x) F key info).
  Proof.
    intros HG B BI HI L. destruct (Hiok info key HI) as [LI CK]. specialize (CK L). destruct Hname as [Bn Ln].
    assert (LK : (16 <= length key <= 64)%nat) by (destruct (legal_cases _ L) as [-> | [-> | [-> | -> ]]]; lia).
    unfold SHX_Initialize. change SHX_LegalKeySizes with RHX_LegalKeySizes. rewrite legal_ok by lia. rewrite L. cbn [negb]. cbv zeta. rewrite custom_ok by lia. cbn [bind]. unfold SHX_SecureExpand. cbn [bc_rk bc_rounds bc_encr bc_on bc_gen].
    fold (shx_rounds (length key)). set (r := shx_rounds (length key)). set (cs := custom_string _ _ _) in *. set (len := (4 * (r + 1) * 4)%nat).
    assert (R : exists m, r = (8 * m)%nat /\ (1 <= m <= 8)%nat) by (unfold r, shx_rounds; destruct (_ =? 32)%nat; [exists 5%nat; lia|]; destruct (_ =? 64)%nat; [exists 6%nat; lia|exists 8%nat; lia]). destruct R as (m & R & M).
    assert (BC : bytes cs) by (unfold cs, custom_string, bytes; rewrite !Forall_app; split; [exact Bn|split; [apply bytes_le_bytes|exact BI]]).
    assert (NC : length cs <> 0%nat) by (unfold cs, custom_string; rewrite app_length; lia).
    destruct (Hgen (bc_gen o) key cs len HG B ltac:(lia) BC NC CK ltac:(unfold len; lia)) as (g1 & g2 & E1 & E2 & G2 & FL & FB).
    rewrite E1. cbn [bind snd fst]. rewrite E2. cbn [bind]. eexists. split; [reflexivity|]. split; [exact G2|]. unfold keyed4. cbn [bc_encr bc_rk]. split; [reflexivity|].
    split; [exists m; apply words_from_keys; [rewrite FL; unfold len; lia|lia|exact FB]|]. unfold shx_extended, words_from. fold cs r. replace (16 * (r + 1))%nat with len by (unfold len; lia). reflexivity.
  Qed.
  Lemma shx_both : (forall cs a, bcalls_ok (serpent_with (shx_extended (xg_name x) F)) iok false cs -> exists rs, bhistory (shx_ops (Some x)) (RHX_new g0) cs = Ok rs /\ bexpected (serpent_with (shx_extended (xg_name x) F)) a cs rs) /\
    inverts (serpent_with (shx_extended (xg_name x) F)) iok.
  Proof.
    split; [intros cs a; apply (shx_history (Some x) (shx_extended (xg_name x) F) iok GR); [intros o enc key info; apply shx_ext_expand|exact Hg0]|].
    apply ser_inverts. intros key info L B BI HI. destruct (shx_ext_expand (RHX_new g0) true key info Hg0 B BI HI L) as (o' & _ & _ & K). exact (keyed_good o' true _ K).
  Qed.
End extended.
