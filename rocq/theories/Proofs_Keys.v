From Verif Require Import Base BaseLemmas Spec_Common Proofs_Common Model_IntegerTools Model_Modes Proofs_IntegerTools Proofs_Windows Model_Keys Spec_Keys.
Open Scope Z_scope.

Lemma AppendVector_ok inp out : AppendVector inp out = Ok (out ++ inp).
Proof.
  unfold AppendVector. rewrite wcopy_ok by (rewrite ?app_length, ?length_zeros; lia). f_equal. rewrite slice_all by auto.
  unfold splice. rewrite firstn_app, firstn_all, Nat.sub_diag. cbn [firstn]. rewrite app_nil_r. f_equal.
  rewrite skipn_all2 by (rewrite app_length, length_zeros; lia). apply app_nil_r.
Qed.
Lemma AppendByte_ok v out : AppendByte v out = Ok (out ++ [v]).
Proof.
  unfold AppendByte, put. rewrite (proj2 (Nat.ltb_lt _ _)) by (rewrite app_length; cbn [zeros repeat length]; lia). f_equal.
  induction out; cbn [app upd length zeros repeat] in *; [reflexivity|]. f_equal. apply IHout.
Qed.
Lemma le_bytes2 v : 0 <= v < 65536 -> le_bytes 2 v = [v mod 256; v / 256].
Proof. intros H. cbn [le_bytes]. rewrite (Z.mod_small (v / 256)) by lia. reflexivity. Qed.
Lemma app_if (b : bool) (l t : list Z) : (b = false -> l = []) -> (if b then AppendVector l t else Ok t) = Ok (t ++ l).
Proof. intros H. destruct b; [apply AppendVector_ok|]. rewrite H, app_nil_r; auto. Qed.
Lemma len16_small l : Z.of_nat (length l) < 65536 -> len16 l = Z.of_nat (length l).
Proof. intros. unfold len16. apply Z.mod_small. lia. Qed.
Lemma len16_bytes l : Z.of_nat (length l) < 65536 -> le_bytes 2 (len16 l) = size_bytes (length l).
Proof. intros. rewrite len16_small by auto. apply le_bytes2. lia. Qed.
Lemma Serialize_ok k : Z.of_nat (length (sk_key k)) < 65536 -> Z.of_nat (length (sk_iv k)) < 65536 -> Z.of_nat (length (sk_info k)) < 65536 ->
  SymmetricKey_Serialize k = Ok (key_stream (sk_key k) (sk_iv k) (sk_info k)).
Proof.
  intros H1 H2 H3. unfold SymmetricKey_Serialize. cbv zeta. rewrite !AppendVector_ok. cbn [bind]. rewrite !AppendVector_ok. cbn [bind]. rewrite !AppendVector_ok. cbn [bind].
  rewrite app_if. 2:{ intros E. rewrite len16_small in E by auto. destruct (sk_key k); [auto|cbn [length] in E; lia]. }
  cbn [bind]. rewrite app_if. 2:{ intros E. rewrite len16_small in E by auto. destruct (sk_iv k); [auto|cbn [length] in E; lia]. }
  cbn [bind]. rewrite app_if. 2:{ intros E. rewrite len16_small in E by auto. destruct (sk_info k); [auto|cbn [length] in E; lia]. }
  rewrite !len16_bytes by auto. unfold key_stream. cbn [app]. rewrite <- !app_assoc. reflexivity.
Qed.
(** what DeSerialize does on every byte string *)
Lemma read16 s o : bytes s -> (o + 2 <= length s)%nat -> LeBytesTo16 s o = Ok (Z.of_nat (size_at s o)).
Proof.
  intros B L. unfold LeBytesTo16, LeBytesTo. rewrite rd_ok by auto. cbn [bind]. f_equal. unfold size_at, slice.
  destruct (skipn o s) as [|a [|b t]] eqn:E; try (apply (f_equal (@length Z)) in E; rewrite skipn_length in E; cbn [length] in E; lia).
  assert (F : forall i, nth (o + i) s 0 = nth i (skipn o s) 0).
  { clear. intros i. revert s. induction o as [|o IH]; intros s; [reflexivity|]. destruct s; cbn [Nat.add nth skipn]; [destruct i; reflexivity|apply IH]. }
  replace (nth o s 0) with a by (rewrite <- (Nat.add_0_r o), F, E; reflexivity). rewrite F, E. cbn [nth firstn le_val].
  assert (B' := bytes_skipn o s B). rewrite E in B'. inversion B' as [|? ? Ba B2]; subst. inversion B2 as [|? ? Bb _]; subst. red in Ba, Bb. lia.
Qed.
Lemma read16_short s o : (length s < o + 2)%nat -> LeBytesTo16 s o = UB.
Proof. intros L. unfold LeBytesTo16, LeBytesTo, rd. rewrite (proj2 (Nat.leb_gt _ _)) by auto. reflexivity. Qed.
Lemma copy_if s o n : (if 0 <? Z.of_nat n then wcopy s o (zeros n) 0 n else Ok []) = if (n =? 0)%nat then Ok [] else if (o + n <=? length s)%nat then Ok (slice s o n) else UB.
Proof.
  destruct (Nat.eqb_spec n 0) as [->|N]; [reflexivity|]. rewrite (proj2 (Z.ltb_lt _ _)) by lia. destruct (Nat.leb_spec (o + n) (length s)).
  - rewrite wcopy_ok by (rewrite ?length_zeros; lia). f_equal. apply splice_all. rewrite length_slice, length_zeros by auto. reflexivity.
  - unfold wcopy, rd. rewrite (proj2 (Nat.leb_gt _ _)) by auto. reflexivity.
Qed.
Lemma slice0 {A} (s : list A) o : slice s o 0 = []. Proof. reflexivity. Qed.
Lemma DeSerialize_all s : bytes s ->
  let k := size_at s 0 in let v := size_at s 2 in let i := size_at s 4 in
  SymmetricKey_DeSerialize s =
  if (length s <? 6)%nat then UB else
  if (k + v + i =? 0)%nat then Throw InvalidParam else
  if (6 + k + v + i <=? length s)%nat then Ok (SKey (slice s 6 k) (slice s (6 + k) v) (slice s (6 + k + v) i)) else UB.
Proof.
  intros B. cbv zeta. unfold SymmetricKey_DeSerialize. destruct (Nat.ltb_spec (length s) 6) as [S|S].
  - destruct (Nat.lt_ge_cases (length s) 2); [now rewrite (read16_short s 0) by lia|]. rewrite (read16 s 0) by (auto; lia). cbn [bind].
    destruct (Nat.lt_ge_cases (length s) 4); [now rewrite (read16_short s 2) by lia|]. rewrite (read16 s 2) by (auto; lia). cbn [bind]. rewrite (read16_short s 4) by lia. reflexivity.
  - rewrite !read16 by (auto; lia). cbn [bind]. cbv zeta. rewrite !Nat2Z.id.
    generalize (size_at s 0) (size_at s 2) (size_at s 4). intros k v i. rewrite !copy_if. replace (k + 6)%nat with (6 + k)%nat by lia. replace (k + v + 6)%nat with (6 + k + v)%nat by lia.
    rewrite ?copy_if. unfold SymmetricKey_new.
    destruct (Nat.eqb_spec k 0) as [->|K], (Nat.eqb_spec v 0) as [->|V], (Nat.eqb_spec i 0) as [->|I]; rewrite ?slice0;
    repeat match goal with |- context [(?a <=? ?b)%nat] => destruct (Nat.leb_spec a b) end; cbn [bind]; try lia; rewrite ?copy_if;
    repeat match goal with |- context [(?a <=? ?b)%nat] => destruct (Nat.leb_spec a b) end; cbn [bind]; try lia;
    repeat match goal with |- context [(?a =? ?b)%nat] => destruct (Nat.eqb_spec a b) end; cbn [length] in *; try lia; try reflexivity; exfalso;
    match goal with H : context [length (slice _ _ _)] |- _ => revert H end; rewrite ?length_slice by lia; cbn [length]; lia.
Qed.
Lemma key_stream_len k v i : length (key_stream k v i) = (6 + length k + length v + length i)%nat.
Proof. unfold key_stream. rewrite !app_length. cbn [size_bytes length]. lia. Qed.
Lemma size_byte_ok n : Z.of_nat n < 65536 -> bytes (size_bytes n).
Proof. intros. unfold size_bytes. repeat (apply Forall_cons; [red; lia|]). apply Forall_nil. Qed.
Lemma key_stream_bytes k v i : Z.of_nat (length k) < 65536 -> Z.of_nat (length v) < 65536 -> Z.of_nat (length i) < 65536 -> bytes k -> bytes v -> bytes i -> bytes (key_stream k v i).
Proof. intros. unfold key_stream. rewrite !bytes_app. auto 10 using size_byte_ok. Qed.
Lemma size_at_stream k v i r : Z.of_nat (length k) < 65536 -> Z.of_nat (length v) < 65536 -> Z.of_nat (length i) < 65536 ->
  size_at (key_stream k v i ++ r) 0 = length k /\ size_at (key_stream k v i ++ r) 2 = length v /\ size_at (key_stream k v i ++ r) 4 = length i.
Proof. intros. unfold size_at, key_stream, size_bytes. cbn [app nth Nat.add]. lia. Qed.
Lemma slice_mid {A} (a b c : list A) o n : o = length a -> n = length b -> slice (a ++ b ++ c) o n = b.
Proof. intros -> ->. unfold slice. rewrite skipn_app, skipn_all, Nat.sub_diag. cbn [skipn app]. rewrite firstn_app, firstn_all, Nat.sub_diag. cbn [firstn]. apply app_nil_r. Qed.
Lemma round_trip k v i r : Z.of_nat (length k) < 65536 -> Z.of_nat (length v) < 65536 -> Z.of_nat (length i) < 65536 -> bytes k -> bytes v -> bytes i -> bytes r ->
  (length k + length v + length i <> 0)%nat -> SymmetricKey_DeSerialize (key_stream k v i ++ r) = Ok (SKey k v i).
Proof.
  intros H1 H2 H3 B1 B2 B3 B4 N. rewrite DeSerialize_all by (apply bytes_app; split; auto using key_stream_bytes).
  destruct (size_at_stream k v i r H1 H2 H3) as (E1 & E2 & E3). rewrite E1, E2, E3. rewrite app_length, key_stream_len.
  destruct (Nat.ltb_spec (6 + length k + length v + length i + length r) 6); [lia|]. destruct (Nat.eqb_spec (length k + length v + length i) 0); [lia|].
  destruct (Nat.leb_spec (6 + length k + length v + length i) (6 + length k + length v + length i + length r)); [|lia].
  f_equal. unfold key_stream. f_equal.
  - rewrite !app_assoc. rewrite <- (app_assoc _ i r). rewrite <- (app_assoc _ v). rewrite <- (app_assoc _ k). apply slice_mid; reflexivity.
  - rewrite !app_assoc. rewrite <- (app_assoc _ i r). rewrite <- (app_assoc _ v). apply slice_mid; [|reflexivity]. rewrite !app_length. reflexivity.
  - rewrite !app_assoc. rewrite <- (app_assoc _ i r). apply slice_mid; [|reflexivity]. rewrite !app_length. cbn [size_bytes length]. lia.
Qed.
(** sizes that do not fit two bytes *)
Lemma too_long key j : length key = (256 * 256 + j)%nat -> (0 < j < 256 * 256)%nat -> bytes key ->
  exists s, SymmetricKey_Serialize (SKey key [] []) = Ok s /\ SymmetricKey_DeSerialize s = Ok (SKey (firstn j key) [] []).
Proof.
  intros L J B. unfold SymmetricKey_Serialize. cbv zeta. cbn [sk_key sk_iv sk_info]. rewrite !AppendVector_ok. cbn [bind]. rewrite !AppendVector_ok. cbn [bind]. rewrite !AppendVector_ok. cbn [bind].
  assert (E : len16 key = Z.of_nat j). { unfold len16. rewrite L. replace (Z.of_nat (256 * 256 + j)) with (Z.of_nat j + 1 * 2 ^ 16) by lia. rewrite Z.mod_add by lia. apply Z.mod_small. lia. }
  rewrite E. rewrite (proj2 (Z.ltb_lt 0 (Z.of_nat j))) by lia. rewrite AppendVector_ok. cbn [bind].
  change (len16 []) with 0. change (0 <? 0) with false. cbn iota. eexists. split; [reflexivity|]. cbn [app].
  rewrite <- (firstn_skipn j key). assert (Lj : length (firstn j key) = j) by (rewrite firstn_length; lia).
  pose proof (round_trip (firstn j key) [] [] (skipn j key)) as R. cbn [length] in R. rewrite Lj in R.
  assert (B1 := bytes_firstn j key B). assert (B2 := bytes_skipn j key B). specialize (R ltac:(lia) ltac:(lia) ltac:(lia) B1 (Forall_nil _) (Forall_nil _) B2 ltac:(lia)).
  rewrite firstn_skipn. revert R. unfold key_stream. cbn [length]. rewrite Lj, !app_nil_r, <- !app_assoc. rewrite firstn_skipn. rewrite le_bytes2 by lia. exact (fun R => R).
Qed.
Lemma too_long_exact key iv : length key = (256 * 256)%nat -> (0 < length iv < 256 * 256)%nat -> bytes key -> bytes iv ->
  exists s, SymmetricKey_Serialize (SKey key iv []) = Ok s /\ SymmetricKey_DeSerialize s = Ok (SKey [] iv []).
Proof.
  intros L J B Bv. unfold SymmetricKey_Serialize. cbv zeta. cbn [sk_key sk_iv sk_info]. rewrite !AppendVector_ok. cbn [bind]. rewrite !AppendVector_ok. cbn [bind]. rewrite !AppendVector_ok. cbn [bind].
  assert (E : len16 key = 0). { unfold len16. rewrite L. reflexivity. }
  rewrite E. change (0 <? 0) with false. cbn iota. cbn [bind]. rewrite (len16_small iv) by lia. rewrite (proj2 (Z.ltb_lt 0 (Z.of_nat (length iv)))) by lia. rewrite AppendVector_ok. cbn [bind].
  change (len16 []) with 0. change (0 <? 0) with false. cbn iota. eexists. split; [reflexivity|].
  pose proof (round_trip [] iv [] []) as R. cbn [length] in R. specialize (R ltac:(lia) ltac:(lia) ltac:(lia) (Forall_nil _) Bv (Forall_nil _) (Forall_nil _) ltac:(lia)).
  revert R. unfold key_stream. cbn [length app]. rewrite !app_nil_r. rewrite (le_bytes2 (Z.of_nat (length iv))) by lia. exact (fun R => R).
Qed.

(** ** AsymmetricKey *)
Lemma asym_serialize k : is_byte (ak_prim k) -> is_byte (ak_class k) -> is_byte (ak_params k) ->
  AsymmetricKey_Serialize k = Ok (asym_stream (ak_poly k) (ak_prim k) (ak_class k) (ak_params k)).
Proof.
  intros H1 H2 H3. unfold AsymmetricKey_Serialize. rewrite AppendByte_ok. cbn [bind]. rewrite AppendByte_ok. cbn [bind]. rewrite AppendByte_ok. cbn [bind]. rewrite AppendVector_ok.
  unfold u8. unfold is_byte in *. rewrite !Z.mod_small by (cbn; lia). reflexivity.
Qed.
Lemma asym_all s : AsymmetricKey_DeSerialize s =
  if (length s <? 3)%nat then UB else
  if (length s =? 3)%nat || (nth 0 s 0 =? 0) || (nth 1 s 0 =? 0) || (nth 2 s 0 =? 0) then Throw InvalidParam
  else Ok (AKey (skipn 3 s) (nth 2 s 0) (nth 0 s 0) (nth 1 s 0)).
Proof.
  unfold AsymmetricKey_DeSerialize. destruct s as [|a [|b [|c t]]]; try reflexivity.
  rewrite rd_ok by (cbn [length]; lia). cbn [bind]. unfold get. cbn [nth_error bind]. unfold AsymmetricKey_new. cbn [nth skipn length Nat.ltb Nat.leb].
  unfold slice. cbn [skipn]. rewrite firstn_all2 by (cbn [length]; lia).
  replace (S (S (S (length t))) =? 3)%nat with (length t =? 0)%nat by reflexivity.
  destruct (length t =? 0)%nat, (a =? 0), (b =? 0), (c =? 0); reflexivity.
Qed.

(** ** SymmetricKeySize *)
Lemma AppendValue32_ok v out : AppendValue32 v out = Ok (out ++ le_bytes 4 v).
Proof.
  unfold AppendValue32. rewrite wr_ok by (rewrite app_length, length_zeros, length_le_bytes; lia). f_equal.
  unfold splice. rewrite firstn_app, firstn_all, Nat.sub_diag. cbn [firstn]. rewrite app_nil_r. f_equal.
  rewrite skipn_all2 by (rewrite app_length, length_zeros, length_le_bytes; lia). apply app_nil_r.
Qed.
Lemma keysize_round k v i r : 0 <= k < 2 ^ 32 -> 0 <= v < 2 ^ 32 -> 0 <= i < 2 ^ 32 ->
  exists s, KeySize_ToBytes (KeySize_new k v i) = Ok s /\ length s = 12%nat /\ KeySize_of (s ++ r) = Ok (KSize k v i).
Proof.
  intros. unfold KeySize_ToBytes, KeySize_new. cbn [ks_key ks_iv ks_info]. rewrite AppendValue32_ok. cbn [bind]. rewrite AppendValue32_ok. cbn [bind]. rewrite AppendValue32_ok. rewrite !Z.mod_mod by lia.
  rewrite !Z.mod_small by lia. eexists. split; [reflexivity|]. split; [rewrite !app_length, !length_le_bytes; reflexivity|].
  unfold KeySize_of. rewrite (proj2 (Nat.leb_le _ _)) by (rewrite !app_length, !length_le_bytes; lia). unfold LeBytesTo32, LeBytesTo.
  rewrite !rd_ok by (rewrite !app_length, !length_le_bytes; cbn [length]; lia). cbn [bind].
  cbn [app]. f_equal. assert (P : forall x, 0 <= x < 2 ^ 32 -> le_val (le_bytes 4 x) = x) by (intros; rewrite le_val_le_bytes; apply Z.mod_small; lia).
  f_equal.
  - rewrite <- !app_assoc. rewrite (slice_mid (le_bytes 4 i) (le_bytes 4 k)) by (rewrite ?length_le_bytes; auto). auto.
  - rewrite <- (app_assoc _ (le_bytes 4 v) r). rewrite (slice_mid (le_bytes 4 i ++ le_bytes 4 k) (le_bytes 4 v)) by (rewrite ?app_length, ?length_le_bytes; auto). auto.
  - rewrite <- !app_assoc. match goal with |- context [slice (?a ++ ?b) 0 4] => change (slice (a ++ b) 0 4) with (slice ([] ++ a ++ b) 0 4) end. rewrite (slice_mid [] (le_bytes 4 i)) by (rewrite ?length_le_bytes; auto). auto.
Qed.

(** ** SymmetricSecureKey *)
Section secure.
Context {P : Type} (isnone : P -> bool) (default : P) (sys : P -> list Z -> res (list Z))
  (enc : P -> list Z -> list Z -> res (list Z)) (dec : P -> list Z -> list Z -> res (list Z)).
Hypothesis ED : forall p seed pt ct, enc p seed pt = Ok ct -> dec p seed ct = Ok pt /\ (length pt <= length ct)%nat.
Lemma state_ok k v i : SecureKey_state k v i = Ok (k ++ v ++ i).
Proof.
  unfold SecureKey_state. cbv zeta. rewrite wcopy_ok by (rewrite ?length_zeros; lia). cbn [bind]. rewrite slice_all by auto.
  assert (E1 : splice (zeros (length k + length v + length i)) 0 k = k ++ zeros (length v + length i)).
  { unfold splice. cbn [firstn app]. f_equal. unfold zeros. rewrite Nat.add_0_l, <- Nat.add_assoc, repeat_app, skipn_app, repeat_length, Nat.sub_diag, skipn_all2 by (rewrite repeat_length; lia). reflexivity. }
  rewrite E1. rewrite wcopy_ok by (rewrite ?app_length, ?length_zeros; lia). cbn [bind]. rewrite slice_all by auto.
  assert (E2 : splice (k ++ zeros (length v + length i)) (length k) v = k ++ v ++ zeros (length i)).
  { unfold splice. rewrite firstn_app, firstn_all, Nat.sub_diag. cbn [firstn]. rewrite app_nil_r. f_equal. f_equal.
    rewrite skipn_app, skipn_all2 by lia. cbn [app]. replace (length k + length v - length k)%nat with (length v) by lia. unfold zeros. rewrite repeat_app, skipn_app, repeat_length, Nat.sub_diag, skipn_all2 by (rewrite repeat_length; lia). reflexivity. }
  rewrite E2. rewrite wcopy_ok by (rewrite ?app_length, ?length_zeros; lia). rewrite slice_all by auto. f_equal.
  rewrite app_assoc. unfold splice. rewrite <- app_length, firstn_app, firstn_all, Nat.sub_diag. cbn [firstn]. rewrite app_nil_r, <- app_assoc. f_equal. f_equal.
  rewrite skipn_all2 by (rewrite !app_length, length_zeros; lia). apply app_nil_r.
Qed.
Lemma size32_small l : Z.of_nat (length l) < 2 ^ 32 -> size32 l = length l.
Proof. intros. unfold size32. rewrite Z.mod_small by lia. apply Nat2Z.id. Qed.
Definition holds (s : sskey P) (k v i : list Z) (p : P) (salt : list Z) : Prop :=
  exists seed, sys p salt = Ok seed /\ enc p seed (k ++ v ++ i) = Ok (ss_state s) /\ ss_ksize s = length k /\ ss_isize s = length v /\ ss_fsize s = length i /\ ss_policy s = p /\ ss_salt s = salt.
Lemma encipher_holds k v i p salt s : Z.of_nat (length k) < 2 ^ 32 -> Z.of_nat (length v) < 2 ^ 32 -> Z.of_nat (length i) < 2 ^ 32 ->
  SecureKey_Encipher sys enc (SSKey salt (k ++ v ++ i) (size32 k) (size32 v) (size32 i) p) = Ok s -> holds s k v i p salt.
Proof.
  intros H1 H2 H3. unfold SecureKey_Encipher. cbn [ss_policy ss_salt ss_state ss_ksize ss_isize ss_fsize]. rewrite !size32_small by auto. intros E.
  destruct (sys p salt) as [seed| |] eqn:ES; try discriminate. cbn [bind] in E. destruct (enc p seed (k ++ v ++ i)) as [ct| |] eqn:EE; try discriminate. cbn [bind] in E. inversion E; subst s. clear E.
  exists seed. cbn. auto 10.
Qed.
Lemma extract_ok s k v i p salt : holds s k v i p salt -> forall a b c, k ++ v ++ i = a ++ b ++ c -> SecureKey_Extract sys dec s (length a) (length b) = Ok b.
Proof.
  intros (seed & ES & EE & _ & _ & _ & EP & EA) a b c E. unfold SecureKey_Extract. rewrite EP, EA, ES. cbn [bind]. destruct (ED _ _ _ _ EE) as (D & L). rewrite D. cbn [bind]. rewrite E in L |- *.
  rewrite wr_ok by (rewrite length_zeros; lia). cbn [bind]. rewrite !app_length in L.
  assert (X : exists z, splice (zeros (length (ss_state s))) 0 (a ++ b ++ c) = a ++ b ++ z).
  { unfold splice. cbn [firstn app]. eexists. rewrite <- !app_assoc. reflexivity. }
  destruct X as (z & X). assert (X2 := f_equal (@length Z) X). rewrite length_splice in X2 by (rewrite length_zeros, !app_length; lia). rewrite length_zeros, !app_length in X2.
  rewrite X. rewrite wcopy_ok by (rewrite ?app_length, ?length_zeros; lia). rewrite slice_mid by auto. f_equal. apply splice_all. rewrite length_zeros. reflexivity.
Qed.
Lemma accessors s k v i p salt : holds s k v i p salt -> SecureKey_Key sys dec s = Ok k /\ SecureKey_IV sys dec s = Ok v /\ SecureKey_Info sys dec s = Ok i.
Proof.
  intros H. assert (H' := H). destruct H' as (seed & _ & _ & E1 & E2 & E3 & _). unfold SecureKey_Key, SecureKey_IV, SecureKey_Info. rewrite E1, E2, E3. repeat split.
  - apply (extract_ok s k v i p salt H [] k (v ++ i)). reflexivity.
  - apply (extract_ok s k v i p salt H k v i). reflexivity.
  - rewrite <- app_length. apply (extract_ok s k v i p salt H (k ++ v) i []). rewrite app_nil_r, app_assoc. reflexivity.
Qed.
Lemma new_holds k v i s : Z.of_nat (length k) < 2 ^ 32 -> Z.of_nat (length v) < 2 ^ 32 -> Z.of_nat (length i) < 2 ^ 32 ->
  SecureKey_new default sys enc k v i = Ok s -> holds s k v i default [].
Proof. intros H1 H2 H3. unfold SecureKey_new. destruct (_ =? 0)%nat; [discriminate|]. rewrite state_ok. cbn [bind]. apply encipher_holds; auto. Qed.
Lemma salted_holds k v i p salt s : Z.of_nat (length k) < 2 ^ 32 -> Z.of_nat (length v) < 2 ^ 32 -> Z.of_nat (length i) < 2 ^ 32 ->
  SecureKey_new_salted isnone sys enc k v i p salt = Ok s -> holds s k v i p salt.
Proof. intros H1 H2 H3. unfold SecureKey_new_salted. destruct (_ && _); [|discriminate]. rewrite state_ok. cbn [bind]. apply encipher_holds; auto. Qed.
Lemma clone_salted k v i p salt s : Z.of_nat (length k) < 2 ^ 32 -> Z.of_nat (length v) < 2 ^ 32 -> Z.of_nat (length i) < 2 ^ 32 ->
  SecureKey_new_salted isnone sys enc k v i p salt = Ok s -> SecureKey_Clone isnone sys enc dec s = Ok s.
Proof.
  intros H1 H2 H3 E. assert (H := salted_holds _ _ _ _ _ _ H1 H2 H3 E). destruct (accessors _ _ _ _ _ _ H) as (A1 & A2 & A3).
  unfold SecureKey_Clone. rewrite A1, A2, A3. cbn [bind]. destruct H as (_ & _ & _ & _ & _ & _ & -> & ->). exact E.
Qed.
Lemma clone_unsalted k v i s : Z.of_nat (length k) < 2 ^ 32 -> Z.of_nat (length v) < 2 ^ 32 -> Z.of_nat (length i) < 2 ^ 32 ->
  SecureKey_new default sys enc k v i = Ok s -> SecureKey_Clone isnone sys enc dec s = Throw InvalidParam.
Proof.
  intros H1 H2 H3 E. assert (H := new_holds _ _ _ _ H1 H2 H3 E). destruct (accessors _ _ _ _ _ _ H) as (A1 & A2 & A3).
  unfold SecureKey_Clone. rewrite A1, A2, A3. cbn [bind]. destruct H as (_ & _ & _ & _ & _ & _ & -> & ->). unfold SecureKey_new_salted. cbn [length Nat.eqb negb andb]. rewrite Bool.andb_false_r. reflexivity.
Qed.
Lemma secure_serialize s k v i p salt : holds s k v i p salt -> SecureKey_Serialize sys dec s = SymmetricKey_Serialize (SKey k v i).
Proof. intros H. destruct (accessors _ _ _ _ _ _ H) as (A1 & A2 & A3). unfold SecureKey_Serialize. rewrite A1, A2, A3. reflexivity. Qed.
End secure.
