From Verif Require Import Base BaseLemmas Model_IntegerTools Model_Keys Spec_Keys Proofs_Keys.
Open Scope Z_scope.

Lemma c43_format key iv info : (length key < 256 * 256)%nat -> (length iv < 256 * 256)%nat -> (length info < 256 * 256)%nat ->
  SymmetricKey_Serialize (SKey key iv info) = Ok (key_stream key iv info).
Proof. intros. apply (Serialize_ok (SKey key iv info)); cbn [sk_key sk_iv sk_info]; lia. Qed.
Lemma c43_round_trip key iv info rest s : bytes key -> bytes iv -> bytes info -> bytes rest ->
  (length key < 256 * 256)%nat -> (length iv < 256 * 256)%nat -> (length info < 256 * 256)%nat -> (0 < length key + length iv + length info)%nat ->
  SymmetricKey_Serialize (SKey key iv info) = Ok s -> SymmetricKey_DeSerialize (s ++ rest) = Ok (SKey key iv info).
Proof. intros B1 B2 B3 B4 L1 L2 L3 N E. rewrite c43_format in E by auto. inversion E; subst. apply round_trip; auto; lia. Qed.
Lemma c43_injective k1 v1 i1 k2 v2 i2 s : bytes k1 -> bytes v1 -> bytes i1 -> bytes k2 -> bytes v2 -> bytes i2 ->
  Forall (fun l => length l < 256 * 256)%nat [k1; v1; i1; k2; v2; i2] ->
  SymmetricKey_Serialize (SKey k1 v1 i1) = Ok s -> SymmetricKey_Serialize (SKey k2 v2 i2) = Ok s -> k1 = k2 /\ v1 = v2 /\ i1 = i2.
Proof.
  intros B1 B2 B3 B4 B5 B6 F E1 E2. rewrite Forall_forall in F.
  assert (H1 := F k1 ltac:(cbn; auto 10)). assert (H2 := F v1 ltac:(cbn; auto 10)). assert (H3 := F i1 ltac:(cbn; auto 10)).
  assert (H4 := F k2 ltac:(cbn; auto 10)). assert (H5 := F v2 ltac:(cbn; auto 10)). assert (H6 := F i2 ltac:(cbn; auto 10)). clear F.
  assert (S1 := E1). assert (S2 := E2). rewrite c43_format in S1 by auto. rewrite c43_format in S2 by auto. assert (L : length (key_stream k1 v1 i1) = length (key_stream k2 v2 i2)) by (f_equal; congruence). rewrite !key_stream_len in L.
  destruct (Nat.eq_dec (length k1 + length v1 + length i1) 0) as [ZZ|N].
  - assert (X : forall l : list Z, length l = 0%nat -> l = []) by (intros [|]; [auto|discriminate]). rewrite (X k1), (X v1), (X i1), (X k2), (X v2), (X i2) by lia. auto.
  - assert (R1 := c43_round_trip k1 v1 i1 [] s B1 B2 B3 (Forall_nil _) H1 H2 H3 ltac:(lia) E1).
    assert (R2 := c43_round_trip k2 v2 i2 [] s B4 B5 B6 (Forall_nil _) H4 H5 H6 ltac:(lia) E2). rewrite R1 in R2. inversion R2; auto.
Qed.
Lemma c43_every_stream s : bytes s ->
  let k := size_at s 0 in let v := size_at s 2 in let i := size_at s 4 in
  (SymmetricKey_DeSerialize s = UB <-> (length s < 6 \/ 0 < k + v + i /\ length s < 6 + k + v + i)%nat) /\
  (SymmetricKey_DeSerialize s = Throw InvalidParam <-> (6 <= length s /\ k + v + i = 0)%nat) /\
  (forall key iv info, SymmetricKey_DeSerialize s = Ok (SKey key iv info) <->
     (0 < k + v + i)%nat /\ length key = k /\ length iv = v /\ length info = i /\
     exists h rest, length h = 6%nat /\ s = h ++ key ++ iv ++ info ++ rest).
Proof.
  intros B. cbv zeta. pose proof (DeSerialize_all s B) as E. cbv zeta in E. rewrite E. clear E. generalize (size_at s 0) (size_at s 2) (size_at s 4). intros k v i.
  destruct (Nat.ltb_spec (length s) 6); [|destruct (Nat.eqb_spec (k + v + i) 0); [|destruct (Nat.leb_spec (6 + k + v + i) (length s))]].
  - split; [split; [lia|auto]|]. split; [split; [discriminate|lia]|]. intros key iv info. split; [discriminate|]. intros (_ & _ & _ & _ & h & r & L & ->). rewrite !app_length in *. lia.
  - split; [split; [discriminate|lia]|]. split; [split; [lia|auto]|]. intros key iv info. split; [discriminate|lia].
  - split; [split; [discriminate|lia]|]. split; [split; [discriminate|lia]|]. intros key iv info. split.
    + intros E; inversion E; subst. split; [lia|]. rewrite !length_slice by lia. split; [auto|]. split; [auto|]. split; [auto|].
      exists (firstn 6 s), (skipn (6 + k + v + i) s). split; [rewrite firstn_length; lia|]. unfold slice.
      rewrite <- (firstn_skipn 6 s) at 1. f_equal. rewrite <- (firstn_skipn k (skipn 6 s)) at 1. f_equal. rewrite skipn_skipn.
      rewrite <- (firstn_skipn v (skipn _ s)) at 1. replace (k + 6)%nat with (6 + k)%nat by lia. f_equal. rewrite skipn_skipn. replace (v + (6 + k))%nat with (6 + k + v)%nat by lia.
      rewrite <- (firstn_skipn i (skipn _ s)) at 1. f_equal. rewrite skipn_skipn. f_equal. lia.
    + intros (_ & L1 & L2 & L3 & h & r & L & E). subst s. f_equal. f_equal.
      * apply slice_mid; auto.
      * rewrite app_assoc. apply slice_mid; auto. rewrite app_length. lia.
      * rewrite app_assoc, (app_assoc _ iv). apply slice_mid; auto. rewrite !app_length. lia.
  - split; [split; [lia|auto]|]. split; [split; [discriminate|lia]|]. intros key iv info. split; [discriminate|]. intros (_ & L1 & L2 & L3 & h & r & L & ->). rewrite !app_length in *. lia.
Qed.
Lemma c43_long key j : bytes key -> (0 < j < 256 * 256)%nat -> length key = (256 * 256 + j)%nat ->
  exists s, SymmetricKey_Serialize (SKey key [] []) = Ok s /\ SymmetricKey_DeSerialize s = Ok (SKey (firstn j key) [] []).
Proof. intros. apply too_long; auto. Qed.
Lemma c43_exact key iv : bytes key -> bytes iv -> length key = (256 * 256)%nat -> (0 < length iv < 256 * 256)%nat ->
  exists s, SymmetricKey_Serialize (SKey key iv []) = Ok s /\ SymmetricKey_DeSerialize s = Ok (SKey [] iv []).
Proof. intros. apply too_long_exact; auto. Qed.
Lemma c43_long_case : bytes (repeat 7 (256 * 256 + 5)) /\ length (repeat 7 (256 * 256 + 5)) = (256 * 256 + 5)%nat.
Proof. split; [apply Forall_forall; intros x H; apply repeat_spec in H; subst; red; lia|apply repeat_length]. Qed.
Lemma c43_sizes k v i rest : 0 <= k < 2 ^ 32 -> 0 <= v < 2 ^ 32 -> 0 <= i < 2 ^ 32 ->
  exists s, KeySize_ToBytes (KeySize_new k v i) = Ok s /\ length s = 12%nat /\ KeySize_of (s ++ rest) = Ok (KSize k v i) /\
  forall cut, (length cut < 12)%nat -> KeySize_of cut = Throw InvalidSize.
Proof.
  intros. destruct (keysize_round k v i rest) as (s & E1 & E2 & E3); auto. exists s. split; [auto|]. split; [auto|]. split; [auto|].
  intros cut C. unfold KeySize_of. rewrite (proj2 (Nat.leb_gt _ _)) by lia. reflexivity.
Qed.
Lemma c52_new (poly : list Z) (prim class params : Z) :
  (poly <> [] /\ prim <> 0 /\ class <> 0 /\ params <> 0 -> AsymmetricKey_new poly prim class params = Ok (AKey poly prim class params)) /\
  (poly = [] \/ prim = 0 \/ class = 0 \/ params = 0 -> AsymmetricKey_new poly prim class params = Throw InvalidParam).
Proof.
  unfold AsymmetricKey_new. split.
  - intros (H & A & B & C). rewrite !(proj2 (Z.eqb_neq _ _)) by auto. destruct poly; [congruence|reflexivity].
  - intros [->|[->|[->| ->]]]; cbn [length Nat.eqb Z.eqb negb andb]; rewrite ?Bool.andb_false_r; cbn [andb]; reflexivity.
Qed.
Lemma c52_every_stream s :
  (AsymmetricKey_DeSerialize s = UB <-> (length s < 3)%nat) /\
  (forall class params prim poly, s = class :: params :: prim :: poly ->
     poly <> [] /\ prim <> 0 /\ class <> 0 /\ params <> 0 -> AsymmetricKey_DeSerialize s = Ok (AKey poly prim class params)) /\
  (forall class params prim poly, s = class :: params :: prim :: poly ->
     poly = [] \/ prim = 0 \/ class = 0 \/ params = 0 -> AsymmetricKey_DeSerialize s = Throw InvalidParam).
Proof.
  rewrite asym_all. split; [|split].
  - destruct (Nat.ltb_spec (length s) 3); [split; auto|]. split; [|lia]. destruct (_ || _); discriminate.
  - intros class params prim poly -> (H & A & B & C). cbn [length nth skipn Nat.ltb Nat.leb]. rewrite !(proj2 (Z.eqb_neq _ _)) by auto. destruct poly; [congruence|reflexivity].
  - intros class params prim poly -> H. cbn [length nth skipn Nat.ltb Nat.leb]. destruct H as [->|[->|[->| ->]]]; cbn [length Nat.eqb Z.eqb orb]; rewrite ?Bool.orb_true_r; cbn [orb]; reflexivity.
Qed.
Lemma c52_round_trip poly prim class params k s : is_byte prim -> is_byte class -> is_byte params ->
  AsymmetricKey_new poly prim class params = Ok k -> AsymmetricKey_Serialize k = Ok s -> s = asym_stream poly prim class params /\ AsymmetricKey_DeSerialize s = Ok k.
Proof.
  intros B1 B2 B3 E1 E2. assert (K : k = AKey poly prim class params). { unfold AsymmetricKey_new in E1. destruct (_ && _); [|discriminate]. inversion E1; reflexivity. }
  subst k. rewrite asym_serialize in E2 by auto. cbn [ak_poly ak_prim ak_class ak_params] in E2. inversion E2; subst s. split; [reflexivity|].
  unfold AsymmetricKey_DeSerialize, asym_stream. cbn [app]. rewrite rd_ok by (cbn [length]; lia). cbn [bind]. unfold get. cbn [nth_error bind]. unfold slice. cbn [skipn length Nat.sub]. rewrite Nat.sub_0_r, firstn_all. exact E1.
Qed.
Lemma c55_contents (P : Type) (isnone : P -> bool) (default : P) (sys : P -> list Z -> res (list Z)) (enc dec : P -> list Z -> list Z -> res (list Z)) :
  (forall p seed pt ct, enc p seed pt = Ok ct -> dec p seed ct = Ok pt /\ (length pt <= length ct)%nat) ->
  forall (key iv info salt : list Z) (pol : P) (s : sskey P),
  Z.of_nat (length key) < 2 ^ 32 -> Z.of_nat (length iv) < 2 ^ 32 -> Z.of_nat (length info) < 2 ^ 32 ->
  SecureKey_new default sys enc key iv info = Ok s \/ SecureKey_new_salted isnone sys enc key iv info pol salt = Ok s ->
  SecureKey_Key sys dec s = Ok key /\ SecureKey_IV sys dec s = Ok iv /\ SecureKey_Info sys dec s = Ok info /\
  SecureKey_Serialize sys dec s = SymmetricKey_Serialize (SKey key iv info).
Proof.
  intros ED key iv info salt pol s L1 L2 L3 H. assert (X : exists p sa, holds sys enc s key iv info p sa).
  { destruct H as [H|H]; [eapply new_holds in H|eapply salted_holds in H]; eauto. }
  destruct X as (p & sa & X). assert (Y : SecureKey_Key sys dec s = Ok key /\ SecureKey_IV sys dec s = Ok iv /\ SecureKey_Info sys dec s = Ok info) by (eapply accessors; eauto). destruct Y as (A & B & C). split; [auto|]. split; [auto|]. split; [auto|].
  eapply secure_serialize; eauto.
Qed.
Lemma c55_clone (P : Type) (isnone : P -> bool) (sys : P -> list Z -> res (list Z)) (enc dec : P -> list Z -> list Z -> res (list Z)) :
  (forall p seed pt ct, enc p seed pt = Ok ct -> dec p seed ct = Ok pt /\ (length pt <= length ct)%nat) ->
  forall (key iv info salt : list Z) (pol : P) (s : sskey P),
  Z.of_nat (length key) < 2 ^ 32 -> Z.of_nat (length iv) < 2 ^ 32 -> Z.of_nat (length info) < 2 ^ 32 ->
  SecureKey_new_salted isnone sys enc key iv info pol salt = Ok s -> SecureKey_Clone isnone sys enc dec s = Ok s.
Proof. intros ED key iv info salt pol s L1 L2 L3 E. exact (clone_salted isnone pol sys enc dec ED key iv info pol salt s L1 L2 L3 E). Qed.
Lemma c55_clone_unsalted (P : Type) (isnone : P -> bool) (default : P) (sys : P -> list Z -> res (list Z)) (enc dec : P -> list Z -> list Z -> res (list Z)) :
  (forall p seed pt ct, enc p seed pt = Ok ct -> dec p seed ct = Ok pt /\ (length pt <= length ct)%nat) ->
  forall (key iv info : list Z) (s : sskey P),
  Z.of_nat (length key) < 2 ^ 32 -> Z.of_nat (length iv) < 2 ^ 32 -> Z.of_nat (length info) < 2 ^ 32 ->
  SecureKey_new default sys enc key iv info = Ok s -> SecureKey_Clone isnone sys enc dec s = Throw InvalidParam.
Proof. intros ED key iv info s L1 L2 L3 E. exact (clone_unsalted isnone default sys enc dec ED key iv info s L1 L2 L3 E). Qed.
(** a toy cipher for the example *)
Definition toy_enc (p : bool) (seed pt : list Z) : res (list Z) := Ok (map (fun x => Z.lxor x (hd 0 seed)) pt ++ [1; 2]).
Definition toy_dec (p : bool) (seed ct : list Z) : res (list Z) := Ok (map (fun x => Z.lxor x (hd 0 seed)) (firstn (length ct - 2) ct)).
Lemma c55_case : (forall (p : bool) seed pt ct, toy_enc p seed pt = Ok ct -> toy_dec p seed ct = Ok pt /\ (length pt <= length ct)%nat) /\
  exists s, SecureKey_new_salted (fun _ => false) (fun _ _ => Ok [85; 3]) toy_enc [1; 2; 3] [4] [5] true [9] = Ok s.
Proof.
  split; [|eexists; reflexivity]. intros p seed pt ct E. inversion E; subst. unfold toy_dec. rewrite app_length, map_length. cbn [length]. split; [|lia].
  replace (length pt + 2 - 2)%nat with (length pt) by lia. rewrite firstn_app, map_length, Nat.sub_diag. cbn [firstn]. rewrite app_nil_r. rewrite firstn_all2 by (rewrite map_length; lia). rewrite map_map. f_equal.
  rewrite <- (map_id pt) at 2. apply map_ext. intros x. rewrite Z.lxor_assoc, Z.lxor_nilpotent. apply Z.lxor_0_r.
Qed.
