From Coq Require Import String Ascii.
From Verif Require Import Base BaseLemmas Spec_Common Proofs_Common Model_IntegerTools Model_Modes Model_Absorb Model_Keccak Model_Keys Model_AsymmetricSecureKey Model_SHAKE.
From Verif Require Import Spec_Keccak Session_Digest Session_KMAC Session_SHAKE Proofs_Windows Proofs_SHAKE Model_SymKeyGen Spec_SymKeyGen.
Open Scope Z_scope.

Definition cust_of (t : providers) (m : Model_AsymmetricSecureKey.shake) : list Z := generator_name ++ provider_name t ++ shake_name m.
Definition name_str (m : Model_AsymmetricSecureKey.shake) : string := match m with SHAKE256 => "SHAKE256" | SHAKE512 => "SHAKE512" end.
Lemma cust_text t m : cust_of t m = text ("SymmetricKeyGenerator" ++ called t ++ name_str m).
Proof. destruct t, m; reflexivity. Qed.
Lemma cust_bytes t m : bytes (cust_of t m).
Proof. destruct t, m; repeat constructor; unfold is_byte; lia. Qed.
Lemma cust_len t m : (32 <= length (cust_of t m) <= 33)%nat.
Proof. destruct t, m; cbn; lia. Qed.
Lemma cust_fits t m : fits_block (shake_rate m) [] (cust_of t m).
Proof. destruct t, m; vm_compute; lia. Qed.
Lemma mode_strength p : strength p = (snd (generator_mode p), shake_rate (fst (generator_mode p)), name_str (fst (generator_mode p))).
Proof. destruct p; reflexivity. Qed.
Lemma instance_used M t : t <> PNone -> ProviderFromName_GetInstance M t = Ok (used M t).
Proof. destruct t; [congruence|..]; intros _; reflexivity. Qed.
Lemma rate_range m : (11 <= shake_rate m <= 200)%nat.
Proof. destruct m; cbn; lia. Qed.
Lemma started M g c : machine_ok M -> exists seed o, mc_bytes M (used M (kg_prov g)) c (snd (generator_mode (kg_pol g))) = Ok seed /\
  SHAKE_Initialize (shake_rate (fst (generator_mode (kg_pol g)))) SHAKE_new seed (cust_of (used M (kg_prov g)) (fst (generator_mode (kg_pol g)))) [] = Ok o /\
  sabs (shake_rate (fst (generator_mode (kg_pol g)))) o (Some (seed, cust_of (used M (kg_prov g)) (fst (generator_mode (kg_pol g))), [], 0%nat, 0%nat)).
Proof.
  intros HM. destruct (HM (used M (kg_prov g)) c (snd (generator_mode (kg_pol g)))) as (seed & E & B & L). set (m := fst (generator_mode (kg_pol g))). set (t := used M (kg_prov g)) in *.
  assert (LS : (4 <= length seed)%nat) by (rewrite L; destruct (kg_pol g); cbn; lia). pose proof (cust_len t m) as LC.
  destruct (SHAKE_Init_ok (shake_rate m) (rate_range m) SHAKE_new None seed (cust_of t m) [] eq_refl) as (o & EO & HO); [|exact LS|lia|exists seed, o; auto].
  cbn [scall_ok]. split; [exact B|]. split; [apply cust_bytes|]. split; [constructor|]. split; [unfold short; lia|]. split; [unfold short; cbn [length]; lia|]. apply cust_fits.
Qed.
Lemma generate_ok M g c out oo n : machine_ok M -> kg_prov g <> PNone -> (oo + n <= length out)%nat -> not_too_long g n ->
  exists x, generate M g c out oo n = Ok (S c, splice out oo x) /\ length x = n /\ output_of M g c n x.
Proof.
  intros HM HP LO NT. unfold not_too_long in NT. rewrite mode_strength in NT. cbn [fst snd] in NT. unfold generate, output_of. rewrite mode_strength. destruct (started M g c HM) as (seed & o & ES & EO & HO).
  destruct (generator_mode (kg_pol g)) as [m klen]. cbn [fst snd] in *. rewrite instance_used by auto. cbn [bind]. rewrite ES. cbn [bind].
  fold (cust_of (used M (kg_prov g)) m). rewrite EO. cbn [bind].
  destruct (SHAKE_Gen_ok (shake_rate m) (rate_range m) o _ _ _ _ _ out oo n HO LO) as (o' & EG & LG & _).
  { cbn [Nat.add]. rewrite Nat2Z.inj_div. exact NT. }
  rewrite EG. cbn [bind snd Nat.mul Nat.add] in *. rewrite skipn_O in *. eexists. split; [reflexivity|]. split; [exact LG|]. exists seed. split; [reflexivity|]. rewrite cust_text. reflexivity.
Qed.
Lemma generate_zeros M g c n : machine_ok M -> kg_prov g <> PNone -> not_too_long g n -> exists x, generate M g c (zeros n) 0 n = Ok (S c, x) /\ length x = n /\ output_of M g c n x.
Proof.
  intros HM HP NT. destruct (generate_ok M g c (zeros n) 0 n HM HP ltac:(rewrite length_zeros; lia) NT) as (x & E & L & O). exists x. rewrite splice_all in E by (rewrite length_zeros; auto). auto.
Qed.
(** the arrays of a key object *)
Lemma arrays_ok M g c k v i : machine_ok M -> kg_prov g <> PNone -> (0 < k)%nat -> not_too_long g k -> not_too_long g v -> not_too_long g i ->
  exists c' key iv info, key_arrays M g c k v i = Ok (c', (key, iv, info)) /\ length key = k /\ output_of M g c k key /\
    (if (v =? 0)%nat then iv = [] else length iv = v /\ output_of M g (c + 1) v iv) /\
    (if ((v =? 0) || (i =? 0))%nat then info = [] else length info = i /\ output_of M g (c + 2) i info) /\
    c' = (c + 1 + (if v =? 0 then 0 else 1) + (if (v =? 0) || (i =? 0) then 0 else 1))%nat.
Proof.
  intros HM HP Hk NK NV NI. unfold key_arrays. rewrite (proj2 (Nat.eqb_neq k 0)) by lia. cbn [negb guard bind].
  destruct (generate_zeros M g c k HM HP NK) as (xk & EK & LK & OK). rewrite EK.
  destruct (Nat.eqb_spec v 0) as [V|V]; cbn [negb orb].
  - cbn [bind]. exists (S c), xk, [], []. repeat split; auto. lia.
  - destruct (generate_zeros M g (S c) v HM HP NV) as (xv & EV & LV & OV). replace (c + 1)%nat with (S c) by lia. cbn [bind]. rewrite EV.
    destruct (Nat.eqb_spec i 0) as [I|I]; cbn [negb bind].
    + exists (S (S c)), xk, xv, []. repeat split; auto. lia.
    + destruct (generate_zeros M g (S (S c)) i HM HP NI) as (xi & EI & LI & OI). rewrite EI. cbn [bind]. replace (c + 2)%nat with (S (S c)) by lia. exists (S (S (S c))), xk, xv, xi. repeat split; auto. lia.
Qed.
Lemma c82_key M g c k v i : machine_ok M -> kg_prov g <> PNone -> (0 < k)%nat -> not_too_long g k -> not_too_long g v -> not_too_long g i ->
  exists c' key iv info, GetSymmetricKey M g c k v i = Ok (c', SKey key iv info) /\
    (forall (K : Type) (new : list Z -> list Z -> list Z -> res K) s, new key iv info = Ok s -> GetSecureKey new M g c k v i = Ok (c', s)) /\
    length key = k /\ output_of M g c k key /\
    (if (v =? 0)%nat then iv = [] else length iv = v /\ output_of M g (c + 1) v iv) /\
    (if ((v =? 0) || (i =? 0))%nat then info = [] else length info = i /\ output_of M g (c + 2) i info).
Proof.
  intros HM HP Hk NK NV NI. destruct (arrays_ok M g c k v i HM HP Hk NK NV NI) as (c' & key & iv & info & E & L & O & A & B & _). exists c', key, iv, info.
  unfold GetSymmetricKey, GetSecureKey. rewrite E. cbn [bind]. unfold SymmetricKey_new. rewrite (proj2 (Nat.eqb_neq _ 0)) by lia. cbn [bind]. split; [reflexivity|]. split; [intros K new s ->; reflexivity|]. auto.
Qed.
Lemma c82_bytes M g c n : machine_ok M -> kg_prov g <> PNone -> (0 < n)%nat -> not_too_long g n ->
  (exists x, Generate_new M g c n = Ok (S c, x) /\ length x = n /\ output_of M g c n x) /\
  (forall out oo, Z.of_nat (length out) < 2 ^ 64 -> (oo + n <= length out)%nat ->
     exists x out', Generate_at M g c out oo n = Ok (S c, out') /\ output_of M g c n x /\ length x = n /\ written out out' oo x) /\
  (forall out oo, Z.of_nat oo + Z.of_nat n < 2 ^ 64 -> (length out < oo + n)%nat -> Generate_at M g c out oo n = Throw InvalidSize).
Proof.
  intros HM HP Hn NT. unfold Generate_new, Generate_at. rewrite (proj2 (Nat.eqb_neq n 0)) by lia. cbn [negb guard bind]. split; [apply generate_zeros; auto|]. split.
  - intros out oo LB LO. rewrite Z.mod_small by lia. rewrite (proj2 (Z.ltb_ge _ _)) by lia. cbn [negb guard bind]. destruct (generate_ok M g c out oo n HM HP LO NT) as (x & E & L & O). exists x, (splice out oo x). split; [exact E|]. split; [exact O|]. split; [exact L|]. apply splice_written. lia.
  - intros out oo LB LO. rewrite Z.mod_small by lia. rewrite (proj2 (Z.ltb_lt _ _)) by lia. reflexivity.
Qed.
Lemma c82_guards p t M g c v i out oo : (SymmetricKeyGenerator_new p t = Throw InvalidParam <-> p = SPNone \/ t = PNone) /\
  GetSymmetricKey M g c 0 v i = Throw InvalidSize /\ (forall (K : Type) (new : list Z -> list Z -> list Z -> res K), GetSecureKey new M g c 0 v i = Throw InvalidSize) /\
  Generate_new M g c 0 = Throw InvalidSize /\ Generate_at M g c out oo 0 = Throw InvalidSize.
Proof. split; [|repeat split]. unfold SymmetricKeyGenerator_new. destruct t, p; cbn [policy_none]; split; intros H; try discriminate; auto; destruct H; discriminate. Qed.
Lemma c82_policies M t c k v i p : (p = SPL256AE \/ p = SPL1024 \/ p = SPL1024AE) -> GetSymmetricKey M (KeyGen t p) c k v i = GetSymmetricKey M (KeyGen t SPL256) c k v i.
Proof. intros [->|[->| ->]]; reflexivity. Qed.
Lemma c82_window M g c out oo n : machine_ok M -> kg_prov g <> PNone -> (0 < n < 72)%nat -> (length out < oo)%nat ->
  (Z.of_nat oo + Z.of_nat n) mod 2 ^ 64 <= Z.of_nat (length out) -> Generate_at M g c out oo n = UB.
Proof.
  intros HM HP Hn LO HW. unfold Generate_at. rewrite (proj2 (Nat.eqb_neq n 0)) by lia. cbn [negb guard bind]. rewrite (proj2 (Z.ltb_ge _ _)) by lia. cbn [negb guard bind].
  unfold generate. destruct (started M g c HM) as (seed & o & ES & EO & HO). destruct (generator_mode (kg_pol g)) as [m klen]. cbn [fst snd] in *. rewrite instance_used by auto. cbn [bind]. rewrite ES. cbn [bind].
  fold (cust_of (used M (kg_prov g)) m). rewrite EO. cbn [bind]. destruct HO as (H1 & H2 & _). unfold SHAKE_Generate. rewrite H1. cbn [guard bind].
  rewrite (proj2 (Nat.leb_gt oo (length out))) by lia. cbn [andb negb guard bind]. rewrite H2.
  assert (R : (72 <= shake_rate m)%nat) by (destruct m; cbn; lia). rewrite Z.div_small by lia. cbn [Z.of_nat Z.add Z.leb Z.compare guard bind].
  unfold SHAKE_Expand. rewrite (proj2 (Nat.leb_gt (shake_rate m) n)) by lia. cbn [bind]. rewrite (proj2 (Nat.eqb_neq n 0)) by lia.
  unfold wcopy. destruct (rd _ 0 n) as [y| |] eqn:ER; cbn [bind].
  - unfold wr. rewrite (proj2 (Nat.leb_gt _ _)) by lia. reflexivity.
  - unfold rd in ER. destruct (_ <=? _)%nat; discriminate.
  - reflexivity.
Qed.
