(** The KDF properties, assembled. *)
From Verif Require Import Proofs_GCM BaseLemmas Spec_Common Proofs_Common Spec_Feed Spec_SHA2 Spec_MAC Spec_KDF Model_IntegerTools Proofs_IntegerTools Model_Modes Proofs_Windows Model_Absorb Proofs_Absorb
  Model_SHA2 Proofs_SHA2obj Proofs_SHA2cmp Session_Digest Session_SHA2 ProofsP_SHA2 Model_HMAC Session_Mac Session_MacObjs Proofs_Mac Proofs_HMAC ProofsP_MAC Model_KDF Session_Kdf Session_KdfObjs Proofs_KDF Proofs_KDF2.
Open Scope Z_scope.

Lemma upd256 o m p : after256 o m -> p_ok p -> exists o', SHA2256_Update o (p_in p) (p_off p) (p_len p) = Ok o' /\ after256 o' (m ++ p_data p).
Proof.
  intros A P. destruct (after256_feed o m [p] A) as (o' & E & A'); [constructor; auto|]. cbn [feed] in E. apply bind_ok in E. destruct E as (s & -> & [= <-]).
  exists s. split; auto. unfold joined in A'. cbn [map concat] in A'. now rewrite app_nil_r in A'.
Qed.
Lemma upd512 o m p : after512 o m -> p_ok p -> exists o', SHA2512_Update o (p_in p) (p_off p) (p_len p) = Ok o' /\ after512 o' (m ++ p_data p).
Proof.
  intros A P. destruct (after512_feed o m [p] A) as (o' & E & A'); [constructor; auto|]. cbn [feed] in E. apply bind_ok in E. destruct E as (s & -> & [= <-]).
  exists s. split; auto. unfold joined in A'. cbn [map concat] in A'. now rewrite app_nil_r in A'.
Qed.
Lemma c37_256 cs : Forall (kcall_ok true) cs -> exists rs, khistory hkdf256 (HKDF_new 64 32 SHA2256_new) cs = Ok rs /\ kexpected (hkdf_kdf_spec (hmac sha256 64) 32) (KIdle []) cs rs.
Proof. refine (hkdf_history 64 32 SHA2256_Update SHA2256_Finalize SHA2256_new after256 sha256 _ _ after256_new upd256 final256 sha256_len sha256_bytes cs); lia. Qed.
Lemma c37_512 cs : Forall (kcall_ok true) cs -> exists rs, khistory hkdf512 (HKDF_new 128 64 SHA2512_new) cs = Ok rs /\ kexpected (hkdf_kdf_spec (hmac sha512_code 128) 64) (KIdle []) cs rs.
Proof. refine (hkdf_history 128 64 SHA2512_Update SHA2512_Finalize SHA2512_new after512 sha512_code _ _ after512_new upd512 c31_final sha512_code_len sha512_code_bytes cs); lia. Qed.
Lemma c38_256 cs : Forall (kcall_ok false) cs -> exists rs, khistory kdf2_256 (KDF2_new SHA2256_new) cs = Ok rs /\ kexpected (kdf2_kdf_spec sha256 64 32) (KIdle []) cs rs.
Proof. refine (kdf2_history 64 32 SHA2256_Update SHA2256_Finalize SHA2256_new after256 sha256 _ _ after256_new upd256 final256 sha256_len sha256_bytes cs); lia. Qed.
Lemma c38_512 cs : Forall (kcall_ok false) cs -> exists rs, khistory kdf2_512 (KDF2_new SHA2512_new) cs = Ok rs /\ kexpected (kdf2_kdf_spec sha512_code 128 64) (KIdle []) cs rs.
Proof. refine (kdf2_history 128 64 SHA2512_Update SHA2512_Finalize SHA2512_new after512 sha512_code _ _ after512_new upd512 c31_final sha512_code_len sha512_code_bytes cs); lia. Qed.
Lemma c38_pb256 iter cs : 0 <= iter < 2 ^ 32 -> Forall (kcall_ok false) cs -> exists rs, khistory pbkdf2_256 (PBKDF2_new 64 SHA2256_new iter) cs = Ok rs /\ kexpected (pbkdf2_kdf_spec (hmac sha256 64) 32 iter) (KIdle []) cs rs.
Proof. intros. refine (pbkdf2_history 64 32 SHA2256_Update SHA2256_Finalize SHA2256_new after256 sha256 _ _ after256_new upd256 final256 sha256_len sha256_bytes iter cs _); auto; lia. Qed.
Lemma c38_pb512 iter cs : 0 <= iter < 2 ^ 32 -> Forall (kcall_ok false) cs -> exists rs, khistory pbkdf2_512 (PBKDF2_new 128 SHA2512_new iter) cs = Ok rs /\ kexpected (pbkdf2_kdf_spec (hmac sha512_code 128) 64 iter) (KIdle []) cs rs.
Proof. intros. refine (pbkdf2_history 128 64 SHA2512_Update SHA2512_Finalize SHA2512_new after512 sha512_code _ _ after512_new upd512 c31_final sha512_code_len sha512_code_bytes iter cs _); auto; lia. Qed.

(** ** one request, from any history lemma *)
Lemma blocks_shift (T B : nat -> list Z) k : (forall i, (i < k)%nat -> B i = T (S i)) -> blocks_from B 0 k = blocks_from T 1 k.
Proof. intros E. unfold blocks_from. rewrite <- seq_shift, map_map. f_equal. apply map_ext_in. intros i Hi. apply in_seq in Hi. apply E. lia. Qed.
Section one.
Context {O P : Type} (X : kdf_ops O) (S : kdf_spec P) (o0 : O) (both : bool).
Hypothesis hist : forall cs, Forall (kcall_ok both) cs -> exists rs, khistory X o0 cs = Ok rs /\ kexpected S (KIdle []) cs rs.
Lemma request_one key iv info out oo len p : kcall_ok both (KInit key iv info) -> (ks_minkey S <= length key)%nat -> ks_init S [] key iv info = inr p ->
  (oo + len <= length out)%nat -> ks_refuse S p 0 len true = None ->
  exists out', khistory X o0 [KInit key iv info; KGen out oo len] = Ok [Done; Wrote out'] /\ written out out' oo (firstn len (blocks_from (ks_block S p) 0 (ks_count S len))).
Proof.
  intros OK L I LO NR. destruct (hist [KInit key iv info; KGen out oo len]) as (rs & E & K); [constructor; [exact OK|constructor; [cbn [kcall_ok]; lia|constructor]]|]. rewrite E. clear E.
  destruct rs as [|r1 [|r2 [|? ?]]]; cbn [kexpected] in K; try tauto. destruct K as (K1 & K2 & _).
  cbn [kspec left_of] in K1, K2. rewrite (proj2 (Nat.ltb_ge _ _) L), I in K1, K2. cbn [fst snd] in K1, K2. cbn [kspec request] in K2. rewrite (proj2 (Nat.leb_le _ _) LO), NR in K2. destruct K2 as (out' & -> & W). cbn [fst snd] in *. subst r1. exists out'. auto.
  all: destruct K as (? & ? & K); contradiction.
Qed.
Lemma request_refused key iv info out oo len p e : kcall_ok both (KInit key iv info) -> (ks_minkey S <= length key)%nat -> ks_init S [] key iv info = inr p ->
  (oo + len <= length out)%nat -> ks_refuse S p 0 len true = Some e ->
  khistory X o0 [KInit key iv info; KGen out oo len] = Ok [Done; Failed e].
Proof.
  intros OK L I LO NR. destruct (hist [KInit key iv info; KGen out oo len]) as (rs & E & K); [constructor; [exact OK|constructor; [cbn [kcall_ok]; lia|constructor]]|]. rewrite E. clear E.
  destruct rs as [|r1 [|r2 [|? ?]]]; cbn [kexpected] in K; try tauto. destruct K as (K1 & K2 & _).
  cbn [kspec left_of] in K1, K2. rewrite (proj2 (Nat.ltb_ge _ _) L), I in K1, K2. cbn [fst snd] in K1, K2. cbn [kspec request] in K2. rewrite (proj2 (Nat.leb_le _ _) LO), NR in K2. cbn [fst snd] in *. subst. reflexivity.
  all: destruct K as (? & ? & K); contradiction.
Qed.
End one.

(** HKDF *)
Lemma lens {A} (l : list A) : (length l =? 0)%nat = match l with [] => true | _ => false end. Proof. now destruct l. Qed.
Section hkdf_one.
Context {O : Type} (X : kdf_ops O) (o0 : O) (HM : list Z -> list Z -> list Z) (n : nat).
Hypothesis Hn : (0 < n)%nat.
Hypothesis hist : forall cs, Forall (kcall_ok true) cs -> exists rs, khistory X o0 cs = Ok rs /\ kexpected (hkdf_kdf_spec HM n) (KIdle []) cs rs.
Lemma hk_params key iv info : (iv = [] \/ (8 <= length iv)%nat) -> ks_init (hkdf_kdf_spec HM n) [] key iv info = inr (hkdf_prk HM key iv, info).
Proof.
  intros V. cbn [hkdf_kdf_spec ks_init]. rewrite (lens info). replace (match info with [] => [] | _ => info end) with info by (now destruct info). rewrite (lens iv). destruct iv as [|v iv]; [destruct info; reflexivity|].
  destruct V as [V|V]; [discriminate|]. rewrite (proj2 (Nat.ltb_ge (length (v :: iv) + length info) 4)) by lia. rewrite (proj2 (Nat.ltb_ge (length (v :: iv)) 8)) by lia. destruct info; reflexivity.
Qed.
Lemma hk_one key iv info out oo len : bytes key -> bytes iv -> bytes info -> (16 <= length key)%nat -> (iv = [] \/ (8 <= length iv)%nat) ->
  (oo + len <= length out)%nat -> (len < 256 * n)%nat ->
  exists out', khistory X o0 [KInit key iv info; KGen out oo len] = Ok [Done; Wrote out'] /\ written out out' oo (hkdf_expand HM n (hkdf_prk HM key iv) info len).
Proof.
  intros B1 B2 B3 L V LO LL. destruct (request_one X (hkdf_kdf_spec HM n) o0 true hist key iv info out oo len (hkdf_prk HM key iv, info)) as (out' & E & W); [cbn; auto|exact L|now apply hk_params|exact LO| |].
  - cbn [hkdf_kdf_spec ks_refuse]. replace (0 mod 256)%nat with 0%nat by reflexivity. rewrite (proj2 (Nat.ltb_ge _ _)); [reflexivity|]. assert (len / n < 256)%nat by (apply Nat.div_lt_upper_bound; lia). revert H. generalize (len / n)%nat. intros; lia.
  - exists out'. split; [exact E|]. cbn [hkdf_kdf_spec ks_block ks_count fst snd] in W. unfold hkdf_expand. erewrite <- blocks_shift; [exact W|]. intros i Hi. cbv beta.
    rewrite Nat.mod_small; [reflexivity|]. assert (blocks_for n len <= 256)%nat; [|lia]. unfold blocks_for. assert ((len + n - 1) / n < 257)%nat by (apply Nat.div_lt_upper_bound; lia). lia.
Qed.
Lemma hk_toolong key iv info out oo len : bytes key -> bytes iv -> bytes info -> (16 <= length key)%nat -> (iv = [] \/ (8 <= length iv)%nat) ->
  (oo + len <= length out)%nat -> (256 * n <= len)%nat -> khistory X o0 [KInit key iv info; KGen out oo len] = Ok [Done; Failed MaxExceeded].
Proof.
  intros B1 B2 B3 L V LO LL. apply (request_refused X (hkdf_kdf_spec HM n) o0 true hist) with (p := (hkdf_prk HM key iv, info)); [cbn; auto|exact L|now apply hk_params|exact LO|].
  cbn [hkdf_kdf_spec ks_refuse]. replace (0 mod 256)%nat with 0%nat by reflexivity. rewrite (proj2 (Nat.ltb_lt _ _)); [reflexivity|]. assert (256 <= len / n)%nat by (apply Nat.div_le_lower_bound; lia). revert H. generalize (len / n)%nat. intros; lia.
Qed.
Hypothesis HMlen : forall k m, length (HM k m) = n.
Lemma HMlen' prk info i : length (hkdf_T HM prk info (S i)) = n. Proof. apply HMlen. Qed.
Lemma hk_many_gen prk info len m : (0 < len < n)%nat -> forall k rs, kexpected (hkdf_kdf_spec HM n) (KOn (prk, info) k) (repeat (KGenAll (zeros len)) m) rs ->
  rs = map (fun i => Wrote (firstn len (hkdf_T HM prk info (S (i mod 256))))) (seq k m).
Proof.
  intros LL. induction m as [|m IH]; intros k [|r rs] K; cbn [repeat kexpected] in K; try contradiction; [reflexivity|]. destruct K as (K1 & K2). cbn [seq map].
  assert (BF : blocks_for n len = 1%nat) by (rewrite blocks_for_S by lia; replace (len - Nat.min n len)%nat with 0%nat by lia; rewrite blocks_for_0 by lia; reflexivity).
  assert (E : request (hkdf_kdf_spec HM n) (KOn (prk, info) k) (zeros len) 0 len = (KOn (prk, info) (k + 1), fun r => exists out', r = Wrote out' /\ written (zeros len) out' 0 (firstn len (hkdf_T HM prk info (S (k mod 256)) ++ [])))).
  { cbn [request hkdf_kdf_spec ks_refuse ks_block ks_count fst snd]. rewrite length_zeros, BF. replace (0 + len <=? len)%nat with true by (symmetry; apply Nat.leb_le; lia).
    replace (len / n)%nat with 0%nat by (symmetry; apply Nat.div_small; lia). pose proof (Nat.mod_upper_bound k 256 ltac:(lia)) as KM. rewrite (proj2 (Nat.ltb_ge _ _)) by lia. reflexivity. }
  cbn [kspec] in K1, K2. rewrite length_zeros, E in K1, K2. cbn [fst snd] in K1, K2. destruct K1 as (out' & -> & W). rewrite app_nil_r in W. f_equal.
  - f_equal. apply written_eq in W; [|rewrite firstn_length, HMlen', length_zeros by lia; lia]. rewrite W. apply splice_all. rewrite firstn_length, HMlen' by lia. rewrite length_zeros. lia.
  - replace (S k) with (k + 1)%nat by lia. now apply IH.
Qed.
Lemma hk_many key iv info len m : bytes key -> bytes iv -> bytes info -> (16 <= length key)%nat -> (iv = [] \/ (8 <= length iv)%nat) -> (0 < len < n)%nat ->
  khistory X o0 (KInit key iv info :: repeat (KGenAll (zeros len)) m) = Ok (Done :: map (fun i => Wrote (firstn len (hkdf_T HM (hkdf_prk HM key iv) info (S (i mod 256))))) (seq 0 m)).
Proof.
  intros B1 B2 B3 L V LL. destruct (hist (KInit key iv info :: repeat (KGenAll (zeros len)) m)) as (rs & -> & K).
  { constructor; [cbn; auto|]. apply Forall_forall. intros c Hc. apply repeat_spec in Hc. subst c. exact Logic.I. }
  destruct rs as [|r rs]; cbn [kexpected] in K; [contradiction|]. destruct K as (K1 & K2). cbn [kspec left_of] in K1, K2. change (ks_minkey (hkdf_kdf_spec HM n)) with 16%nat in K1, K2.
  rewrite (proj2 (Nat.ltb_ge _ _) L), hk_params in K1, K2 by assumption. cbn [fst snd] in K1, K2. rewrite K1. rewrite (hk_many_gen _ _ _ m LL 0 rs K2). reflexivity.
Qed.
(** what a second Initialize without info leaves *)
Lemma hk_stale key iv info key' len out oo : bytes key -> bytes iv -> bytes info -> bytes key' -> (16 <= length key)%nat -> (16 <= length key')%nat -> (iv = [] \/ (8 <= length iv)%nat) ->
  (oo + len <= length out)%nat -> (len < 256 * n)%nat ->
  exists out', khistory X o0 [KInit key iv info; KInit key' [] []; KGen out oo len] = Ok [Done; Done; Wrote out'] /\ written out out' oo (hkdf_expand HM n key' (zeros (length info)) len).
Proof.
  intros B1 B2 B3 B4 L L' V LO LL. destruct (hist [KInit key iv info; KInit key' [] []; KGen out oo len]) as (rs & -> & K).
  { constructor; [cbn; auto|]. constructor; [cbn; repeat split; auto; constructor|]. constructor; [cbn; lia|constructor]. }
  destruct rs as [|r1 [|r2 [|r3 [|? ?]]]]; cbn [kexpected] in K; try (exfalso; tauto). destruct K as (K1 & K2 & K3 & _). cbn [kspec left_of] in K1, K2, K3. change (ks_minkey (hkdf_kdf_spec HM n)) with 16%nat in *.
  rewrite (proj2 (Nat.ltb_ge _ _) L), hk_params in K1, K2, K3 by assumption. cbn [fst snd] in K1, K2, K3. rewrite (proj2 (Nat.ltb_ge _ _) L') in K2, K3. cbn [hkdf_kdf_spec ks_init ks_left left_of length Nat.eqb fst snd] in K2, K3.
  cbn [kspec request hkdf_kdf_spec ks_refuse ks_block ks_count fst snd] in K3. replace (0 mod 256)%nat with 0%nat in K3 by reflexivity. rewrite (proj2 (Nat.leb_le _ _) LO) in K3.
  rewrite (proj2 (Nat.ltb_ge 255 (0 + len / n))) in K3; [|assert (Q : (len / n < 256)%nat) by (apply Nat.div_lt_upper_bound; lia); revert Q; generalize (len / n)%nat; intros; lia]. cbn [fst snd] in K3. destruct K3 as (out' & -> & W). subst r1 r2. exists out'. split; [reflexivity|].
  unfold hkdf_expand. erewrite <- blocks_shift; [exact W|]. intros i Hi. cbv beta.
  rewrite Nat.mod_small; [reflexivity|]. assert (blocks_for n len <= 256)%nat; [|lia]. unfold blocks_for. assert ((len + n - 1) / n < 257)%nat by (apply Nat.div_lt_upper_bound; lia). lia.
Qed.
Lemma hk_shortsalt key iv info : bytes key -> bytes iv -> bytes info -> (16 <= length key)%nat -> (4 <= length iv < 8)%nat -> khistory X o0 [KInit key iv info] = Ok [Failed InvalidKey].
Proof.
  intros B1 B2 B3 L V. destruct (hist [KInit key iv info]) as (rs & -> & K); [constructor; [cbn; auto|constructor]|].
  destruct rs as [|r1 [|? ?]]; cbn [kexpected] in K; try (exfalso; tauto). destruct K as (K1 & _). cbn [kspec left_of] in K1. change (ks_minkey (hkdf_kdf_spec HM n)) with 16%nat in *. rewrite (proj2 (Nat.ltb_ge _ _) L) in K1.
  cbn [hkdf_kdf_spec ks_init] in K1. rewrite (proj2 (Nat.eqb_neq (length iv) 0)) in K1 by lia. rewrite (proj2 (Nat.ltb_ge (length iv + length info) 4)) in K1 by lia. rewrite (proj2 (Nat.ltb_lt (length iv) 8)) in K1 by lia. cbn [snd] in K1. now subst.
Qed.
End hkdf_one.

(** KDF2 *)
Lemma k2_range len n : (0 < n)%nat -> (len < 255 * n)%nat -> (255 <? 1 + 0 + len / n)%nat = false.
Proof. intros Hn L. apply Nat.ltb_ge. assert (Q : (len / n < 255)%nat) by (apply Nat.div_lt_upper_bound; lia). revert Q. generalize (len / n)%nat. intros; lia. Qed.
Lemma do_blocks (B : nat -> list Z) n len : (0 < n)%nat -> firstn len (blocks_from B 0 (Nat.max 1 (blocks_for n len))) = firstn len (blocks_from B 0 (blocks_for n len)).
Proof. intros Hn. destruct (Nat.eq_dec len 0) as [->|NZ]; [now rewrite !firstn_O|]. rewrite Nat.max_r; [reflexivity|]. rewrite blocks_for_S by lia. lia. Qed.
Lemma k2_salted H rate n key iv : (4 <= length iv)%nat -> ks_init (kdf2_kdf_spec H rate n) [] key iv [] = inr (key, iv).
Proof. intros L. cbn [kdf2_kdf_spec ks_init length]. rewrite (proj2 (Nat.eqb_neq _ _)) by lia. rewrite Nat.add_0_r, (proj2 (Nat.ltb_ge _ _)) by lia. now rewrite app_nil_r. Qed.
Lemma k2_short H rate n key info : (length key <= rate)%nat -> ks_init (kdf2_kdf_spec H rate n) [] key [] info = inr (key ++ zeros (rate - length key), []).
Proof. intros L. cbn [kdf2_kdf_spec ks_init length Nat.eqb]. now rewrite (proj2 (Nat.leb_le _ _) L). Qed.
Lemma k2_long H rate n key info : (rate < length key)%nat -> ks_init (kdf2_kdf_spec H rate n) [] key [] info = inr (firstn rate key, skipn rate key ++ info).
Proof. intros L. cbn [kdf2_kdf_spec ks_init length Nat.eqb]. now rewrite (proj2 (Nat.leb_gt _ _) L). Qed.
Section kdf2_one.
Context {O : Type} (X : kdf_ops O) (o0 : O) (H : list Z -> list Z) (rate n : nat).
Hypothesis Hn : (0 < n)%nat.
Hypothesis hist : forall cs, Forall (kcall_ok false) cs -> exists rs, khistory X o0 cs = Ok rs /\ kexpected (kdf2_kdf_spec H rate n) (KIdle []) cs rs.
Lemma k2_one key iv info out oo len p : bytes key -> bytes iv -> bytes info -> (iv = [] \/ info = []) -> (16 <= length key)%nat ->
  ks_init (kdf2_kdf_spec H rate n) [] key iv info = inr p -> (oo + len <= length out)%nat -> (len < 255 * n)%nat ->
  exists out', khistory X o0 [KInit key iv info; KGen out oo len] = Ok [Done; Wrote out'] /\ written out out' oo (kdf2 H n (fst p) (snd p) len).
Proof.
  intros B1 B2 B3 V L E LO LL. destruct (request_one X (kdf2_kdf_spec H rate n) o0 false hist key iv info out oo len p) as (out' & K & W); [cbn; auto|exact L|exact E|exact LO| |].
  - cbn [kdf2_kdf_spec ks_refuse]. now rewrite k2_range.
  - exists out'. split; [exact K|]. cbn [kdf2_kdf_spec ks_block ks_count] in W. rewrite do_blocks in W by exact Hn. unfold kdf2. erewrite <- blocks_shift; [exact W|]. reflexivity.
Qed.
Lemma k2_full key iv info out oo len p : bytes key -> bytes iv -> bytes info -> (iv = [] \/ info = []) -> (16 <= length key)%nat ->
  ks_init (kdf2_kdf_spec H rate n) [] key iv info = inr p -> (oo + len <= length out)%nat -> (255 * n <= len)%nat ->
  khistory X o0 [KInit key iv info; KGen out oo len] = Ok [Done; Failed MaxExceeded].
Proof.
  intros B1 B2 B3 V L E LO LL. apply (request_refused X (kdf2_kdf_spec H rate n) o0 false hist) with (p := p); [cbn; auto|exact L|exact E|exact LO|].
  cbn [kdf2_kdf_spec ks_refuse]. rewrite (proj2 (Nat.ltb_lt _ _)); [reflexivity|]. assert (Q : (255 <= len / n)%nat) by (apply Nat.div_le_lower_bound; lia). revert Q. generalize (len / n)%nat. intros; lia.
Qed.
Lemma k2_collide key info info' out oo len : bytes key -> bytes info -> bytes info' -> (16 <= length key < rate)%nat -> (oo + len <= length out)%nat -> (len < 255 * n)%nat ->
  khistory X o0 [KInit key [] info; KGen out oo len] = khistory X o0 [KInit (key ++ [0]) [] info'; KGen out oo len].
Proof.
  intros B1 B2 B3 L LO LL. assert (B4 : bytes (key ++ [0])) by (apply bytes_app; split; [exact B1|constructor; [red; lia|constructor]]). assert (L4 : length (key ++ [0]) = S (length key)) by (rewrite app_length; cbn; lia).
  destruct (k2_one key [] info out oo len _ B1 (Forall_nil _) B2 (or_introl eq_refl) ltac:(lia) (k2_short H rate n key info ltac:(lia)) LO LL) as (o1 & E1 & W1).
  destruct (k2_one (key ++ [0]) [] info' out oo len _ B4 (Forall_nil _) B3 (or_introl eq_refl) ltac:(lia) (k2_short H rate n (key ++ [0]) info' ltac:(lia)) LO LL) as (o2 & E2 & W2).
  rewrite E1, E2. cbn [fst snd] in W1, W2. rewrite L4 in W2. rewrite <- app_assoc in W2. replace ([0] ++ zeros (rate - S (length key))) with (zeros (rate - length key)) in W2 by (replace (rate - length key)%nat with (S (rate - S (length key))) by lia; reflexivity).
  apply written_eq in W1, W2; [now subst| |]; unfold kdf2, blocks_from; rewrite ?(blocks_shift (fun i => kdf2_block H (key ++ zeros (rate - length key)) [] i) (fun i => kdf2_block H (key ++ zeros (rate - length key)) [] (S i))); rewrite firstn_length; lia.
Qed.
End kdf2_one.
Lemma k2_ivinfo {D} rate (dnew : D) key iv info : (16 <= length key)%nat -> iv <> [] -> info <> [] -> (4 <= length iv + length info)%nat -> KDF2_Initialize rate dnew (KDF2_new dnew) key iv info = UB.
Proof.
  intros L V I L4. unfold KDF2_Initialize. rewrite (proj2 (Nat.ltb_ge _ _) L). cbn [KDF2_new k2_init bind k2_state k2_salt k2_gen k2_ctr]. rewrite lens. destruct iv as [|v iv]; [congruence|]. cbn [negb]. rewrite (proj2 (Nat.ltb_ge _ _) L4).
  rewrite wcopy_ok by (rewrite ?resized_len; lia). cbn [bind]. cbv zeta. rewrite resized_len. unfold wcopy, rd. rewrite (proj2 (Nat.leb_gt _ _)); [reflexivity|]. destruct info; [congruence|cbn [length]; lia].
Qed.
Lemma pb_ivinfo {D} rate (dnew : D) iter key iv info : (4 <= length key)%nat -> iv <> [] -> info <> [] -> (4 <= length iv + length info)%nat -> PBKDF2_Initialize dnew (PBKDF2_new rate dnew iter) key iv info = UB.
Proof.
  intros L V I L4. unfold PBKDF2_Initialize. rewrite (proj2 (Nat.ltb_ge _ _) L). cbn [PBKDF2_new pb_init bind pb_state pb_salt pb_gen pb_ctr pb_iter].
  rewrite wcopy_ok by (rewrite ?resized_len; lia). cbn [bind]. rewrite (proj2 (Nat.eqb_neq (length iv + length info) 0)) by lia. cbn [negb]. rewrite (proj2 (Nat.ltb_ge _ _) L4). cbv zeta. rewrite resized_len.
  rewrite lens. destruct iv as [|v iv]; [congruence|]. cbn [negb]. unfold wcopy, rd. rewrite (proj2 (Nat.leb_gt _ _)); [reflexivity|]. destruct info; [congruence|cbn [length]; lia].
Qed.

(** PBKDF2 *)
Section pb_one.
Context {O : Type} (X : kdf_ops O) (o0 : O) (HM : list Z -> list Z -> list Z) (n : nat) (iter : Z).
Hypothesis Hn : (0 < n)%nat.
Hypothesis hist : forall cs, Forall (kcall_ok false) cs -> exists rs, khistory X o0 cs = Ok rs /\ kexpected (pbkdf2_kdf_spec HM n iter) (KIdle []) cs rs.
Lemma pb_params key iv info : (iv = [] \/ info = []) -> (length iv + length info = 0 \/ 4 <= length iv + length info)%nat -> ks_init (pbkdf2_kdf_spec HM n iter) [] key iv info = inr (key, iv ++ info).
Proof.
  intros V L. cbn [pbkdf2_kdf_spec ks_init]. destruct (Nat.eqb_spec (length iv + length info) 0) as [E|E].
  - destruct iv, info; cbn in E; try lia. reflexivity.
  - rewrite (proj2 (Nat.ltb_ge _ _)) by lia. reflexivity.
Qed.
Lemma pb_one key iv info out oo len : 1 <= iter < 2 ^ 32 -> bytes key -> bytes iv -> bytes info -> (iv = [] \/ info = []) -> (length iv + length info = 0 \/ 4 <= length iv + length info)%nat ->
  (8 <= length key)%nat -> (oo + len <= length out)%nat -> Z.of_nat len < 1024000 * Z.of_nat n ->
  exists out', khistory X o0 [KInit key iv info; KGen out oo len] = Ok [Done; Wrote out'] /\ written out out' oo (pbkdf2 HM n key (iv ++ info) (Z.to_nat iter) len).
Proof.
  intros HI B1 B2 B3 V L L8 LO LL. destruct (request_one X (pbkdf2_kdf_spec HM n iter) o0 false hist key iv info out oo len (key, iv ++ info)) as (out' & E & W); [cbn; auto|cbn; lia|now apply pb_params|exact LO| |].
  - cbn [pbkdf2_kdf_spec ks_refuse negb fst]. rewrite (proj2 (Z.ltb_ge _ _)); [now rewrite (proj2 (Nat.ltb_ge _ _) L8)|]. assert (Z.of_nat (len / n) < 1024000); [|lia]. rewrite Nat2Z.inj_div. apply Z.div_lt_upper_bound; lia.
  - exists out'. split; [exact E|]. cbn [pbkdf2_kdf_spec ks_block ks_count fst snd] in W. rewrite do_blocks in W by exact Hn. unfold pbkdf2. erewrite <- blocks_shift; [exact W|]. intros i Hi. cbv beta. f_equal. rewrite Z.mod_small by lia. lia.
Qed.
Lemma pb_weak key iv info out oo len : bytes key -> bytes iv -> bytes info -> (iv = [] \/ info = []) -> (length iv + length info = 0 \/ 4 <= length iv + length info)%nat ->
  (4 <= length key < 8)%nat -> (oo + len <= length out)%nat -> Z.of_nat len < 1024000 * Z.of_nat n -> khistory X o0 [KInit key iv info; KGen out oo len] = Ok [Done; Failed InvalidKey].
Proof.
  intros B1 B2 B3 V L L8 LO LL. apply (request_refused X (pbkdf2_kdf_spec HM n iter) o0 false hist) with (p := (key, iv ++ info)); [cbn; auto|cbn; lia|now apply pb_params|exact LO|].
  cbn [pbkdf2_kdf_spec ks_refuse negb fst]. rewrite (proj2 (Z.ltb_ge _ _)); [now rewrite (proj2 (Nat.ltb_lt (length key) 8)) by lia|]. assert (Z.of_nat (len / n) < 1024000); [|lia]. rewrite Nat2Z.inj_div. apply Z.div_lt_upper_bound; lia.
Qed.
End pb_one.
