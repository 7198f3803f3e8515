(** HMAC refines RFC 2104 for every digest object. *)
From Verif Require Import BaseLemmas Spec_Common Proofs_Common Spec_Feed Spec_MAC Model_Modes Proofs_Windows Model_HMAC Session_Digest Session_Mac Session_MacObjs Proofs_Mac.
Open Scope Z_scope.

Lemma XorPad_pad l x : XorPad l x = pad_with x l.
Proof. apply map_ext. intros. apply Z.lxor_comm. Qed.
Lemma pad_with_len x l : length (pad_with x l) = length l. Proof. apply map_length. Qed.
Lemma pad_with_bytes x l : is_byte x -> bytes l -> bytes (pad_with x l).
Proof. intros H B. apply Forall_forall. intros y Hy. apply in_map_iff in Hy. destruct Hy as (z & <- & Hz). apply lxor_byte; auto. red in B. rewrite Forall_forall in B. auto. Qed.

Section hmac.
Context {D : Type} (rate n : nat) (dupd : D -> list Z -> nat -> nat -> res D) (dfin : D -> list Z -> nat -> res (D * list Z)) (dnew : D).
Context (A : D -> list Z -> Prop) (H : list Z -> list Z).
Hypothesis Hn : (n <= rate)%nat.
Hypothesis Anew : A dnew [].
Hypothesis Aupd : forall o m p, A o m -> p_ok p -> exists o', dupd o (p_in p) (p_off p) (p_len p) = Ok o' /\ A o' (m ++ p_data p).
Hypothesis Afin : forall o m out oo, A o m -> (oo + n <= length out)%nat -> dfin o out oo = Ok (dnew, splice out oo (H m)).
Hypothesis Hlen : forall m, length (H m) = n.
Hypothesis Hbytes : forall m, bytes (H m).

Lemma upd_all o m d : A o m -> bytes d -> exists o', dupd o d 0 (length d) = Ok o' /\ A o' (m ++ d).
Proof.
  intros HA B. destruct (Aupd o m (Piece d 0 (length d)) HA) as (o' & E & A'); [split; [cbn; lia|exact B]|]. exists o'. split; [exact E|].
  unfold p_data in A'. cbn [p_in p_off p_len] in A'. now rewrite slice_all in A' by reflexivity.
Qed.
Definition ipad k := pad_with 0x36 (hmac_key H rate k).
Definition opad k := pad_with 0x5C (hmac_key H rate k).
Lemma key_ok k : bytes k -> bytes (hmac_key H rate k) /\ length (hmac_key H rate k) = rate.
Proof.
  intros B. unfold hmac_key. destruct (Nat.ltb_spec rate (length k)).
  - split; [apply bytes_app; split; [apply Hbytes|apply bytes_zeros]|]. rewrite app_length, Hlen, length_zeros. lia.
  - split; [apply bytes_app; split; [exact B|apply bytes_zeros]|]. rewrite app_length, length_zeros. lia.
Qed.
Lemma ipad_ok k : bytes k -> bytes (ipad k) /\ length (ipad k) = rate.
Proof. intros B. destruct (key_ok k B). split; [apply pad_with_bytes; auto; unfold is_byte; lia|unfold ipad; now rewrite pad_with_len]. Qed.
Lemma opad_ok k : bytes k -> bytes (opad k) /\ length (opad k) = rate.
Proof. intros B. destruct (key_ok k B). split; [apply pad_with_bytes; auto; unfold is_byte; lia|unfold opad; now rewrite pad_with_len]. Qed.

Definition HR (st : mstate) (o : hmac_obj D) : Prop :=
  match st with
  | MNone => h_init o = false /\ A (h_gen o) [] /\ length (h_ipad o) = rate /\ length (h_opad o) = rate
  | MOn k m => h_init o = true /\ bytes k /\ A (h_gen o) (ipad k ++ m) /\ h_ipad o = ipad k /\ h_opad o = opad k
  | MSpent => False
  end.
Lemma hreset o st : HR st o -> exists o', HMAC_Reset dnew o = Ok o' /\ HR MNone o'.
Proof.
  intros HO. eexists. split; [reflexivity|]. cbn [HR h_init h_gen h_ipad h_opad]. rewrite !length_zeros. destruct st as [|k m|]; [| |contradiction].
  - destruct HO as (_ & _ & ? & ?). auto.
  - destruct HO as (_ & B & _ & -> & ->). destruct (ipad_ok k B), (opad_ok k B). auto.
Qed.
Lemma hinit o key : HR MNone o -> bytes key -> (8 <= length key)%nat -> exists o', HMAC_Initialize rate n dupd dfin dnew o key = Ok (o', None) /\ HR (MOn key []) o'.
Proof.
  intros (I1 & I2 & I3 & I4) B L. unfold HMAC_Initialize. rewrite (proj2 (Nat.ltb_ge _ _) L), I1. cbn [bind]. cbv zeta.
  set (kk := if (rate <? length key)%nat then H key else key).
  assert (KL : (length kk <= rate)%nat) by (unfold kk; destruct (Nat.ltb_spec rate (length key)); rewrite ?Hlen; lia).
  assert (K : exists g, A g [] /\ (if (rate <? length key)%nat then g <- dupd (h_gen o) key 0 (length key) ;; r <- dfin g (h_ipad o) 0 ;; Ok (fst r, snd r, n)
                     else ip <- wcopy key 0 (h_ipad o) 0 (length key) ;; Ok (h_gen o, ip, length key)) = Ok (g, splice (h_ipad o) 0 kk, length kk)).
  { unfold kk in *. destruct (Nat.ltb_spec rate (length key)).
    - exists dnew. split; [exact Anew|]. destruct (upd_all (h_gen o) [] key I2 B) as (g & -> & G). cbn [bind app] in *. rewrite (Afin g key) by (auto; lia). cbn [bind fst snd]. now rewrite Hlen.
    - exists (h_gen o). split; [exact I2|]. rewrite wcopy_ok by lia. cbn [bind]. now rewrite slice_all by reflexivity. }
  destruct K as (g & G & ->). cbn [bind].
  assert (P : (if (length kk <? rate)%nat then wr (splice (h_ipad o) 0 kk) (length kk) (zeros (rate - length kk)) else Ok (splice (h_ipad o) 0 kk)) = Ok (hmac_key H rate key)).
  { unfold hmac_key. fold kk. destruct (Nat.ltb_spec (length kk) rate).
    - rewrite wr_ok by (rewrite length_splice, length_zeros; lia). f_equal. change (length kk) with (0 + length kk)%nat at 1. rewrite splice_splice_next by (rewrite length_zeros; lia).
      apply splice_all. rewrite app_length, length_zeros. lia.
    - replace (rate - length kk)%nat with 0%nat by lia. cbn [zeros repeat]. rewrite app_nil_r. f_equal. apply splice_all. lia. }
  rewrite P. cbn [bind]. destruct (key_ok key B) as (K1 & K2). rewrite wcopy_ok by lia. cbn [bind]. rewrite slice_all by reflexivity. rewrite splice_all by lia.
  rewrite !XorPad_pad. fold (ipad key) (opad key). destruct (ipad_ok key B) as (P1 & P2). destruct (upd_all g [] (ipad key) G P1) as (g' & -> & G'). cbn [bind].
  eexists. split; [reflexivity|]. cbn [HR h_init h_gen h_ipad h_opad]. rewrite app_nil_r. auto.
Qed.
Lemma hupd k m o p : HR (MOn k m) o -> (p_off p + p_len p <= length (p_in p))%nat -> bytes (p_in p) ->
  exists o', HMAC_Update dupd o (p_in p) (p_off p) (p_len p) = Ok o' /\ HR (MOn k (m ++ p_data p)) o'.
Proof.
  intros (I1 & B & G & P1 & P2) L Bi. unfold HMAC_Update. rewrite I1. cbn [guard bind]. rewrite window_ok by lia. rewrite (proj2 (Nat.leb_le _ _) L). cbn [guard bind].
  destruct (Aupd _ _ p G) as (g & -> & G'); [split; auto|]. cbn [bind]. eexists. split; [reflexivity|]. cbn [HR h_init h_gen h_ipad h_opad]. rewrite <- app_assoc in G'. auto.
Qed.
Lemma hfin k m o out oo : HR (MOn k m) o -> (oo + n <= length out)%nat ->
  exists o', HMAC_Finalize n dupd dfin o out oo = Ok (o', splice out oo (hmac H rate k m)) /\ HR (MOn k []) o'.
Proof.
  intros (I1 & B & G & P1 & P2) L. unfold HMAC_Finalize. rewrite I1. cbn [guard bind]. rewrite window_ok by lia. rewrite (proj2 (Nat.leb_le _ _) L). cbn [guard bind].
  rewrite (Afin _ _ (zeros n) 0%nat G) by (rewrite length_zeros; lia). cbn [bind]. rewrite splice_all by (rewrite Hlen, length_zeros; lia).
  rewrite P1, P2. destruct (ipad_ok k B) as (Q1 & _), (opad_ok k B) as (Q2 & _).
  destruct (upd_all dnew [] (opad k) Anew Q2) as (g1 & -> & G1). cbn [bind].
  destruct (upd_all g1 _ (H (ipad k ++ m)) G1 (Hbytes _)) as (g2 & -> & G2). cbn [bind]. rewrite (Afin _ _ out oo G2 L). cbn [bind].
  destruct (upd_all dnew [] (ipad k) Anew Q1) as (g3 & -> & G3). cbn [bind]. eexists. split; [reflexivity|]. cbn [HR h_init h_gen h_ipad h_opad]. rewrite app_nil_r. auto.
Qed.
Lemma hmac_len k m : length (hmac H rate k m) = n. Proof. apply Hlen. Qed.

Lemma hmac_step st o c : HR st o -> mcall_ok n c ->
  exists o' r, mstep (hmac_ops rate n dupd dfin dnew) o c = Ok (o', r) /\ snd (mspec (hmac_mac_spec rate n H) st c) r /\ HR (fst (mspec (hmac_mac_spec rate n H) st c)) o'.
Proof.
  intros HO HC. destruct c as [key|p|out oo|out oo|inp out|]; cbn [mcall_ok] in HC.
  - cbn [mstep hmac_ops m_init mspec hmac_mac_spec minkey legal_key]. destruct (Nat.ltb_spec (length key) 8) as [L|L].
    { exists o, (Failed InvalidKey). unfold HMAC_Initialize. rewrite (proj2 (Nat.ltb_lt _ _) L). cbn [bind fst snd]. auto. }
    assert (exists o1, HR MNone o1 /\ HMAC_Initialize rate n dupd dfin dnew o key = HMAC_Initialize rate n dupd dfin dnew o1 key) as (o1 & R1 & E2).
    { destruct st as [|k m|]; [exists o; auto| |contradiction]. destruct (hreset o _ HO) as (o1 & Er & R1). exists o1. split; [exact R1|].
      unfold HMAC_Initialize. rewrite (proj2 (Nat.ltb_ge _ _) L), (proj1 HO : h_init o = true), Er, (proj1 R1 : h_init o1 = false). reflexivity. }
    rewrite E2. destruct (hinit o1 key R1 HC L) as (o' & -> & R'). exists o', Done. cbn [bind fst snd]. auto.
  - destruct HC as (HO' & HB). cbn [mstep hmac_ops m_upd mspec]. destruct st as [|k m|]; [| |contradiction].
    + exists o, (Failed NotInitialized). unfold HMAC_Update. rewrite (proj1 HO : h_init o = false). cbn [guard bind fst snd]. auto.
    + destruct (Nat.leb_spec (p_off p + p_len p) (length (p_in p))) as [L|L].
      * destruct (hupd k m o p HO L HB) as (o' & -> & R'). exists o', Done. cbn [fst snd add]. auto.
      * exists o, (Failed InvalidSize). unfold HMAC_Update. rewrite (proj1 HO : h_init o = true). cbn [guard bind]. rewrite window_ok by lia. rewrite (proj2 (Nat.leb_gt _ _) L). cbn [guard bind fst snd]. auto.
  - cbn [mstep hmac_ops m_fin mspec]. destruct st as [|k m|]; [| |contradiction].
    + exists o, (Failed NotInitialized). unfold HMAC_Finalize. rewrite (proj1 HO : h_init o = false). cbn [guard bind fst snd caught]. auto.
    + cbn [tagsize hmac_mac_spec]. destruct (Nat.leb_spec (oo + n) (length out)) as [L|L].
      * destruct (hfin k m o out oo HO L) as (o' & -> & R'). exists o', (Wrote (splice out oo (hmac H rate k m))). cbn [caught fst snd after_final]. split; [reflexivity|]. split; [|exact R'].
        eexists; exists (hmac H rate k m). split; [reflexivity|]. split; [split; [apply hmac_len|reflexivity]|]. apply splice_written. rewrite hmac_len. lia.
      * exists o, (Failed InvalidSize). unfold HMAC_Finalize. rewrite (proj1 HO : h_init o = true). cbn [guard bind]. rewrite window_ok by lia. rewrite (proj2 (Nat.leb_gt _ _) L). cbn [guard bind fst snd caught]. auto.
  - cbn [mstep hmac_ops m_sec mspec]. destruct st as [|k m|]; [| |contradiction].
    + exists o, (Failed NotInitialized). unfold HMAC_FinalizeS, HMAC_Finalize. rewrite (proj1 HO : h_init o = false). cbn [guard bind fst snd caught]. auto.
    + destruct (hfin k m o (zeros n) 0 HO) as (o' & E' & R'); [rewrite length_zeros; lia|]. unfold HMAC_FinalizeS. rewrite E'. cbn [bind].
      rewrite splice_all by (rewrite length_zeros; apply hmac_len). rewrite wcopy_ok by (rewrite ?hmac_len; lia). cbn [bind caught]. rewrite slice_all by (now rewrite hmac_len).
      exists o', (Wrote (splice out oo (hmac H rate k m))). cbn [fst snd after_secure hmac_mac_spec]. split; [reflexivity|]. split; [|exact R'].
      eexists; exists (hmac H rate k m). split; [reflexivity|]. split; [split; [apply hmac_len|reflexivity]|]. apply splice_written. rewrite hmac_len. lia.
  - cbn [mstep hmac_ops m_comp mspec]. destruct st as [|k m|]; [| |contradiction].
    + exists o, (Failed NotInitialized). unfold HMAC_Compute. rewrite (proj1 HO : h_init o = false). cbn [guard bind fst snd caught]. auto.
    + cbn [tagsize hmac_mac_spec]. unfold HMAC_Compute. rewrite (proj1 HO : h_init o = true). cbn [guard bind].
      destruct (Nat.leb_spec n (length out)) as [L|L].
      * rewrite (proj2 (Nat.ltb_ge _ _) L). cbn [negb guard bind].
        destruct (hupd k m o (Piece inp 0 (length inp)) HO) as (o1 & E1 & R1); [cbn; lia|exact HC|]. cbn [p_in p_off p_len] in E1. rewrite E1. cbn [bind].
        unfold p_data in R1. cbn [p_in p_off p_len] in R1. rewrite slice_all in R1 by reflexivity.
        destruct (hfin k _ o1 out 0%nat R1 L) as (o' & -> & R'). exists o', (Wrote (splice out 0 (hmac H rate k (m ++ inp)))). cbn [caught fst snd after_final add]. split; [reflexivity|]. split; [|exact R'].
        eexists; exists (hmac H rate k (m ++ inp)). split; [reflexivity|]. split; [split; [apply hmac_len|reflexivity]|]. cbn [compute_shrinks]. apply splice_written. rewrite hmac_len. lia.
      * rewrite (proj2 (Nat.ltb_lt _ _) L). cbn [negb guard bind caught]. exists o, (Failed InvalidSize). cbn [fst snd]. auto.
  - cbn [mstep hmac_ops m_reset mspec]. destruct (hreset o st HO) as (o' & -> & R'). exists o', Done. cbn [bind fst snd]. auto.
Qed.
Lemma hmac_new_HR : HR MNone (HMAC_new rate dnew).
Proof. cbn [HR HMAC_new h_init h_gen h_ipad h_opad]. rewrite !length_zeros. auto. Qed.
Lemma hmac_hist cs : Forall (mcall_ok n) cs -> exists rs, mhistory (hmac_ops rate n dupd dfin dnew) (HMAC_new rate dnew) cs = Ok rs /\ mexpected (hmac_mac_spec rate n H) MNone cs rs.
Proof. intros HF. exact (mhistory_ok (hmac_ops rate n dupd dfin dnew) (hmac_mac_spec rate n H) n HR hmac_step cs MNone _ hmac_new_HR HF). Qed.
End hmac.
