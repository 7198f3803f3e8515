(** GMAC: every call history. *)
From Verif Require Import BaseLemmas Spec_Common Spec_Feed Spec_GCM Session_Digest Model_IntegerTools Proofs_IntegerTools Model_Modes Proofs_Windows Model_GHASH Proofs_GF Proofs_CMUL Proofs_GHASH Proofs_GCM Model_KDF Proofs_KDF Proofs_Common Proofs_Mac Model_GMAC Session_GMAC.
Open Scope Z_scope.

Lemma Finalize0_any h g tag a c : blk16 h -> gh_key g = key_of h -> gh_pos g = 0%nat -> blk16 (gh_buf g) -> blk16 tag -> GHASH_Finalize g tag a c = Ok (g, ghash_from h tag [len_block a c]).
Proof.
  intros Hh HK HP HB Ht. destruct (Finalize_any h tag [] g tag a c Hh Ht (ginv_start h tag g HK HB HP)) as (g' & EQ & _). cbn [app] in EQ. change (pad_blocks []) with (@nil (list Z)) in EQ. cbn [app] in EQ.
  unfold GHASH_Finalize in EQ |- *. rewrite HP in EQ |- *. cbn [Nat.eqb bind] in EQ |- *.
  destruct (Be64ToBytes (u64 (Z.of_nat a * 8)) (zeros 16) 0) as [t| |]; cbn [bind] in EQ |- *; try discriminate.
  destruct (Be64ToBytes (u64 (Z.of_nat c * 8)) t 8) as [t'| |]; cbn [bind] in EQ |- *; try discriminate.
  destruct (wxor t' 0 tag 0 16) as [t''| |]; cbn [bind] in EQ |- *; try discriminate.
  destruct (GHASH_Permute (gh_key g) t'') as [t3| |]; cbn [bind] in EQ |- *; try discriminate. injection EQ as _ ->. reflexivity.
Qed.
Lemma upd15 (n : list Z) : length n = 12%nat -> upd (resized n 16) 15 1 = n ++ [0; 0; 0; 1].
Proof. intros L. do 12 (destruct n as [|? n]; [discriminate|]). destruct n; [|discriminate]. reflexivity. Qed.
Section G.
Context (E : list Z -> list Z -> list Z) (legal : nat -> bool).
Hypothesis HE : forall k b, bytes b /\ length b = 16%nat -> bytes (E k b) /\ length (E k b) = 16%nat.
Definition GR (st : option (list Z * list Z * list Z)) (o : gmac) : Prop :=
  match st with
  | None => ga_init o = false /\ ga_gh o = GHASH_Reset /\ ga_state o = zeros 16 /\ ga_count o = 0%nat
  | Some (key, iv, m) => ga_init o = true /\ bytes iv /\ bytes m /\ ginv (E key (zeros 16)) (zeros 16) m (ga_gh o) (ga_state o) /\ ga_nonce o = E key (gcm_j0 (E key (zeros 16)) iv) /\ ga_count o = length m
  end.
Lemma new_GR : GR None GMAC_new. Proof. repeat split. Qed.
Lemma reset_GR o : exists o', GMAC_Reset o = Ok o' /\ GR None o'.
Proof. eexists. split; [reflexivity|]. repeat split. Qed.
Lemma h_blk key : blk16 (E key (zeros 16)).
Proof using E legal HE. apply HE. apply blk16_zeros. Qed.
Lemma nonce_ok h old iv : blk16 h -> bytes iv -> GMAC_nonce (GHASH_Initialize GHASH_Reset (key_of h)) old iv = Ok (GHASH_Initialize GHASH_Reset (key_of h), gcm_j0 h iv).
Proof.
  intros Hh Hi. unfold GMAC_nonce, gcm_j0. set (g := GHASH_Initialize _ _).
  rewrite wcopy_ok by (rewrite ?resized_len; lia). cbn [bind]. rewrite slice_all by reflexivity. rewrite splice_all by (now rewrite resized_len).
  destruct (Nat.eqb_spec (length iv) 12) as [Q|Q].
  - rewrite put_ok by (rewrite resized_len; lia). cbn [bind]. now rewrite upd15.
  - rewrite (Multiply_ok h) by (auto; apply blk16_zeros). cbn [bind].
    assert (BY : blk16 (ghash_from h (zeros 16) (pad_blocks iv))) by (apply ghash_from_blk, blk16_zeros).
    rewrite (Finalize0_any h) by (auto; apply blk16_zeros). cbn [bind]. rewrite <- ghash_from_app.
    assert (W : exists n', (if (16 <? length iv)%nat then wr iv 16 (zeros (length iv - 16)) else Ok iv) = Ok n') by (destruct (Nat.ltb_spec 16 (length iv)); [rewrite wr_ok by (rewrite length_zeros; lia)|]; eauto). destruct W as (n' & ->). cbn [bind].
    set (y := ghash_from h (zeros 16) (pad_blocks iv ++ [len_block 0 (length iv)])). assert (By : blk16 y) by (apply ghash_from_blk, blk16_zeros). destruct By as [_ Ly].
    rewrite wcopy_ok by (rewrite ?resized_len; lia). cbn [bind]. rewrite slice_all by (now symmetry). rewrite splice_all by (rewrite resized_len; lia). reflexivity.
Qed.
Lemma init_GR o key iv : GR None o -> bytes iv -> (16 <= length key)%nat -> (12 <= length iv)%nat -> legal (length key) = true -> exists o', GMAC_Initialize E legal o key iv = Ok (o', None) /\ GR (Some (key, iv, [])) o'.
Proof using E legal HE.
  intros (I0 & G0 & S0 & C0) Hi Lk Li HL. unfold GMAC_Initialize. rewrite (proj2 (Nat.ltb_ge _ _) Lk), (proj2 (Nat.ltb_ge _ _) Li), I0. cbn [bind]. rewrite HL. cbn [negb].
  pose proof (h_blk key) as Hh. assert (L := proj2 Hh). rewrite blk_ok; [|rewrite length_zeros; lia|rewrite length_zeros; lia|rewrite slice_all by reflexivity; exact L]. rewrite slice_all by reflexivity. rewrite splice_all by (rewrite length_zeros; exact L). cbn [bind].
  destruct (key_of_val _ Hh) as (K1 & K2). rewrite K1. cbn [bind]. rewrite K2. cbn [bind]. rewrite G0. rewrite <- surjective_pairing. rewrite nonce_ok by auto. cbn [bind].
  pose proof (j0_blk _ iv Hh Hi) as HJ. destruct (HE key _ HJ) as [B1 L1]. destruct HJ as [JB JL]. rewrite blk_ok; [|lia|lia|rewrite slice_all by (now symmetry); exact L1]. rewrite slice_all by (now symmetry). rewrite splice_all by lia. cbn [bind].
  eexists. split; [reflexivity|]. cbn [GR ga_init ga_gh ga_state ga_nonce ga_count]. rewrite S0, C0. split; [reflexivity|]. split; [exact Hi|]. split; [now constructor|]. split; [apply ginv_start; [reflexivity|apply blk16_zeros|reflexivity]|]. now split.
Qed.
Lemma upd_GR key iv m o inp io len : GR (Some (key, iv, m)) o -> bytes inp -> (io + len <= length inp)%nat -> exists o', GMAC_Update o inp io len = Ok o' /\ GR (Some (key, iv, m ++ slice inp io len)) o'.
Proof using E legal HE.
  intros (I0 & Bi & Bm & G & N & C) HB HL. unfold GMAC_Update. rewrite I0. cbn [guard bind]. rewrite window_ok by lia. rewrite (proj2 (Nat.leb_le _ _) HL). cbn [guard bind].
  destruct (Nat.eqb_spec len 0) as [->|NZ]; [exists o; split; [reflexivity|]; rewrite slice_n0, app_nil_r; exact (conj I0 (conj Bi (conj Bm (conj G (conj N C)))))|].
  destruct (Update_ok _ (zeros 16) m (ga_gh o) (ga_state o) inp io len (h_blk key) blk16_zeros G HB HL) as (g' & t' & EU & G'). rewrite EU. cbn [bind].
  eexists. split; [reflexivity|]. cbn [GR ga_init ga_gh ga_state ga_nonce ga_count]. split; [reflexivity|]. split; [exact Bi|]. split; [apply bytes_app; split; [exact Bm|now apply bytes_slice]|]. split; [exact G'|]. split; [exact N|]. rewrite app_length, length_slice by lia. lia.
Qed.
Lemma fin_GR key iv m o out oo : GR (Some (key, iv, m)) o -> (oo + 16 <= length out)%nat -> exists o', GMAC_Finalize o out oo = Ok (o', splice out oo (gmac_of E key iv m)) /\ GR None o' /\ length (gmac_of E key iv m) = 16%nat.
Proof using E legal HE.
  intros (I0 & Bi & Bm & G & N & C) HL. unfold GMAC_Finalize. rewrite I0. cbn [guard bind]. rewrite window_ok by lia. rewrite (proj2 (Nat.leb_le _ _) HL). cbn [guard bind].
  destruct (Finalize_any _ (zeros 16) m (ga_gh o) (ga_state o) (ga_count o) 0 (h_blk key) blk16_zeros G) as (g' & EF & _). rewrite EF. cbn [bind].
  set (t := ghash_from _ _ _). assert (Bt : blk16 t) by (apply ghash_from_blk, blk16_zeros). destruct Bt as [Bt Lt]. destruct (HE key (gcm_j0 (E key (zeros 16)) iv) (j0_blk _ iv (h_blk key) Bi)) as [BN LN]. rewrite N.
  rewrite xor_block by lia. cbn [bind]. rewrite slice_all by (now symmetry).
  assert (ET : xorl t (E key (gcm_j0 (E key (zeros 16)) iv)) = gmac_of E key iv m) by (unfold gmac_of, gcm_tag, ghash_of, t; rewrite C; reflexivity). rewrite ET.
  assert (LT : length (gmac_of E key iv m) = 16%nat) by (rewrite <- ET, length_xorl; lia).
  rewrite wcopy_ok by lia. cbn [bind]. rewrite slice_all by (now symmetry). destruct (reset_GR o) as (o' & -> & R). cbn [bind]. exists o'. auto.
Qed.
Lemma gmac_step st o c : GR st o -> gcall_ok c -> exists o' r, gstep E legal o c = Ok (o', r) /\ snd (gspec E legal st c) r /\ GR (fst (gspec E legal st c)) o'.
Proof using E legal HE.
  intros H HC. destruct c as [key iv|p|out oo|out oo|inp out|]; cbn [gcall_ok] in HC; cbn [gstep gspec].
  - destruct (Nat.ltb_spec (length key) 16) as [L|L]; [exists o, (Failed InvalidKey); unfold GMAC_Initialize; rewrite (proj2 (Nat.ltb_lt _ _) L); cbn [bind fst snd]; auto|].
    destruct (Nat.ltb_spec (length iv) 12) as [L'|L']; [exists o, (Failed InvalidSalt); unfold GMAC_Initialize; rewrite (proj2 (Nat.ltb_ge _ _) L), (proj2 (Nat.ltb_lt _ _) L'); cbn [bind fst snd]; auto|].
    assert (exists o1, GR None o1 /\ GMAC_Initialize E legal o key iv = GMAC_Initialize E legal o1 key iv) as (o1 & R1 & ->).
    { destruct st as [[[k0 i0] m0]|]; [|exists o; auto]. destruct (reset_GR o) as (o1 & Er & R1). exists o1. split; [exact R1|]. unfold GMAC_Initialize. rewrite (proj2 (Nat.ltb_ge _ _) L), (proj2 (Nat.ltb_ge _ _) L'), (proj1 H : ga_init o = true), Er, (proj1 R1 : ga_init o1 = false). reflexivity. }
    destruct (legal (length key)) eqn:Lg.
    + destruct (init_GR o1 key iv R1 HC L L' Lg) as (o' & -> & R'). exists o', Done. cbn [bind fst snd]. auto.
    + exists o1, (Failed InvalidKey). unfold GMAC_Initialize. rewrite (proj2 (Nat.ltb_ge _ _) L), (proj2 (Nat.ltb_ge _ _) L'), (proj1 R1 : ga_init o1 = false). cbn [bind]. rewrite Lg. cbn [negb bind fst snd]. auto.
  - destruct st as [[[key iv] m]|].
    + destruct HC as [HO HB]. destruct (Nat.leb_spec (p_off p + p_len p) (length (p_in p))) as [L|L].
      * destruct (upd_GR key iv m o _ _ _ H HB L) as (o' & -> & R'). exists o', Done. cbn [fst snd]. auto.
      * exists o, (Failed InvalidSize). unfold GMAC_Update. rewrite (proj1 H : ga_init o = true). cbn [guard bind]. rewrite window_ok by lia. rewrite (proj2 (Nat.leb_gt _ _) L). cbn [guard bind fst snd]. auto.
    + exists o, (Failed NotInitialized). unfold GMAC_Update. rewrite (proj1 H : ga_init o = false). cbn [guard bind fst snd]. auto.
  - destruct st as [[[key iv] m]|].
    + destruct (Nat.leb_spec (oo + 16) (length out)) as [L|L].
      * destruct (fin_GR key iv m o out oo H L) as (o' & -> & R' & LT). cbn [caught]. exists o', (Wrote (splice out oo (gmac_of E key iv m))). cbn [fst snd]. split; [reflexivity|]. split; [|exact R']. eexists. split; [reflexivity|]. apply splice_written. lia.
      * exists o, (Failed InvalidSize). unfold GMAC_Finalize. rewrite (proj1 H : ga_init o = true). cbn [guard bind]. rewrite window_ok by lia. rewrite (proj2 (Nat.leb_gt _ _) L). cbn [guard bind caught fst snd]. auto.
    + exists o, (Failed NotInitialized). unfold GMAC_Finalize. rewrite (proj1 H : ga_init o = false). cbn [guard bind caught fst snd]. auto.
  - destruct st as [[[key iv] m]|].
    + unfold GMAC_FinalizeS. destruct (fin_GR key iv m o (zeros 16) 0 H ltac:(rewrite length_zeros; lia)) as (o' & -> & R' & LT). cbn [bind]. rewrite splice_all by (rewrite length_zeros; exact LT). rewrite wcopy_ok by lia. cbn [bind caught]. rewrite slice_all by (now symmetry).
      exists o', (Wrote (splice out oo (gmac_of E key iv m))). cbn [fst snd]. split; [reflexivity|]. split; [|exact R']. eexists. split; [reflexivity|]. apply splice_written. lia.
    + exists o, (Failed NotInitialized). unfold GMAC_FinalizeS, GMAC_Finalize. rewrite (proj1 H : ga_init o = false). cbn [guard bind caught fst snd]. auto.
  - destruct st as [[[key iv] m]|].
    + unfold GMAC_Compute. rewrite (proj1 H : ga_init o = true). cbn [guard bind]. destruct (Nat.leb_spec 16 (length out)) as [L|L].
      * rewrite (proj2 (Nat.ltb_ge _ _) L). cbn [negb guard bind]. destruct (upd_GR key iv m o inp 0 (length inp) H HC (le_n _)) as (o1 & -> & R1). cbn [bind]. rewrite slice_all in R1 by reflexivity.
        destruct (fin_GR key iv _ o1 out 0 R1 L) as (o' & -> & R' & LT). cbn [caught]. exists o', (Wrote (splice out 0 (gmac_of E key iv (m ++ inp)))). cbn [fst snd]. split; [reflexivity|]. split; [|exact R']. eexists. split; [reflexivity|]. apply splice_written. lia.
      * exists o, (Failed InvalidSize). rewrite (proj2 (Nat.ltb_lt _ _) L). cbn [negb guard bind caught fst snd]. auto.
    + exists o, (Failed NotInitialized). unfold GMAC_Compute. rewrite (proj1 H : ga_init o = false). cbn [guard bind caught fst snd]. auto.
  - destruct (reset_GR o) as (o' & -> & R). exists o', Done. cbn [bind fst snd]. auto.
Qed.
Lemma gmac_hist cs : Forall gcall_ok cs -> exists rs, ghistory E legal GMAC_new cs = Ok rs /\ gexpected E legal None cs rs.
Proof using E legal HE.
  generalize new_GR. generalize GMAC_new as o, (@None (list Z * list Z * list Z)) as st. induction cs as [|c cs IH]; intros o st Ho Hc; [exists []; split; [reflexivity|exact I]|].
  inversion Hc as [|? ? C1 C2]; subst. cbn [ghistory]. destruct (gmac_step st o c Ho C1) as (o' & r & -> & S & R'). cbn [bind fst snd].
  destruct (IH _ _ R' C2) as (rs & -> & F). cbn [bind]. eexists. split; [reflexivity|]. cbn [gexpected]. auto.
Qed.
End G.
Lemma one_message E legal key iv m out : (forall k b, bytes b /\ length b = 16%nat -> bytes (E k b) /\ length (E k b) = 16%nat) ->
  (16 <= length key)%nat -> legal (length key) = true -> bytes iv -> (12 <= length iv)%nat -> bytes m -> length out = 16%nat ->
  ghistory E legal GMAC_new [GInit key iv; GCompute m out] = Ok [Done; Wrote (gcm_tag (E key) iv m [])].
Proof.
  intros HE Lk HL Bi Li Bm Lo. cbn [ghistory gstep]. destruct (init_GR E legal HE GMAC_new key iv (new_GR E) Bi Lk Li HL) as (o & -> & R). cbn [bind fst snd]. unfold GMAC_Compute. rewrite (proj1 R : ga_init o = true). cbn [guard bind]. rewrite Lo. cbn [Nat.ltb Nat.leb negb guard bind].
  destruct (upd_GR E legal HE key iv [] o m 0 (length m) R Bm (le_n _)) as (o1 & -> & R1). cbn [bind]. rewrite slice_all in R1 by reflexivity. cbn [app] in R1.
  destruct (fin_GR E legal HE key iv m o1 out 0 R1 ltac:(lia)) as (o' & -> & R' & LT). cbn [caught bind fst snd]. rewrite splice_all by lia. reflexivity.
Qed.
