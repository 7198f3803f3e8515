(** * Properties of the HBA authenticated mode: C72, C73 *)
From Verif Require Import Base Spec_Common Spec_MAC Spec_SHA2 Session_SHA2 Spec_Modes Session_KMAC Session_CSX ProofsP_CSX3 Session_Block Session_SHX Model_Modes Spec_HBA Model_HBA Session_HBA ProofsP_HBA.
Open Scope Z_scope.

(** ** C72 every history, every conversation *)
(** any calls on a new object, with any windows, profile and schedule: each answers as Spec_HBA says *)
Theorem C72_every_history {M} (a : engine M) A hk E legal nm iok s p enc cs : hba_authenticator a A hk -> hba_cipher E legal nm iok hk -> hcalls_ok legal p iok (ha_tag A) enc cs ->
  exists rs, hhistory a E legal nm s p (H_new a) cs = Ok rs /\ hexpected A E legal nm (HIdle [] []) cs rs.
Proof. exact (fun HA HC => c72_hist a A hk E legal nm iok HA HC s p enc cs). Qed.
Print Assumptions C72_every_history.
Example C72_every_history_case : hcalls_ok (cp_legal (v_cipher v_AES)) (Build_prof true 128 2) (v_info v_AES) 32 true
  [HAad [1] 0 1; HInit true key1 hiv []; HAad [1; 2; 3] 1 2; HTransform (zeros 300) 7 (zeros 400) 3 280 (fun _ => [1; 0]%nat); HTag; HInit false key1 [1] []; HInit false key1 hiv [9]; HTransform (zeros 40) 1 (zeros 7) 0 7 (fun _ => [0; 1]%nat)].
Proof.
  cbn [hcalls_ok hcall_ok]. unfold short. small; try workers; try (vm_compute; intuition congruence); try (cbn; lia).
Qed.
(** every block cipher of C40 and C41 qualifies: AES, RHX, Serpent and SHX with their key schedules *)
Theorem C72_ciphers v nm hk : In v (rhx_variants ++ shx_variants) -> bytes nm -> (length nm <= 48)%nat -> hba_cipher (fun k i b => cp_enc (v_cipher v) k i (map u8 b)) (cp_legal (v_cipher v)) nm (v_info v) hk.
Proof. exact (c72_cipher v nm hk). Qed.
Print Assumptions C72_ciphers.
Example C72_ciphers_case : In v_AES (rhx_variants ++ shx_variants) /\ (length [72; 66; 65; 45; 65; 69; 83]%Z <= 48)%nat /\ hba_authenticator (kmac_engine 136 32 32) (kmac_auth 136 32) false.
Proof. split; [left; reflexivity|]. split; [cbn; lia|]. constructor. Qed.
(** whatever one side seals, with any associated data, a second object opens, with any other profile and schedule *)
Theorem C72_round_trip {M} (a : engine M) A hk E legal nm iok s s' p p' key iv info ls : hba_authenticator a A hk -> hba_cipher E legal nm iok hk -> haccepted A legal iok key iv info -> Forall (hletter_ok (ha_tag A) p p') ls ->
  exists rs rs', hhistory a E legal nm s p (H_new a) (HInit true key iv info :: hseal_calls (ha_tag A) ls) = Ok rs /\ map (@length Z) (houts rs) = map (fun l => (length (hl_msg l) + ha_tag A)%nat) ls /\
    hhistory a E legal nm s' p' (H_new a) (HInit false key iv info :: hopen_calls (ha_tag A) ls (houts rs)) = Ok rs' /\ houts rs' = map hl_msg ls.
Proof. exact (fun HA HC => c72_trip a A hk E legal nm iok HA HC s s' p p' key iv info ls). Qed.
Print Assumptions C72_round_trip.
Example C72_round_trip_case : haccepted (kmac_auth 72 64) (cp_legal (v_cipher v_AES)) (v_info v_AES) key1 hiv [1; 2; 3; 4] /\
  Forall (hletter_ok 64 (Build_prof false 128 2) (Build_prof true 128 2)) [HLetter [[1; 2]; []] [1; 2; 3] (fun _ => []) (fun _ => [1; 0]%nat); HLetter [] [] (fun _ => []) (fun _ => [0; 1]%nat)].
Proof.
  split; [unfold haccepted, short; small; try reflexivity; try (cbn; lia); intros _; right; cbn; lia|].
  repeat (apply Forall_cons; [unfold hletter_ok; cbn [hl_msg hl_aad hl_ord hl_ord']; small; try workers; try (cbn; lia); repeat (apply Forall_cons; [unfold short; small; cbn; lia|]); apply Forall_nil|]); apply Forall_nil.
Qed.

(** ** C73 what is refused, and what should not be *)
(** after any conversation, the next ciphertext with any other tag is refused and nothing is written *)
Theorem C73_tampered_tag {M} (a : engine M) A hk E legal nm iok s s' p p' key iv info ls l ps ct tg tg' : hba_authenticator a A hk -> hba_cipher E legal nm iok hk ->
  haccepted A legal iok key iv info -> Forall (hletter_ok (ha_tag A) p p') (ls ++ [l]) -> length tg = ha_tag A -> length tg' = ha_tag A -> bytes tg' -> tg' <> tg ->
  forall rs, hhistory a E legal nm s p (H_new a) (HInit true key iv info :: hseal_calls (ha_tag A) (ls ++ [l])) = Ok rs -> houts rs = ps ++ [ct ++ tg] ->
  exists rs', hhistory a E legal nm s' p' (H_new a) (HInit false key iv info :: hopen_calls (ha_tag A) (ls ++ [l]) (ps ++ [ct ++ tg'])) = Ok (rs' ++ [HFail AuthenticationFailure (zeros (length (hl_msg l)))]) /\ houts rs' = map hl_msg ls.
Proof. exact (fun HA HC => c73_tamper a A hk E legal nm iok HA HC s s' p p' key iv info ls l ps ct tg tg'). Qed.
Print Assumptions C73_tampered_tag.
Example C73_tampered_tag_case : hletter_ok 32 (Build_prof false 128 2) (Build_prof false 128 2) (HLetter [[7]] [1; 2; 3] (fun _ => []) (fun _ => [])) /\ bytes (repeat 1 32) /\ repeat 1%Z 32 <> repeat 2%Z 32 /\
  haccepted (hmac_auth sha256 64 32) (cp_legal (v_cipher v_AES)) (v_info v_AES) key1 hiv [1].
Proof.
  split; [unfold hletter_ok; cbn [hl_msg hl_aad hl_ord hl_ord']; small; try workers; try (cbn; lia); repeat (apply Forall_cons; [unfold short; small; cbn; lia|]); apply Forall_nil|].
  split; [apply Forall_forall; intros x H; apply repeat_spec in H; subst x; red; lia|]. split; [discriminate|]. unfold haccepted, short. small; try reflexivity; try (cbn; lia); discriminate.
Qed.
(** a Transform refused for want of room has already given the counter block to the authenticator: the next packet
    carries a tag over two counter blocks, and the receiver refuses it *)
Theorem C73_refused_transform_refuted {M} (a : engine M) A hk E legal nm iok s s' p p' key iv info m ord ord0 ord' : hba_authenticator a A hk -> hba_cipher E legal nm iok hk ->
  haccepted A legal iok key iv info -> bytes m -> 8 * (Z.of_nat (length m) + Z.of_nat (ha_tag A)) < 2 ^ 64 -> fair p ord -> fair p ord0 -> fair p' ord' ->
  let mk := snd (ha_first A key info (label_of 1 (label_rest nm key))) in let total := le_bytes 8 ((1 + Z.of_nat (length m)) mod 2 ^ 64 + 24) in
  exists ct, length ct = length m /\
    hhistory a E legal nm s p (H_new a) [HInit true key iv info; HTransform m 0 [] 0 (length m) ord0; hsend (ha_tag A) m ord] =
      Ok [HDone; HFail InvalidSize []; HOut (ct ++ ha_mac A mk (iv ++ iv ++ ct ++ total))] /\
    (ha_mac A mk (iv ++ iv ++ ct ++ total) <> ha_mac A mk (iv ++ ct ++ total) ->
     hhistory a E legal nm s' p' (H_new a) [HInit false key iv info; hask (ct ++ ha_mac A mk (iv ++ iv ++ ct ++ total)) (length m) ord'] = Ok [HDone; HFail AuthenticationFailure (zeros (length m))]).
Proof. exact (fun HA HC => c73_refused a A hk E legal nm iok HA HC s s' p p' key iv info m ord ord0 ord'). Qed.
Print Assumptions C73_refused_transform_refuted.
Example C73_refused_transform_case : let A := hmac_auth sha256 64 32 in let mk := snd (ha_first A key1 [] (label_of 1 (label_rest [72; 66; 65] key1))) in
  (if list_eq_dec Z.eq_dec (ha_mac A mk (hiv ++ hiv ++ [] ++ le_bytes 8 25)) (ha_mac A mk (hiv ++ [] ++ le_bytes 8 25)) then true else false) = false.
Proof. vm_compute. reflexivity. Qed.
(** a refused packet leaves the counter block where it was but replaces the MAC key and adds to the total: the genuine
    packet that follows is refused as well *)
Theorem C73_after_refusal_refuted {M} (a : engine M) A hk E legal nm iok s s' p p' key iv info m1 m2 bad o1 o2 o1' o2' : hba_authenticator a A hk -> hba_cipher E legal nm iok hk ->
  haccepted A legal iok key iv info -> bytes m1 -> bytes m2 ->
  8 * (Z.of_nat (length m1) + Z.of_nat (ha_tag A)) < 2 ^ 64 -> 8 * (Z.of_nat (length m2) + Z.of_nat (ha_tag A)) < 2 ^ 64 -> fair p o1 -> fair p o2 -> fair p' o1' -> fair p' o2' -> bytes bad -> length bad = ha_tag A ->
  let mk1 := snd (ha_first A key info (label_of 1 (label_rest nm key))) in
  let total1 := (1 + Z.of_nat (length m1)) mod 2 ^ 64 in
  let mk := ha_next A (length key) mk1 info (label_of total1 (label_rest nm key)) in
  let total := le_bytes 8 ((total1 + Z.of_nat (length m2)) mod 2 ^ 64 + 24) in
  exists c1 t1 c2, length c1 = length m1 /\ length c2 = length m2 /\
    let next := le_bytes 16 (value_le iv + Z.of_nat (Spec_Modes.blocks_for (length m1))) in
    let t2 := ha_mac A mk (next ++ c2 ++ total) in
    hhistory a E legal nm s p (H_new a) [HInit true key iv info; hsend (ha_tag A) m1 o1; hsend (ha_tag A) m2 o2] = Ok [HDone; HOut (c1 ++ t1); HOut (c2 ++ t2)] /\
    (bad <> t1 -> t2 <> ha_mac A mk (iv ++ c2 ++ total) ->
     hhistory a E legal nm s' p' (H_new a) [HInit false key iv info; hask (c1 ++ bad) (length m1) o1'; hask (c2 ++ t2) (length m2) o2'] =
       Ok [HDone; HFail AuthenticationFailure (zeros (length m1)); HFail AuthenticationFailure (zeros (length m2))]).
Proof. exact (fun HA HC => c73_desync a A hk E legal nm iok HA HC s s' p p' key iv info m1 m2 bad o1 o2 o1' o2'). Qed.
Print Assumptions C73_after_refusal_refuted.
Example C73_after_refusal_case : let A := hmac_auth sha256 64 32 in let mk1 := snd (ha_first A key1 [] (label_of 1 (label_rest [72; 66; 65] key1))) in
  let mk := ha_next A 32 mk1 [] (label_of 2 (label_rest [72; 66; 65] key1)) in
  (if list_eq_dec Z.eq_dec (ha_mac A mk (le_bytes 16 (value_le hiv + 1) ++ [] ++ le_bytes 8 26)) (ha_mac A mk (hiv ++ [] ++ le_bytes 8 26)) then true else false) = false.
Proof. vm_compute. reflexivity. Qed.
(** Tag() after a refused packet is the tag that would have been accepted *)
Theorem C73_tag_oracle_refuted {M} (a : engine M) A hk E legal nm iok s p key iv info ct tg ord : hba_authenticator a A hk -> hba_cipher E legal nm iok hk ->
  haccepted A legal iok key iv info -> bytes ct -> bytes tg -> length tg = ha_tag A -> 8 * (Z.of_nat (length ct) + Z.of_nat (ha_tag A)) < 2 ^ 64 -> fair p ord ->
  exists r t pt, hhistory a E legal nm s p (H_new a) [HInit false key iv info; hask (ct ++ tg) (length ct) ord; HTag] = Ok [HDone; r; HOut t] /\ length t = ha_tag A /\
    hhistory a E legal nm s p (H_new a) [HInit false key iv info; hask (ct ++ t) (length ct) ord] = Ok [HDone; HOut pt].
Proof. exact (fun HA HC => c73_oracle a A hk E legal nm iok HA HC s p key iv info ct tg ord). Qed.
Print Assumptions C73_tag_oracle_refuted.
Example C73_tag_oracle_case : bytes [1; 2; 3] /\ bytes (zeros 32) /\ length (zeros 32) = ha_tag (hmac_auth sha256 64 32) /\ fair (Build_prof false 128 2) (fun _ => []).
Proof. split; [small|]. split; [apply BaseLemmas.bytes_zeros|]. split; [reflexivity|]. unfold fair. discriminate. Qed.
(** SetAssociatedData refuses every window that starts after its own length, however long the array *)
Theorem C73_associated_window_refuted {M} (a : engine M) A hk E legal nm iok s p enc key iv info inp off len : hba_authenticator a A hk -> hba_cipher E legal nm iok hk ->
  haccepted A legal iok key iv info -> bytes inp -> short inp -> (off + len <= length inp)%nat -> (len < off)%nat ->
  hhistory a E legal nm s p (H_new a) [HInit enc key iv info; HAad inp off len] = Ok [HDone; HFail InvalidSize []].
Proof. exact (fun HA HC => c73_aad a A hk E legal nm iok HA HC s p enc key iv info inp off len). Qed.
Print Assumptions C73_associated_window_refuted.
Example C73_associated_window_case : bytes [1; 2; 3; 4; 5] /\ short [1; 2; 3; 4; 5] /\ (3 + 2 <= length [1%Z; 2%Z; 3%Z; 4%Z; 5%Z])%nat.
Proof. split; [small|]. split; [red; cbn; lia|cbn; lia]. Qed.
(** with KMAC, an info string of one to three bytes is refused and stays behind: a second Initialize without info, which
    a new object accepts, is refused too *)
Theorem C73_short_info_refuted {M} (a : engine M) A hk E legal nm iok s p enc key iv info : hba_authenticator a A hk -> hba_cipher E legal nm iok hk ->
  ha_strict A = true -> bytes key -> bytes iv -> bytes info -> iok info -> iok [] -> legal (length key) = true -> length iv = 16%nat -> (0 < length info < 4)%nat ->
  hhistory a E legal nm s p (H_new a) [HInit enc key iv info; HInit enc key iv []] = Ok [HFail InvalidSalt []; HFail InvalidSalt []] /\
  hhistory a E legal nm s p (H_new a) [HInit enc key iv []] = Ok [HDone].
Proof. exact (fun HA HC => c73_short a A hk E legal nm iok HA HC s p enc key iv info). Qed.
Print Assumptions C73_short_info_refuted.
Example C73_short_info_case : ha_strict (kmac_auth 136 32) = true /\ v_info v_AES [1; 2; 3] /\ v_info v_AES [] /\ cp_legal (v_cipher v_AES) 32 = true.
Proof. repeat split. Qed.
(** with HMAC, the cipher runs with a key of 32 bytes unless the user's has 64, whatever size was asked for *)
Theorem C73_cipher_key_size_refuted {M} (a : engine M) A hk E legal nm iok enc key iv info : hba_authenticator a A hk -> hba_cipher E legal nm iok hk ->
  haccepted A legal iok key iv info -> hk = true ->
  exists o, H_Initialize a legal nm (H_new a) enc key iv info = Ok (o, [], None) /\ length (b_ckey o) = (if (length key =? 64)%nat then 64 else 32)%nat.
Proof. exact (fun HA HC => c73_key a A hk E legal nm iok HA HC enc key iv info). Qed.
Print Assumptions C73_cipher_key_size_refuted.
Example C73_cipher_key_size_case : haccepted (hmac_auth sha256 64 32) (cp_legal (v_cipher v_AES)) (v_info v_AES) hiv hiv [] /\ length hiv = 16%nat.
Proof. split; [|reflexivity]. unfold haccepted, short. small; try reflexivity; try (cbn; lia); discriminate. Qed.
