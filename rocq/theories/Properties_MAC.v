(** * Properties of CMAC and HMAC: C26, C27 *)
From Verif Require Import BaseLemmas Spec_Common Spec_Feed Spec_SHA2 Spec_MAC Model_SHA2 Model_CMAC Model_HMAC Session_Digest Session_SHA2 Session_Mac Session_MacObjs ProofsP_SHA2 Proofs_CMAC ProofsP_MAC.
Open Scope Z_scope.

(** ** C26 CMAC *)
(** every sequence of Initialize, Update, Finalize (both forms), Compute and Reset calls, over every 128-bit block cipher.
    A tag written into a std::vector leaves the object used up (nothing is promised until the next Initialize),
    a tag written into a SecureVector removes the key *)
Theorem C26_every_history E legal cs :
  (forall k b, bytes b /\ length b = 16%nat -> bytes (E k b) /\ length (E k b) = 16%nat) ->
  Forall (mcall_ok 16) cs ->
  exists rs, mhistory (cmac_ops E legal) CMAC_new cs = Ok rs /\ mexpected (cmac_mac_spec E legal) MNone cs rs.
Proof. exact (fun HE => c26_hist E legal HE cs). Qed.
Print Assumptions C26_every_history.
Definition toy_cipher (k b : list Z) : list Z := map (fun x => (5 * x + 1 + nth 0 k 0) mod 256) b.
Example C26_case :
  (forall k b, bytes b /\ length b = 16%nat -> bytes (toy_cipher k b) /\ length (toy_cipher k b) = 16%nat) /\
  Forall (mcall_ok 16) [MUpdate (Piece [1] 0 1); MInit (zeros 5); MInit (zeros 16); MUpdate (Piece [9; 97; 98] 1 2); MFinal (zeros 8) 0; MUpdate (Piece (zeros 40) 3 30);
    MUpdate (Piece (zeros 4) 3 30); MFinal (zeros 20) 2; MInit (zeros 32); MCompute [1; 2; 3] (zeros 40); MReset; MSecure (zeros 16) 0].
Proof.
  split.
  - intros k b (_ & L). unfold toy_cipher. rewrite map_length. split; [|exact L]. apply Forall_forall. intros x Hx. apply in_map_iff in Hx. destruct Hx as (y & <- & _). red. lia.
  - repeat first [apply Forall_nil | apply Forall_cons]; cbn; repeat split; auto; try lia; repeat constructor; unfold is_byte; lia.
Qed.
(** after a std::vector Finalize a further message does not get its CMAC *)
Theorem C26_reuse_refuted : exists E k m t1 t2,
  (forall k b, bytes b /\ length b = 16%nat -> bytes (E k b) /\ length (E k b) = 16%nat) /\
  mhistory (cmac_ops E (fun _ => true)) CMAC_new [MInit k; MUpdate (Piece m 0 (length m)); MFinal (zeros 16) 0; MUpdate (Piece m 0 (length m)); MFinal (zeros 16) 0]
    = Ok [Done; Done; Wrote t1; Done; Wrote t2] /\
  t1 = cmac (E k) m /\ t2 <> cmac (E k) m.
Proof.
  exists toy_cipher, (zeros 16), [1; 2; 3], (cmac (toy_cipher (zeros 16)) [1; 2; 3]). eexists. split; [exact (proj1 C26_case)|].
  split; [vm_compute; reflexivity|]. split; [reflexivity|]. vm_compute. discriminate.
Qed.
Print Assumptions C26_reuse_refuted.

(** ** C27 HMAC *)
(** every sequence of calls; the object can be used again after each tag *)
Theorem C27_every_history256 cs : Forall (mcall_ok 32) cs ->
  exists rs, mhistory (hmac_ops 64 32 SHA2256_Update SHA2256_Finalize SHA2256_new) (HMAC_new 64 SHA2256_new) cs = Ok rs /\
    mexpected (hmac_mac_spec 64 32 sha256) MNone cs rs.
Proof. exact (c27_256 cs). Qed.
Print Assumptions C27_every_history256.
Example C27_case : Forall (mcall_ok 32) [MUpdate (Piece [1] 0 1); MInit (zeros 5); MInit (zeros 100); MUpdate (Piece [9; 97; 98] 1 2); MFinal (zeros 8) 0; MUpdate (Piece (zeros 90) 3 80);
  MFinal (zeros 40) 2; MUpdate (Piece (zeros 4) 3 30); MCompute [1; 2; 3] (zeros 40); MInit (zeros 32); MSecure (zeros 32) 0; MReset; MFinal (zeros 32) 0].
Proof. repeat first [apply Forall_nil | apply Forall_cons]; cbn; repeat split; auto; try lia; repeat constructor; unfold is_byte; lia. Qed.
Theorem C27_every_history512 cs : Forall (mcall_ok 64) cs ->
  exists rs, mhistory (hmac_ops 128 64 SHA2512_Update SHA2512_Finalize SHA2512_new) (HMAC_new 128 SHA2512_new) cs = Ok rs /\
    mexpected (hmac_mac_spec 128 64 sha512_code) MNone cs rs.
Proof. exact (c27_512 cs). Qed.
Print Assumptions C27_every_history512.
(** which is HMAC-SHA-512 for every key and message of practical length *)
Theorem C27_is_hmac512 k m : Z.of_nat (length k) < 2 ^ 60 -> Z.of_nat (length m) < 2 ^ 60 -> hmac sha512_code 128 k m = hmac sha512 128 k m.
Proof. exact (c27_exact512 k m). Qed.
Print Assumptions C27_is_hmac512.
(** the stateless forms *)
Theorem C27_stateless256 key inp io len out oo :
  bytes key -> (length key <= 64)%nat -> bytes inp -> (io + len <= length inp)%nat -> (oo + 32 <= length out)%nat -> Z.of_nat len < 2 ^ 60 ->
  exists out', MACR64P512 key inp io len out oo = Ok out' /\ written out out' oo (hmac sha256 64 key (slice inp io len)).
Proof. exact (c27_mac256 key inp io len out oo). Qed.
Print Assumptions C27_stateless256.
Theorem C27_stateless512 key inp io len out oo :
  bytes key -> (length key <= 128)%nat -> bytes inp -> (io + len <= length inp)%nat -> (oo + 64 <= length out)%nat -> Z.of_nat len < 2 ^ 60 ->
  exists out', MACR80P1024 key inp io len out oo = Ok out' /\ written out out' oo (hmac sha512 128 key (slice inp io len)).
Proof. exact (c27_mac512 key inp io len out oo). Qed.
Print Assumptions C27_stateless512.
Example C27_stateless_case : bytes (repeat 0x0b 20) /\ bytes [1; 72; 105] /\ (1 + 2 <= length [1; 72; 105])%nat /\ Z.of_nat 2 < 2 ^ 60.
Proof. cbn. repeat split; try lia; repeat constructor; unfold is_byte; lia. Qed.
(** a longer key overruns the pad array of the stateless form *)
Theorem C27_stateless_long_key_refuted key inp io len out oo : (64 < length key)%nat -> MACR64P512 key inp io len out oo = UB.
Proof. exact (c27_longkey key inp io len out oo). Qed.
Print Assumptions C27_stateless_long_key_refuted.
Example C27_long_key_case : (64 < length (zeros 80))%nat. Proof. cbn. lia. Qed.
(** RFC 4231 test case 1: key 20 times 0x0b, data "Hi There" *)
Example C27_spec_vector : be_val (hmac sha256 64 (repeat 0x0b 20) [72; 105; 32; 84; 104; 101; 114; 101]) = 0xb0344c61d8db38535ca8afceaf0bf12b881dc200c9833da726e9376c2e32cff7.
Proof. vm_compute. reflexivity. Qed.
