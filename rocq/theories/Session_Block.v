(** Call histories of a block cipher object. *)
From Verif Require Import Base Spec_Common Spec_AES Spec_KDF Spec_MAC Spec_SHA2 Spec_Keccak Session_Digest Session_KMAC Model_SHA2 Session_SHA2 Model_KDF Model_SHAKE Model_Rijndael Model_RHX.
Open Scope Z_scope.

(** the calls: Initialize(Encryption, SymmetricKey(key, iv, info)), EncryptBlock and DecryptBlock(Input, InOffset, Output, OutOffset)
    (the forms without offsets are offsets 0), and Transform, Transform256, 512, 1024, 2048 for k = 0 .. 4.  [inp = None]: Input
    and Output are the same array *)
Inductive bcall :=
| BInit (enc : bool) (key info : list Z)
| BEncrypt (inp : option (list Z)) (io : nat) (out : list Z) (oo : nat)
| BDecrypt (inp : option (list Z)) (io : nat) (out : list Z) (oo : nat)
| BTransform (k : nat) (inp : option (list Z)) (io : nat) (out : list Z) (oo : nat).
Record bc_ops (O : Type) := {
  bo_init : O -> bool -> list Z -> list Z -> res (O * option err);
  bo_enc : O -> option (list Z) -> nat -> list Z -> nat -> res (list Z);
  bo_dec : O -> option (list Z) -> nat -> list Z -> nat -> res (list Z);
  bo_transform : O -> nat -> option (list Z) -> nat -> list Z -> nat -> res (list Z) }.
Arguments bo_init {O}. Arguments bo_enc {O}. Arguments bo_dec {O}. Arguments bo_transform {O}.
Section run.
Context {O : Type} (X : bc_ops O).
Definition put_out (o : O) (r : res (list Z)) : res (O * dres) := out <- r ;; Ok (o, Wrote out).
Definition bstep (o : O) (c : bcall) : res (O * dres) :=
  match c with
  | BInit enc key info => r <- bo_init X o enc key info ;; Ok (fst r, match snd r with None => Done | Some e => Failed e end)
  | BEncrypt inp io out oo => put_out o (bo_enc X o inp io out oo)
  | BDecrypt inp io out oo => put_out o (bo_dec X o inp io out oo)
  | BTransform k inp io out oo => put_out o (bo_transform X o k inp io out oo)
  end.
Fixpoint bhistory (o : O) (cs : list bcall) : res (list dres) :=
  match cs with
  | [] => Ok []
  | c :: t => r <- bstep o c ;; rs <- bhistory (fst r) t ;; Ok (snd r :: rs)
  end.
End run.

(** a keyed permutation of 16-byte blocks: which key lengths are accepted, encryption and decryption under (key, info) *)
Record block_cipher := { cp_legal : nat -> bool; cp_enc : list Z -> list Z -> list Z -> list Z; cp_dec : list Z -> list Z -> list Z -> list Z }.
(** a window of [n] bytes read from [inp] and written to [out]: inside both arrays.  In place the output must not run ahead of the input *)
Definition window (n : nat) (inp : option (list Z)) (io : nat) (out : list Z) (oo : nat) : Prop :=
  (oo + n <= length out)%nat /\
  match inp with
  | Some i => bytes i /\ (io + n <= length i)%nat
  | None => bytes out /\ (io + n <= length out)%nat /\ (n = 16 \/ oo <= io \/ io + n <= oo)%nat
  end.
(** what was in the input window *)
Definition taken (n : nat) (inp : option (list Z)) (io : nat) (out : list Z) : list Z := slice (match inp with Some i => i | None => out end) io n.
(** calls a user may make: block calls only after a successful Initialize; [on]: there has been one; [iok]: the infos the variant takes *)
Fixpoint bcalls_ok (C : block_cipher) (iok : list Z -> Prop) (on : bool) (cs : list bcall) : Prop :=
  match cs with
  | [] => True
  | BInit enc key info :: t => bytes key /\ bytes info /\ iok info /\ Z.of_nat (length key) < 2 ^ 32 /\ bcalls_ok C iok (cp_legal C (length key) || on) t
  | BEncrypt inp io out oo :: t | BDecrypt inp io out oo :: t => on = true /\ window 16 inp io out oo /\ bcalls_ok C iok on t
  | BTransform k inp io out oo :: t => on = true /\ (k <= 4)%nat /\ window (16 * 2 ^ k) inp io out oo /\ bcalls_ok C iok on t
  end.
(** what the calls return; [a]: direction, key and info of the last accepted Initialize.  Nothing outside the output window changes *)
Fixpoint bexpected (C : block_cipher) (a : bool * list Z * list Z) (cs : list bcall) (rs : list dres) : Prop :=
  let '(enc, key, info) := a in
  match cs, rs with
  | [], [] => True
  | BInit enc' key' info' :: cs, r :: rs =>
    if cp_legal C (length key') then r = Done /\ bexpected C (enc', key', info') cs rs else r = Failed InvalidKey /\ bexpected C a cs rs
  | BEncrypt inp io out oo :: cs, r :: rs =>
    (exists out', r = Wrote out' /\ written out out' oo (cp_enc C key info (taken 16 inp io out))) /\ bexpected C a cs rs
  | BDecrypt inp io out oo :: cs, r :: rs =>
    (exists out', r = Wrote out' /\ written out out' oo (cp_dec C key info (taken 16 inp io out))) /\ bexpected C a cs rs
  | BTransform k inp io out oo :: cs, r :: rs =>
    (exists out', r = Wrote out' /\
       written out out' oo (concat (map ((if enc then cp_enc C else cp_dec C) key info) (chunks 16 (taken (16 * 2 ^ k) inp io out))))) /\
    bexpected C a cs rs
  | _, _ => False
  end.

(** ** RHX *)
Definition rhx_ops {G} (x : option (kgen G)) : bc_ops (bc_obj G) :=
  {| bo_init := RHX_Initialize x; bo_enc := RHX_EncryptBlock; bo_dec := RHX_DecryptBlock; bo_transform := RHX_Transform |}.
Definition rhx_legal (n : nat) : bool := ((n =? 16) || (n =? 24) || (n =? 32) || (n =? 64))%nat.
(** the round keys AES works with.  A key of 64 bytes is accepted; it gives the eleven round keys of its first 16 bytes, and
    twelve of zeros *)
Definition aes_schedule (key : list Z) : list (list Z) :=
  if (length key =? 64)%nat then round_keys (key_expansion (firstn 16 key)) ++ repeat (zeros 16) 12 else round_keys (key_expansion key).
Definition rijndael_with (schedule : list Z -> list Z -> list (list Z)) : block_cipher :=
  {| cp_legal := rhx_legal; cp_enc := fun key info => rijndael aes_offsets (schedule key info); cp_dec := fun key info => inv_rijndael aes_offsets (schedule key info) |}.
Definition aes_cipher : block_cipher := rijndael_with (fun key info => aes_schedule key).
(** the extended schedules: 14 + length/4 rounds; the bytes of the key derivation function [F] under the key and the string
    name, key size in bits (two bytes, little endian), info; each group of four bytes is reversed *)
Definition custom_string (name key info : list Z) : list Z := name ++ le_bytes 2 (8 * Z.of_nat (length key)) ++ info.
Definition extended_schedule (name : list Z) (F : list Z -> list Z -> nat -> list Z) (key info : list Z) : list (list Z) :=
  chunks 16 (concat (map (@rev Z) (chunks 4 (F key (custom_string name key info) (16 * (length key / 4 + 15))%nat)))).
(** RHXH256, RHXH512, RHXS256, RHXS512 *)
Definition rhx_name (kind : Z) (size : list Z) : list Z := [0x52; 0x48; 0x58; kind] ++ size.
Definition s256 : list Z := [0x32; 0x35; 0x36].
Definition s512 : list Z := [0x35; 0x31; 0x32].
Definition hkdf_stream (HM : list Z -> list Z -> list Z) (n : nat) (key info : list Z) (len : nat) : list Z := hkdf_expand HM n key info len.
Definition shake_stream (rate : nat) (key info : list Z) (len : nat) : list Z := cshake 24 rate key len info [].

Definition gen_H256 (name : list Z) := hkdf_gen name 64 32 SHA2256_Update SHA2256_Finalize SHA2256_new.
Definition gen_H512 (name : list Z) := hkdf_gen name 128 64 SHA2512_Update SHA2512_Finalize SHA2512_new.
Definition F_H256 := hkdf_stream (hmac sha256 64) 32.
Definition F_H512 := hkdf_stream (hmac sha512_code 128) 64.
Definition RHXH256 := rhx_ops (Some (gen_H256 (rhx_name 0x48 s256))).
Definition RHXH512 := rhx_ops (Some (gen_H512 (rhx_name 0x48 s512))).
Definition RHXS256 := rhx_ops (Some (shake_gen (rhx_name 0x53 s256) 136)).
Definition RHXS512 := rhx_ops (Some (shake_gen (rhx_name 0x53 s512) 72)).
Definition AES := rhx_ops (G := unit) None.
Definition AES_new : bc_obj unit := RHX_new tt.
Definition RHXH256_new := RHX_new (HKDF_new 64 32 SHA2256_new).
Definition RHXH512_new := RHX_new (HKDF_new 128 64 SHA2512_new).
Definition RHXS_new := RHX_new SHAKE_new.
(** the infos: any for HKDF; for cSHAKE the length field of the empty salt must not straddle two blocks, which only depends on the
    length of the customization string (Session_KMAC) *)
Definition any_info (info : list Z) : Prop := Z.of_nat (length info) < 2 ^ 32.
Definition shake_info (rate : nat) (info : list Z) : Prop := Z.of_nat (length info) < 2 ^ 32 /\ fits_block rate (zeros (9 + length info)) [].

(** a cipher object as the user sees it: its calls, the new object, the cipher it should be, the infos it takes *)
Record variant := Variant { v_obj : Type; v_ops : bc_ops v_obj; v_new : v_obj; v_cipher : block_cipher; v_info : list Z -> Prop }.
Definition v_AES : variant := Variant _ AES AES_new aes_cipher (fun _ => True).
Definition v_RHXH256 : variant := Variant _ RHXH256 RHXH256_new (rijndael_with (extended_schedule (rhx_name 0x48 s256) F_H256)) any_info.
Definition v_RHXH512 : variant := Variant _ RHXH512 RHXH512_new (rijndael_with (extended_schedule (rhx_name 0x48 s512) F_H512)) any_info.
Definition v_RHXS256 : variant := Variant _ RHXS256 RHXS_new (rijndael_with (extended_schedule (rhx_name 0x53 s256) (shake_stream 136))) (shake_info 136).
Definition v_RHXS512 : variant := Variant _ RHXS512 RHXS_new (rijndael_with (extended_schedule (rhx_name 0x53 s512) (shake_stream 72))) (shake_info 72).
Definition rhx_variants : list variant := [v_AES; v_RHXH256; v_RHXH512; v_RHXS256; v_RHXS512].
