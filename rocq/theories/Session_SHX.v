(** The SHX variants: the cipher each should be. *)
From Verif Require Import Base Spec_Serpent Spec_KDF Spec_MAC Spec_SHA2 Spec_Keccak Model_SHA2 Session_SHA2 Session_KMAC Model_KDF Model_SHAKE Model_RHX Model_Serpent Session_Block.
Open Scope Z_scope.

Definition shx_ops {G} (x : option (kgen G)) : bc_ops (bc_obj G) :=
  {| bo_init := SHX_Initialize x; bo_enc := SHX_EncryptBlock; bo_dec := SHX_DecryptBlock; bo_transform := SHX_Transform |}.
(** the bytes of the key are taken in the reverse order.  A key of 64 bytes, which Serpent does not define, has 16 words, a
    recurrence with eight terms, and 40 rounds *)
Definition shx_schedule (key : list Z) : list (list Z) :=
  if (length key =? 64)%nat then scheduled 41 (prekeys [16; 13; 11; 10; 8; 5; 3; 1]%nat 164 (words32 16 (le_val (rev key)))) else serpent_schedule (rev key).
Definition serpent_with (schedule : list Z -> list Z -> list (list Z)) : block_cipher :=
  {| cp_legal := rhx_legal; cp_enc := fun key info => serpent (schedule key info); cp_dec := fun key info => inv_serpent (schedule key info) |}.
(** the extended schedules: 40 rounds for 32 bytes of key, 48 for 64 bytes, 64 for 16 and 24 bytes; the bytes of the key
    derivation function are the round keys, as little-endian words *)
Definition shx_rounds (n : nat) : nat := if (n =? 32)%nat then 40%nat else if (n =? 64)%nat then 48%nat else 64%nat.
Definition shx_extended (name : list Z) (F : list Z -> list Z -> nat -> list Z) (key info : list Z) : list (list Z) :=
  chunks 4 (map le_val (chunks 4 (F key (custom_string name key info) (16 * (shx_rounds (length key) + 1))%nat))).
(** SHXH256, SHXH512, SHXS256, SHXS512 *)
Definition shx_name (kind : Z) (size : list Z) : list Z := [0x53; 0x48; 0x58; kind] ++ size.

Definition v_Serpent : variant := Variant _ (shx_ops (G := unit) None) (RHX_new tt) (serpent_with (fun key info => shx_schedule key)) (fun _ => True).
Definition v_SHXH256 : variant := Variant _ (shx_ops (Some (gen_H256 (shx_name 0x48 s256)))) RHXH256_new (serpent_with (shx_extended (shx_name 0x48 s256) F_H256)) any_info.
Definition v_SHXH512 : variant := Variant _ (shx_ops (Some (gen_H512 (shx_name 0x48 s512)))) RHXH512_new (serpent_with (shx_extended (shx_name 0x48 s512) F_H512)) any_info.
Definition v_SHXS256 : variant := Variant _ (shx_ops (Some (shake_gen (shx_name 0x53 s256) 136))) RHXS_new (serpent_with (shx_extended (shx_name 0x53 s256) (shake_stream 136))) (shake_info 136).
Definition v_SHXS512 : variant := Variant _ (shx_ops (Some (shake_gen (shx_name 0x53 s512) 72))) RHXS_new (serpent_with (shx_extended (shx_name 0x53 s512) (shake_stream 72))) (shake_info 72).
Definition shx_variants : list variant := [v_Serpent; v_SHXH256; v_SHXH512; v_SHXS256; v_SHXS512].
