(** The KDF objects over SHA2-256 and SHA2-512, as the constructors with those digests build them. *)
From Verif Require Import Base Model_SHA2 Model_KDF Session_Kdf.
Open Scope Z_scope.

Definition hkdf256 := hkdf_ops 64 32 SHA2256_Update SHA2256_Finalize SHA2256_new.
Definition hkdf512 := hkdf_ops 128 64 SHA2512_Update SHA2512_Finalize SHA2512_new.
Definition kdf2_256 := kdf2_ops 64 32 SHA2256_Update SHA2256_Finalize SHA2256_new.
Definition kdf2_512 := kdf2_ops 128 64 SHA2512_Update SHA2512_Finalize SHA2512_new.
Definition pbkdf2_256 := pbkdf2_ops 64 32 SHA2256_Update SHA2256_Finalize SHA2256_new.
Definition pbkdf2_512 := pbkdf2_ops 128 64 SHA2512_Update SHA2512_Finalize SHA2512_new.
