(** What CipherStream should produce: the textbook mode applied to the padded message.
    Nothing here mentions a model definition. *)
From Verif Require Import Base Spec_Common Spec_Modes.
Open Scope Z_scope.

(** the cipher modes CipherStream can drive; [CFB r] has r-byte segments *)
Inductive mode := ECB | CBC | CFB (r : nat) | OFB | CTR | ICM.
(** CTR and ICM take messages of any length; the others take whole blocks *)
Definition counter (m : mode) : bool := match m with CTR | ICM => true | _ => false end.
(** the unit the message is padded to *)
Definition unit_size (m : mode) : nat := match m with CFB r => r | _ => 16%nat end.
Definition mode_encrypt (m : mode) (E : list Z -> list Z) (iv msg : list Z) : list Z :=
  match m with
  | ECB => concat (map E (chunks 16 msg))
  | CBC => concat (cbc_encrypt E iv (chunks 16 msg))
  | CFB r => concat (cfb_encrypt E r iv (chunks r msg))
  | OFB => concat (ofb_crypt E iv (chunks 16 msg))
  | CTR => ctr_crypt E (be_bytes 16) (value_be iv) msg
  | ICM => ctr_crypt E (le_bytes 16) (value_le iv) msg
  end.
Definition mode_decrypt (m : mode) (E D : list Z -> list Z) (iv c : list Z) : list Z :=
  match m with
  | ECB => concat (map D (chunks 16 c))
  | CBC => concat (cbc_decrypt D iv (chunks 16 c))
  | CFB r => concat (cfb_decrypt E r iv (chunks r c))
  | OFB => concat (ofb_crypt E iv (chunks 16 c))
  | CTR => ctr_crypt E (be_bytes 16) (value_be iv) c
  | ICM => ctr_crypt E (le_bytes 16) (value_le iv) c
  end.
(** CFB segment sizes of 2 to 16 bytes *)
Definition mode_ok (m : mode) : Prop := match m with CFB r => (2 <= r <= 16)%nat | _ => True end.

(** the paddings, as the bytes that are appended *)
Inductive pad := PKCS7 | X923 | ESP | ZeroOne.
Definition pad_bytes (k : pad) (n : nat) : list Z :=
  match k with
  | PKCS7 => repeat (Z.of_nat n) n
  | X923 => repeat 0 (n - 1) ++ [Z.of_nat n]
  | ESP => map (fun i => Z.of_nat i + 1) (seq 0 n)
  | ZeroOne => 128 :: repeat 0 (n - 1)
  end.
(** a message filled up to a multiple of [b]; nothing is appended to a message that is one *)
Definition padded (k : pad) (b : nat) (msg : list Z) : list Z :=
  if (length msg mod b =? 0)%nat then msg else msg ++ pad_bytes k (b - length msg mod b).
