(** Sequences of calls on a SecureStream, in the vocabulary of Spec_File; ToArray is called after each. *)
From Verif Require Import Base Model_Stream Model_Modes Model_SecureStream Spec_File Spec_Modes Session_Stream.
Open Scope Z_scope.

Definition secure_step (Y : system) (s : sstream) (c : fcall) : res (sstream * fres) :=
  match c with
  | FWrite inp off len => s <- SecureStream_Write Y s inp (Z.of_nat off) (Z.of_nat len) ;; Ok (s, FDone)
  | FWriteByte v => s <- SecureStream_WriteByte Y s v ;; Ok (s, FDone)
  | FRead out off len => r <- SecureStream_Read Y s out (Z.of_nat off) (Z.of_nat len) ;; let '(s, out, n) := r in Ok (s, FGot out (Z.to_nat n))
  | FReadByte => r <- SecureStream_ReadByte Y s ;; let '(s, v) := r in Ok (s, FByte v)
  | FSeek off o => Ok (SecureStream_Seek s (Z.of_nat off) (from_of o), FDone)
  | FReset => Ok (SecureStream_Reset s, FDone)
  | FClose => Ok (SecureStream_Close s, FDone)
  end.
(** Length() and Position() are SecureStream.cpp:107-110 and :117-120 *)
Fixpoint secure_history (Y : system) (s : sstream) (cs : list fcall) : res (sstream * list (fres * nat * nat * list Z)) :=
  match cs with
  | [] => Ok (s, [])
  | c :: r => x <- secure_step Y s c ;; let '(s, a) := x in
              x <- SecureStream_ToArray Y s ;; let '(s, d) := x in
              t <- secure_history Y s r ;; let '(s', t) := t in
              Ok (s', (a, length (ss_data s), Z.to_nat (ss_pos s), d) :: t)
  end.
(** the digest is 64 bytes, the cipher maps blocks to blocks, the engine profile is one for which CTR is exact (C16, C18) *)
Definition sys_ok (Y : system) : Prop :=
  (forall x, length (sy_hash Y x) = 64%nat /\ bytes (sy_hash Y x)) /\ (forall k, block_fun (sy_aes Y k)) /\
  (par (sy_prof Y) = true -> good_profile (deg (sy_prof Y)) (pblk (sy_prof Y)) /\ (forall i, schedule (deg (sy_prof Y)) (sy_ord Y i)) /\ Z.of_nat (pblk (sy_prof Y)) <= 1044480).
