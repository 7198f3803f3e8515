(** Ciphers that decrypt what they encrypt, and what the encrypting key container may give back. *)
From Verif Require Import Base Model_AsymmetricSecureKey.
Open Scope Z_scope.

Definition plain_policy (p : policy) : Prop := p = SPL256 \/ p = SPL512 \/ p = SPL1024.
Definition auth_policy (p : policy) : Prop := p = SPL256AE \/ p = SPL512AE \/ p = SPL1024AE.
(** the seeds have the size asked for; a text keeps its length, followed by a tag of the stated size when the cipher authenticates; decryption gives it back *)
Definition ciphers_ok (C : ciphers) : Prop :=
  (forall m salt n x, cs_gen C m salt n = Ok x -> length x = n) /\
  (forall c auth k n m x, cs_enc C c auth k n m = Ok x ->
     length x = (length m + (if auth then tagsize C c else 0))%nat /\ cs_dec C c auth k n x (length m) = Ok m) /\
  (forall c, 0 < tagsize C c)%nat.
(** which cipher a policy stands for, whether it authenticates, and which SHAKE makes its key and nonce *)
Definition policy_table : list (policy * tsx * bool * shake) :=
  [(SPL256, TSX256, false, SHAKE256); (SPL256AE, TSX1024, true, SHAKE256); (SPL512, TSX512, false, SHAKE512);
   (SPL512AE, TSX512, true, SHAKE512); (SPL1024, TSX1024, false, SHAKE256); (SPL1024AE, TSX1024, true, SHAKE256)].
