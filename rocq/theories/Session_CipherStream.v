(** The CipherStream objects the theorems range over: a mode, a padding and a block cipher. *)
From Verif Require Import Base Spec_Common Spec_Modes Spec_CipherStream Model_Modes Model_Padding Model_Stream Model_CipherStream.
Open Scope Z_scope.

Definition engine_of (m : mode) : (list Z -> list Z) -> (list Z -> list Z) -> nat -> prof -> (nat -> nat -> list nat) -> bool -> engine :=
  match m with ECB => ECB_engine | CBC => CBC_engine | CFB r => CFB_engine r | OFB => OFB_engine | CTR => CTR_engine | ICM => ICM_engine end.
Definition padding_of (k : pad) : padding := match k with PKCS7 => PKCS7_pad | X923 => X923_pad | ESP => ESP_pad | ZeroOne => ZeroOne_pad end.

(** how the object was set up: mode, padding, the two directions of the block cipher, width of the
    wide path, parallel profile, and the orders in which the workers run *)
Record setup := Setup { s_mode : mode; s_pad : pad; s_E : list Z -> list Z; s_D : list Z -> list Z; s_wide : nat; s_prof : prof; s_sched : nat -> nat -> list nat }.
(** Write(Input, InOffset, Output, OutOffset) on an object initialized for encryption ([enc]) or decryption;
    the register of the mode goes in and comes out *)
Definition write (x : setup) (enc : bool) (inp : list Z) (io : nat) (out : list Z) (oo : nat) (st : list Z) : res (list Z * list Z) :=
  CipherStream_Write (engine_of (s_mode x) (s_E x) (s_D x) (s_wide x) (s_prof x) (s_sched x) enc) (Some (padding_of (s_pad x))) (counter (s_mode x)) enc inp io out oo st.
Definition write_stream (x : setup) (enc : bool) (ins outs : mstream) (st : list Z) : res (mstream * mstream * list Z) :=
  CipherStream_WriteStream (engine_of (s_mode x) (s_E x) (s_D x) (s_wide x) (s_prof x) (s_sched x) enc) (Some (padding_of (s_pad x))) (counter (s_mode x)) enc ins outs st.
(** several Writes, one after the other, on one object: inputs and output arrays *)
Fixpoint writes (x : setup) (enc : bool) (ios : list (list Z * list Z)) (st : list Z) : res (list (list Z) * list Z) :=
  match ios with
  | [] => Ok ([], st)
  | (i, o) :: t => r <- write x enc i 0 o 0 st ;; q <- writes x enc t (snd r) ;; Ok (fst r :: fst q, snd q)
  end.

(** a usable set-up: the cipher functions are inverse permutations of 16-byte blocks, and the parallel
    profile is one Initialize accepts (the parallel block is also a whole number of segments, and the
    batches of the counter modes stay below the counter positioning hazard of C17) *)
Definition good_setup (x : setup) : Prop :=
  inverse_cipher (s_E x) (s_D x) /\ mode_ok (s_mode x) /\
  (par (s_prof x) = true ->
    good_profile (deg (s_prof x)) (pblk (s_prof x)) /\ (forall at_ i, schedule (deg (s_prof x)) (s_sched x at_ i)) /\
    (pblk (s_prof x) mod unit_size (s_mode x) = 0)%nat /\
    (counter (s_mode x) = true -> Z.of_nat (pblk (s_prof x)) <= 1044480)).
(** a register: 16 bytes *)
Definition register (st : list Z) : Prop := length st = 16%nat /\ bytes st.
(** the receiving side: same mode, padding and cipher; its profile and its schedules may differ *)
Definition counterpart (x y : setup) : Prop :=
  good_setup x /\ good_setup y /\ s_mode y = s_mode x /\ s_pad y = s_pad x /\ s_E y = s_E x /\ s_D y = s_D x.
