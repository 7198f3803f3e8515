(** What the properties of Kyber say. *)
From Verif Require Import Base Spec_Common Spec_Keccak Spec_Kyber Model_Kyber Session_KMAC.
Open Scope Z_scope.
(** the four parameter sets of KyberParameters *)
Definition parameter_set (p : kparams) : Prop := In p [Params1632; Params2400; Params3168; Params3936].
(** 32 bytes of the random generator *)
Definition random32 (l : list Z) : Prop := bytes l /\ length l = 32%nat.
(** a domain key and the name of the cipher, short enough for the customised hash *)
Definition domain_ok (domain name : list Z) : Prop := bytes domain /\ bytes name /\ short domain /\ short name /\ fits_block 72 name domain.
(** the matrix [A], of which the code holds the transform [Ah] *)
Definition transformed (Ah A : list (list (list Z))) : Prop := Forall2 (Forall2 (fun h a => is_poly a /\ same (ntt a) h)) Ah A.
(** the polynomials of one exchange: key generation with the random bytes [d], encapsulation to [pk] with the random bytes [m] *)
Definition exchange (F : nat) (p : kparams) (d pk m : list Z) (x : pke) : Prop :=
  let K := kK p in let g := sha3_512 d in let mm := sha3_256 m in let coins := skipn 32 (sha3_512 (mm ++ sha3_256 pk)) in
  (exists Ah, GenMatrix F (firstn 32 g) false K = Ok Ah /\ transformed Ah (pA x)) /\
  ps x = noises (kEta1 p) (skipn 32 g) 0 K /\ pe x = noises (kEta1 p) (skipn 32 g) K K /\
  pr x = noises (kEta1 p) coins 0 K /\ pe1 x = noises 2 coins K K /\ pe2 x = noise 2 coins (2 * K) /\
  pm x = msg_poly mm /\ pdu x = (if (K <=? 3)%nat then 10 else 11) /\ pdv x = (if (K <=? 3)%nat then 4 else 5).
(** the shared secret of message [mm], public key and ciphertext, and what is handed to a caller whose vector has [n] bytes *)
Definition handed (domain name sec : list Z) (n : nat) : list Z := if (length domain =? 0)%nat then sec else cshake 24 72 sec n name domain.
Definition shared (domain name mm pk ct : list Z) (n : nat) : list Z :=
  let sec := shake 24 136 (firstn 32 (sha3_512 (mm ++ sha3_256 pk)) ++ sha3_256 ct) 32 in handed domain name sec n.
(** polynomials whose coefficients are at most [B] in absolute value *)
Definition within (B : Z) (p : list Z) : Prop := is_poly p /\ Forall (fun x => Z.abs x <= B) p.
