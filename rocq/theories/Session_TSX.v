(** Call histories of a TSX256, TSX512 or TSX1024 object. *)
From Verif Require Import Base Spec_Common Spec_ChaCha Spec_Keccak Session_KMAC Spec_Stream Spec_TSX Model_Modes Model_SHAKE Model_ChaCha Model_CSX Model_TSX Session_CSX.
From Coq Require Import Permutation.
Open Scope Z_scope.

Definition treturn (quiet : bool) (r : tres) : res (tobj * xres) :=
  match r with
  | Ok (o, out, None) => Ok (o, if quiet then XDone else XOut out)
  | Ok (o, out, Some e) => Ok (o, XFail e out)
  | Throw _ | UB => UB
  end.
Section run.
Variables (cf : tconf) (p : sprof).
Definition tstep (o : tobj) (c : xcall) : res (tobj * xres) :=
  match c with
  | XInit enc key iv info =>
    match T_Initialize cf p o enc key iv info with Ok o' => Ok (o', XDone) | Throw e => Ok (o, XFail e []) | UB => UB end
  | XAad inp off len => treturn true (T_SetAssociatedData cf o inp off len)
  | XTransform inp io out oo len ord => treturn false (T_Transform cf p ord o (Some inp) io out oo len)
  | XTag => Ok (o, XOut (T_Tag o))
  end.
Fixpoint thistory (o : tobj) (cs : list xcall) : res (list xres) :=
  match cs with
  | [] => Ok []
  | c :: t => r <- tstep o c ;; rs <- thistory (fst r) t ;; Ok (snd r :: rs)
  end.
End run.
(** windows inside their arrays, arrays whose bit length is a 64-bit number; a parallel call runs every worker once; a
    decrypted window is followed by a tag; an encrypted one either lacks the room that is checked or has room for the
    whole tag; TSX512 and TSX1024 are not given a tweak of 1 to 15 bytes *)
Definition tcall_ok (c : tcipher) (p : sprof) (auth enc : bool) (x : xcall) : Prop :=
  match x with
  | XInit _ key iv info => bytes key /\ bytes iv /\ bytes info /\ (t_exact c = true \/ length info = 0%nat \/ (16 <= length info)%nat)
  | XAad inp off len => bytes inp /\ (off + len <= length inp)%nat
  | XTransform inp io out oo len ord =>
    bytes inp /\ bytes out /\ (io + len + (if auth && negb enc then t_tag c else 0) <= length inp)%nat /\ (oo + len <= length out)%nat /\
    short inp /\ short out /\ Permutation ord (seq 0 (sp_deg p)) /\ Z.of_nat (len / t_B c) < 2 ^ 64 /\
    (auth && enc = true -> (length out < oo + len + t_mac c)%nat \/ (oo + len + t_tag c <= length out)%nat)
  | XTag => True
  end.
Fixpoint tcalls_ok (c : tcipher) (p : sprof) (auth enc : bool) (cs : list xcall) : Prop :=
  match cs with
  | [] => True
  | x :: t => tcall_ok c p auth enc x /\
    tcalls_ok c p auth (match x with XInit e key iv info => if taccepted c key iv info then e else enc | _ => enc end) t
  end.
Definition tsx_ciphers : list (tconf * tcipher) := [(tsx256_conf, tsx256); (tsx512_conf, tsx512); (tsx1024_conf, tsx1024)].
(** letters as in Session_CSX: associated data must not be empty *)
Definition tletter_ok (c : tcipher) (auth : bool) (p p' : sprof) (l : letter) : Prop :=
  bytes (l_msg l) /\ Forall bytes (l_aad l) /\ (auth = false -> l_aad l = []) /\ Forall (fun a => a <> []) (l_aad l) /\
  8 * (Z.of_nat (length (l_msg l)) + Z.of_nat (t_tag c)) < 2 ^ 64 /\ Z.of_nat (length (l_msg l) / t_B c) < 2 ^ 64 /\
  Permutation (l_ord l) (seq 0 (sp_deg p)) /\ Permutation (l_ord' l) (seq 0 (sp_deg p')).
(** values for concrete calls *)
Definition tkey1 : list Z := map Z.of_nat (seq 0 32).
Definition tkey4 : list Z := map Z.of_nat (seq 0 128).
Definition tiv : list Z := map Z.of_nat (seq 0 16).
