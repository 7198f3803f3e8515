(** Call histories of a ChaChaP20 or CSX512 object. *)
From Verif Require Import Base Spec_Common Spec_ChaCha Spec_Keccak Session_KMAC Spec_Stream Model_Modes Model_SHAKE Model_ChaCha Model_CSX.
From Coq Require Import Permutation.
Open Scope Z_scope.

(** running the model; an exception of Initialize and SetAssociatedData writes nothing *)
Definition xreturn (quiet : bool) (r : sres) : res (sobj * xres) :=
  match r with
  | Ok (o, out, None) => Ok (o, if quiet then XDone else XOut out)
  | Ok (o, out, Some e) => Ok (o, XFail e out)
  | Throw _ | UB => UB
  end.
Section run.
Variables (cf : sconf) (s : nat) (p : sprof).
Definition xstep (o : sobj) (c : xcall) : res (sobj * xres) :=
  match c with
  | XInit enc key iv info =>
    match S_Initialize cf p o enc key iv info with Ok o' => Ok (o', XDone) | Throw e => Ok (o, XFail e []) | UB => UB end
  | XAad inp off len => xreturn true (S_SetAssociatedData cf o inp off len)
  | XTransform inp io out oo len ord => xreturn false (S_Transform cf s p ord o (Some inp) io out oo len)
  | XTag => match S_Tag o with Ok t => Ok (o, XOut t) | Throw e => Ok (o, XFail e []) | UB => UB end
  end.
Fixpoint xhistory (o : sobj) (cs : list xcall) : res (list xres) :=
  match cs with
  | [] => Ok []
  | c :: t => r <- xstep o c ;; rs <- xhistory (fst r) t ;; Ok (snd r :: rs)
  end.
(** the object at the end *)
Fixpoint xend (o : sobj) (cs : list xcall) : res sobj :=
  match cs with
  | [] => Ok o
  | c :: t => r <- xstep o c ;; xend (fst r) t
  end.
End run.

(** the parallel profile passes the checks of Initialize; a chunk holds at least one block for every worker *)
Definition profile_ok (B : nat) (p : sprof) : Prop :=
  (0 < sp_deg p)%nat /\ (0 < B)%nat /\ (sp_deg p * B <= sp_min p)%nat /\
  (sp_par p = true -> (sp_min p <= sp_blk p)%nat /\ Z.of_nat (sp_blk p) <= max_alloc /\ (sp_blk p mod sp_min p = 0)%nat).
(** windows inside their arrays, arrays whose bit length is a 64-bit number; a parallel call runs every worker once,
    and either starts at the front of the output array or has no tail.  [dec]: the input window is followed by a tag *)
Definition xcall_ok (c : cipher) (p : sprof) (dec : bool) (x : xcall) : Prop :=
  match x with
  | XInit enc key iv info => bytes key /\ bytes iv /\ bytes info
  | XAad inp off len => bytes inp /\ (off + len <= length inp)%nat
  | XTransform inp io out oo len ord =>
    bytes inp /\ bytes out /\ (io + len + (if dec then b_tag c else 0) <= length inp)%nat /\ (oo + len <= length out)%nat /\
    short inp /\ short out /\ Permutation ord (seq 0 (sp_deg p)) /\ Z.of_nat (len / b_B c) < 2 ^ b_w c /\
    (sp_par p = false \/ (len < sp_min p)%nat \/ oo = 0%nat \/ (len mod (sp_deg p * b_B c) = 0)%nat)
  | XTag => True
  end.
(** the same for a whole history of an object that was initialised with direction [enc] *)
Fixpoint xcalls_ok (c : cipher) (p : sprof) (auth enc : bool) (cs : list xcall) : Prop :=
  match cs with
  | [] => True
  | x :: t => xcall_ok c p (auth && negb enc) x /\
    xcalls_ok c p auth (match x with XInit e key iv info => if accepted c key iv info then e else enc | _ => enc end) t
  end.
(** the model configurations and the ciphers they implement *)
Definition stream_ciphers : list (sconf * cipher) := [(chacha_conf, chacha20); (csx_conf, csx512)].

(** ** conversations: a sender and a receiver.  Every letter is preceded by associated data (none without
    authentication); [l_ord], [l_ord'] are the schedules of the two sides *)
Record letter := Letter { l_aad : list (list Z); l_msg : list Z; l_ord : list nat; l_ord' : list nat }.
Definition aad_calls (l : letter) : list xcall := map (fun a => XAad a 0 (length a)) (l_aad l).
(** each message from its own array into a zeroed array with room for the tag of [T] bytes, and back *)
Definition seal_calls (T : nat) (ls : list letter) : list xcall :=
  flat_map (fun l => aad_calls l ++ [XTransform (l_msg l) 0 (zeros (length (l_msg l) + T)) 0 (length (l_msg l)) (l_ord l)]) ls.
Definition open_calls (T : nat) (ls : list letter) (packets : list (list Z)) : list xcall :=
  flat_map (fun lp => aad_calls (fst lp) ++ [XTransform (snd lp) 0 (zeros (length (snd lp) - T)) 0 (length (snd lp) - T) (l_ord' (fst lp))]) (combine ls packets).
(** the arrays returned *)
Definition outs (rs : list xres) : list (list Z) := flat_map (fun r => match r with XOut x => [x] | _ => [] end) rs.
Definition letter_ok (c : cipher) (auth : bool) (p p' : sprof) (l : letter) : Prop :=
  bytes (l_msg l) /\ Forall bytes (l_aad l) /\ (auth = false -> l_aad l = []) /\ (b_mark c = true -> Forall (fun a => a <> []) (l_aad l)) /\
  8 * (Z.of_nat (length (l_msg l)) + Z.of_nat (b_tag c)) < 2 ^ 64 /\ Z.of_nat (length (l_msg l) / b_B c) < 2 ^ b_w c /\
  Permutation (l_ord l) (seq 0 (sp_deg p)) /\ Permutation (l_ord' l) (seq 0 (sp_deg p')).
(** a call without its schedule *)
Definition unscheduled (x : xcall) : xcall := match x with XTransform inp io out oo len _ => XTransform inp io out oo len [] | _ => x end.
(** an object with another authenticator *)
Definition set_mac (o : sobj) (m : option kmac_obj) : sobj := SObj (s_ctr o) (s_st o) (s_custom o) (s_mkey o) (s_mtag o) (s_count o) (s_auth o) (s_enc o) (s_init o) m.
(** every call but Initialize *)
Definition other_call (x : xcall) : Prop := match x with XInit _ _ _ _ => False | _ => True end.
(** values for concrete calls: a sequential and a parallel profile, keys, nonces, a call with its own arrays, the
    array returned by the last call *)
Definition seqp : sprof := SProf false 64 64 1.
Definition parp : sprof := SProf true 64 64 1.
Definition key1 : list Z := map Z.of_nat (seq 0 32).
Definition iv1 : list Z := map Z.of_nat (seq 1 8).
Definition key2 : list Z := map Z.of_nat (seq 0 64).
Definition iv2 : list Z := map Z.of_nat (seq 0 16).
Definition x1 (m : list Z) : xcall := XTransform m 0 (zeros (length m)) 0 (length m) [0%nat].
Definition last_out (r : res (list xres)) : option (list Z) := match r with Ok rs => match last rs XDone with XOut x => Some x | _ => None end | _ => None end.
