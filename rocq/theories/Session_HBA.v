(** Call histories of an HBA object. *)
From Verif Require Import Base Spec_Common Spec_SHA2 Session_SHA2 Session_KMAC Spec_Modes Spec_HBA Model_Modes Model_SHA2 Model_SHAKE Model_HMAC Model_KDF Model_HBA.
Open Scope Z_scope.

Section run.
Context {M : Type} (a : engine M) (E : list Z -> list Z -> list Z -> list Z) (legal : nat -> bool) (nm : list Z) (s : nat) (p : prof).
Definition hreturn (quiet : bool) (r : @hres M) : res (hobj M * hout) :=
  match r with
  | Ok (o, out, None) => Ok (o, if quiet then HDone else HOut out)
  | Ok (o, out, Some e) => Ok (o, HFail e out)
  | Throw _ | UB => UB
  end.
Definition hstep (o : hobj M) (c : hcall) : res (hobj M * hout) :=
  match c with
  | HInit enc key iv info => hreturn true (H_Initialize a legal nm o enc key iv info)
  | HAad inp off len => hreturn true (H_SetAssociatedData a o inp off len)
  | HTransform inp io out oo len ord => hreturn false (H_Transform a E s p ord o inp io out oo len)
  | HTag => Ok (o, HOut (H_Tag o))
  end.
Fixpoint hhistory (o : hobj M) (cs : list hcall) : res (list hout) :=
  match cs with
  | [] => Ok []
  | c :: t => r <- hstep o c ;; rs <- hhistory (fst r) t ;; Ok (snd r :: rs)
  end.
(** a block cipher with this list of key sizes and these info strings: images are blocks; HKDF makes keys of 32 bytes and, from keys of 64
    bytes, of 64, which must be legal too; a key has at least 16 and at most 1024 bytes; the name fits a block *)
Definition hba_cipher (iok : list Z -> Prop) (hkdf : bool) : Prop :=
  (forall k i b, legal (length k) = true -> bytes k -> bytes i -> iok i -> length b = 16%nat -> length (E k i b) = 16%nat /\ bytes (E k i b)) /\
  (forall n, legal n = true -> (16 <= n)%nat /\ Z.of_nat n <= 1024) /\
  (hkdf = true -> (forall n, legal n = true -> legal 32 = true)) /\ bytes nm /\ (length nm <= 48)%nat.
(** windows inside their arrays, arrays whose bit length is a 64-bit number; the parallel profile is one that Initialize
    accepts, with blocks small enough for C18; a decrypted window is followed by a tag *)
Definition hcall_ok (iok : list Z -> Prop) (tag : nat) (enc : bool) (c : hcall) : Prop :=
  match c with
  | HInit _ key iv info => bytes key /\ bytes iv /\ bytes info /\ short info /\ iok info
  | HAad inp off len => bytes inp /\ short inp /\ (off + len <= length inp)%nat
  | HTransform inp io out oo len ord =>
    bytes inp /\ bytes out /\ short inp /\ short out /\ (io + len + (if enc then 0 else tag) <= length inp)%nat /\ (oo <= length out)%nat /\
    (par p = true -> good_profile (deg p) (pblk p) /\ (forall i, schedule (deg p) (ord i)) /\ Z.of_nat (pblk p) <= 1044480)
  | HTag => True
  end.
(** [enc] is the direction of the last Initialize with legal sizes *)
Fixpoint hcalls_ok (iok : list Z -> Prop) (tag : nat) (enc : bool) (cs : list hcall) : Prop :=
  match cs with
  | [] => True
  | c :: t => hcall_ok iok tag enc c /\
    hcalls_ok iok tag (match c with HInit e key iv _ => if legal (length key) && (length iv =? 16)%nat then e else enc | _ => enc end) t
  end.
End run.
Definition hmac256_engine : engine (hmac_obj sha256_obj) :=
  hmac_engine 64 32 SHA2256_Update SHA2256_Finalize SHA2256_new SHA2256_Update SHA2256_Finalize SHA2256_new SHA2512_Update SHA2512_Finalize SHA2512_new.
Definition hmac512_engine : engine (hmac_obj sha512_obj) :=
  hmac_engine 128 64 SHA2512_Update SHA2512_Finalize SHA2512_new SHA2256_Update SHA2256_Finalize SHA2256_new SHA2512_Update SHA2512_Finalize SHA2512_new.

(** a message of a conversation: its associated data, the worker orders of the two sides *)
Record hletter := HLetter { hl_aad : list (list Z); hl_msg : list Z; hl_ord : nat -> list nat; hl_ord' : nat -> list nat }.
Definition haad_calls (l : hletter) : list hcall := map (fun a => HAad a 0 (length a)) (hl_aad l).
(** each message from its own array into a zeroed array with room for the tag, and back *)
Definition hseal_calls (tag : nat) (ls : list hletter) : list hcall :=
  flat_map (fun l => haad_calls l ++ [HTransform (hl_msg l) 0 (zeros (length (hl_msg l) + tag)) 0 (length (hl_msg l)) (hl_ord l)]) ls.
Definition hopen_calls (tag : nat) (ls : list hletter) (packets : list (list Z)) : list hcall :=
  flat_map (fun lp => haad_calls (fst lp) ++ [HTransform (snd lp) 0 (zeros (length (snd lp) - tag)) 0 (length (snd lp) - tag) (hl_ord' (fst lp))]) (combine ls packets).
(** the arrays returned *)
Definition houts (rs : list hout) : list (list Z) := flat_map (fun r => match r with HOut x => [x] | _ => [] end) rs.
Definition fair (p : prof) (ord : nat -> list nat) : Prop :=
  par p = true -> good_profile (deg p) (pblk p) /\ (forall i, schedule (deg p) (ord i)) /\ Z.of_nat (pblk p) <= 1044480.
Definition hletter_ok (tag : nat) (p p' : prof) (l : hletter) : Prop :=
  bytes (hl_msg l) /\ Forall (fun a => bytes a /\ short a) (hl_aad l) /\ 8 * (Z.of_nat (length (hl_msg l)) + Z.of_nat tag) < 2 ^ 64 /\ fair p (hl_ord l) /\ fair p' (hl_ord' l).
(** key, counter block and info that Initialize accepts on a new object *)
Definition haccepted (A : hauth) (legal : nat -> bool) (iok : list Z -> Prop) (key iv info : list Z) : Prop :=
  bytes key /\ bytes iv /\ bytes info /\ short info /\ iok info /\ legal (length key) = true /\ length iv = 16%nat /\ (ha_strict A = true -> length info = 0 \/ 4 <= length info)%nat.
(** the authenticators: an engine of the model, its specification, whether HKDF makes its keys *)
Inductive hba_authenticator : forall {M : Type}, engine M -> hauth -> bool -> Prop :=
| with_KMAC256 : hba_authenticator (kmac_engine 136 32 32) (kmac_auth 136 32) false
| with_KMAC512 : hba_authenticator (kmac_engine 72 64 64) (kmac_auth 72 64) false
| with_HMACSHA256 : hba_authenticator hmac256_engine (hmac_auth sha256 64 32) true
| with_HMACSHA512 : hba_authenticator hmac512_engine (hmac_auth sha512_code 128 64) true.
(** one message from its own array into a zeroed array with room for the tag; one packet whose message has [len] bytes *)
Definition hsend (tag : nat) (m : list Z) (ord : nat -> list nat) : hcall := HTransform m 0 (zeros (length m + tag)) 0 (length m) ord.
Definition hask (x : list Z) (len : nat) (ord : nat -> list nat) : hcall := HTransform x 0 (zeros len) 0 len ord.
(** a counter block for the examples *)
Definition hiv : list Z := map Z.of_nat (seq 1 16).
