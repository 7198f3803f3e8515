(** What an HBA object does, call by call, in terms of counter mode (Spec_Modes), a MAC and its key derivation (KMAC and
    cSHAKE, or HMAC and HKDF).  Nothing here mentions a model definition. *)
From Verif Require Import Base Spec_Common Spec_Keccak Session_KMAC Spec_SHA2 Session_SHA2 Spec_MAC Spec_KDF Spec_ChaCha Spec_Modes.
Open Scope Z_scope.

(** an authenticator: tag size, MAC of a key and a message, whether a customization string of 1 to 3 bytes is refused, the
    cipher key and the first MAC key made from a user key, a customization string and a label, and the MAC key that
    follows a MAC key, for a user key of the given size *)
Record hauth := HAuth {
  ha_tag : nat; ha_mac : list Z -> list Z -> list Z; ha_strict : bool;
  ha_first : list Z -> list Z -> list Z -> list Z * list Z;
  ha_next : nat -> list Z -> list Z -> list Z -> list Z }.
(** KMAC: both keys come out of one cSHAKE, the MAC key from the next whole block of output *)
Definition kmac_auth (rate klen : nat) : hauth :=
  HAuth klen (fun k m => kmac_out rate (kmac_start rate kmac_name k []) m klen) true
    (fun key cust label =>
       let k := (nblocks rate (length key) * rate)%nat in
       (cshake 24 rate key (length key) label cust, skipn k (cshake 24 rate key (k + klen) label cust)))
    (fun _ mk cust label => cshake 24 rate mk klen label cust).
(** HMAC over the hash [H]: the keys are the first two blocks of HKDF, over SHA2-512 if the user key has 64 bytes *)
Definition hkdf_mac (ksz : nat) : list Z -> list Z -> list Z := if (ksz =? 64)%nat then hmac sha512_code 128 else hmac sha256 64.
Definition hmac_auth (H : list Z -> list Z) (rate n : nat) : hauth :=
  HAuth n (hmac H rate) false
    (fun key cust label =>
       let HM := hkdf_mac (length key) in let prk := hkdf_extract HM label key in
       (hkdf_T HM prk cust 1, hkdf_T HM prk cust 2))
    (fun ksz mk cust label =>
       let HM := hkdf_mac ksz in hkdf_T HM (hkdf_extract HM label mk) cust 1).

(** an initialised object: direction, size of the user's key, key and info of the cipher, number of the next counter
    block, customization string, label without its counter, MAC key, message the authenticator has received so far,
    bytes authenticated so far plus one, last tag *)
Record hconn := HConn {
  h_enc : bool; h_ksz : nat; h_ck : list Z; h_info : list Z; h_pos : Z; h_cust : list Z; h_label : list Z;
  h_mk : list Z; h_msg : list Z; h_total : Z; h_tag : list Z }.
(** not initialised: the customization string and the tag left behind by an Initialize that failed; initialised *)
Inductive hstate := HIdle (cust tag : list Z) | HOn (n : hconn).

(** the calls: Initialize, SetAssociatedData, Transform, Tag; [ord] gives the order in which parallel workers run *)
Inductive hcall :=
| HInit (enc : bool) (key iv info : list Z)
| HAad (inp : list Z) (off len : nat)
| HTransform (inp : list Z) (io : nat) (out : list Z) (oo len : nat) (ord : nat -> list nat)
| HTag.
(** nothing, an array, or an exception and what it left in the output array *)
Inductive hout := HDone | HOut (out : list Z) | HFail (e : err) (out : list Z).

Section spec.
Variables (A : hauth) (E : list Z -> list Z -> list Z -> list Z) (legal : nat -> bool) (nm : list Z).
Definition label_of (total : Z) (rest : list Z) : list Z := le_bytes 8 total ++ rest.
Definition label_rest (key : list Z) : list Z := le_bytes 2 (8 * Z.of_nat (length key)) ++ nm.
Definition left_cust (st : hstate) : list Z := match st with HIdle c _ => c | HOn _ => [] end.
(** the customization string of a new session: an absent one is the one left behind *)
Definition cust_of (st : hstate) (info : list Z) : list Z := match info with [] => left_cust st | _ => info end.
Definition hopened (st : hstate) (enc : bool) (key iv info : list Z) : hconn :=
  let cust := cust_of st info in
  let K := ha_first A key cust (label_of 1 (label_rest key)) in
  HConn enc (length key) (fst K) info (value_le iv) cust (label_rest key) (snd K) [] 1 (zeros (ha_tag A)).
Definition hcrypt (n : hconn) (m : list Z) : list Z := ctr_crypt (E (h_ck n) (h_info n)) (le_bytes 16) (h_pos n) m.
Definition htotal (n : hconn) (len : nat) : Z := (h_total n + Z.of_nat len) mod 2 ^ 64.
(** the object after the authenticator received [d] *)
Definition hheard (n : hconn) (d : list Z) : hconn :=
  HConn (h_enc n) (h_ksz n) (h_ck n) (h_info n) (h_pos n) (h_cust n) (h_label n) (h_mk n) (h_msg n ++ d) (h_total n) (h_tag n).
(** every Transform starts by authenticating the counter block *)
Definition hnonce (n : hconn) : hconn := hheard n (le_bytes 16 (h_pos n)).
(** the tag of a ciphertext: the MAC of what came before, the ciphertext, and the running total plus 24 *)
Definition htag_of (n : hconn) (ct : list Z) : list Z :=
  ha_mac A (h_mk n) (h_msg (hnonce n) ++ ct ++ le_bytes 8 (htotal n (length ct) + 24)).
(** the object after it took that tag: a new MAC key, labelled with the running total *)
Definition htagged (n : hconn) (ct : list Z) : hconn :=
  let t := htotal n (length ct) in
  HConn (h_enc n) (h_ksz n) (h_ck n) (h_info n) (h_pos n) (h_cust n) (h_label n)
    (ha_next A (h_ksz n) (h_mk n) (h_cust n) (label_of t (h_label n))) [] t (htag_of n ct).
Definition hmoved (n : hconn) (len : nat) : hconn :=
  HConn (h_enc n) (h_ksz n) (h_ck n) (h_info n) (h_pos n + Z.of_nat (Spec_Modes.blocks_for len)) (h_cust n) (h_label n) (h_mk n) (h_msg n) (h_total n) (h_tag n).
Definition haad (n : hconn) (data : list Z) : hconn :=
  match data with [] => n | _ => hheard n (data ++ le_bytes 4 (Z.of_nat (length data))) end.

Fixpoint hexpected (st : hstate) (cs : list hcall) (rs : list hout) : Prop :=
  match cs, rs with
  | [], [] => True
  | HInit enc key iv info :: cs, r :: rs =>
    if negb (legal (length key)) then r = HFail InvalidKey [] /\ hexpected st cs rs
    else if negb (length iv =? 16)%nat then r = HFail InvalidNonce [] /\ hexpected st cs rs
    else if ha_strict A && (0 <? length (cust_of st info))%nat && (length (cust_of st info) <? 4)%nat
    then r = HFail InvalidSalt [] /\ hexpected (HIdle (cust_of st info) (zeros (ha_tag A))) cs rs
    else r = HDone /\ hexpected (HOn (hopened st enc key iv info)) cs rs
  | HAad inp off len :: cs, r :: rs =>
    match st with
    | HIdle _ _ => r = HFail NotInitialized [] /\ hexpected st cs rs
    | HOn n =>
      if (len <? off)%nat then r = HFail InvalidSize [] /\ hexpected st cs rs
      else r = HDone /\ hexpected (HOn (haad n (slice inp off len))) cs rs
    end
  | HTransform inp io out oo len _ :: cs, r :: rs =>
    let data := slice inp io len in
    match st with
    | HIdle _ _ => r = HFail NotInitialized out /\ hexpected st cs rs
    | HOn n =>
      if (length out <? oo + len + if h_enc n then ha_tag A else 0)%nat then r = HFail InvalidSize out /\ hexpected (HOn (hnonce n)) cs rs
      else if h_enc n then
        (exists out', r = HOut out' /\ written out out' oo (hcrypt n data ++ htag_of n (hcrypt n data))) /\
        hexpected (HOn (hmoved (htagged n (hcrypt n data)) len)) cs rs
      else
        (slice inp (io + len) (ha_tag A) = htag_of n data /\
         (exists out', r = HOut out' /\ written out out' oo (hcrypt n data)) /\ hexpected (HOn (hmoved (htagged n data) len)) cs rs)
        \/ (slice inp (io + len) (ha_tag A) <> htag_of n data /\
            r = HFail AuthenticationFailure out /\ hexpected (HOn (htagged n data)) cs rs)
    end
  | HTag :: cs, r :: rs => r = HOut (match st with HIdle _ t => t | HOn n => h_tag n end) /\ hexpected st cs rs
  | _, _ => False
  end.
End spec.
