(** What a TSX256, TSX512 or TSX1024 object does, call by call, in terms of the Threefish rounds of Spec_Threefish and
    of KMAC and cSHAKE.  Nothing here mentions a model definition. *)
From Verif Require Import Base Spec_Common Spec_ChaCha Spec_Threefish Spec_Keccak Session_Digest Session_KMAC Spec_Stream.
Open Scope Z_scope.

(** block size (also the key size), key-stream block of a key, tweak and counter value, whether the tweak must be 16
    bytes or absent, the default tweak, the name, rate of cSHAKE and KMAC, key size of KMAC, tag size *)
Record tcipher := TCipher {
  t_B : nat; t_block : list Z -> list Z -> Z -> list Z; t_exact : bool; t_default : list Z; t_name : list Z;
  t_rate : nat; t_mac : nat; t_tag : nat }.
Definition all_ones (n : nat) : list Z := repeat (2 ^ 64 - 1) n.
Definition out_bytes (l : list Z) : list Z := concat (map (le_bytes 8) l).
(** "ThreefishP256R72", "TSX256-KMAC256" *)
Definition tsx256 : tcipher :=
  TCipher 32 (fun key tw v => out_bytes (threefish threefish256 72 key tw (counter_words 64 v ++ all_ones 2))) true
    [84; 104; 114; 101; 101; 102; 105; 115; 104; 80; 50; 53; 54; 82; 55; 50] [84; 83; 88; 50; 53; 54; 45; 75; 77; 65; 67; 50; 53; 54] 136 32 32.
(** "ThreefishP512R96", "TSX512-KMAC512"; the last subkey is the one of C66 *)
Definition tsx512 : tcipher :=
  TCipher 64 (fun key tw v => out_bytes (tf_encrypt threefish512 96 (subkey threefish512 key tw 18 24) key tw (counter_words 64 v ++ all_ones 6))) false
    [84; 104; 114; 101; 101; 102; 105; 115; 104; 80; 53; 49; 50; 82; 57; 54] [84; 83; 88; 53; 49; 50; 45; 75; 77; 65; 67; 53; 49; 50] 72 64 64.
(** "Threefish1024120", "TSX1024-KMAC512" *)
Definition tsx1024 : tcipher :=
  TCipher 128 (fun key tw v => out_bytes (tf_encrypt threefish1024 120 (subkey threefish1024 key tw 20 30) key tw (counter_words 64 v ++ all_ones 14))) false
    [84; 104; 114; 101; 101; 102; 105; 115; 104; 49; 48; 50; 52; 49; 50; 48] [84; 83; 88; 49; 48; 50; 52; 45; 75; 77; 65; 67; 53; 49; 50] 72 64 128.

(** an initialised object: direction, key and tweak words, next counter value, the authenticator (the state its message
    starts from, and the message so far), bytes authenticated so far plus one, and the last tag *)
Record tconn := TConn { k_enc : bool; k_key : list Z; k_tweak : list Z; k_pos : Z; k_mac : option (list Z * list Z); k_total : Z; k_tag : list Z }.
Section cipher.
Variable c : tcipher.
Definition taccepted (key iv info : list Z) : bool :=
  (length key =? t_B c)%nat && (length iv =? 16)%nat && ((length info =? 0)%nat || (length info =? 16)%nat).
(** with authentication, cSHAKE, customised with the number one and the name, turns the key into a cipher key and,
    from the next whole block of output, a MAC key *)
Definition tcustom : list Z := le_bytes 8 1 ++ t_name c.
Definition tcipher_key (auth : bool) (key : list Z) : list Z :=
  if auth then cshake 24 (t_rate c) key (t_B c) [] tcustom else key.
Definition tmac_key (key : list Z) : list Z :=
  let k := (nblocks (t_rate c) (t_B c) * t_rate c)%nat in skipn k (cshake 24 (t_rate c) key (k + t_mac c) [] tcustom).
Definition topened (auth enc : bool) (key iv info : list Z) : tconn :=
  TConn enc (le_words 8 (tcipher_key auth key)) (le_words 8 (match info with [] => t_default c | _ => info end)) (value_le iv)
    (if auth then Some (kmac_start (t_rate c) kmac_name (tmac_key key) [], []) else None) (if auth then 1 else 0)
    (if auth then zeros (t_tag c) else []).

(** the bytes the authenticator receives with one message: the counter value, the ciphertext, the running total, the name *)
Definition tcovered (v : Z) (ct : list Z) (total : Z) : list Z :=
  concat (map (le_bytes 8) (counter_words 64 v)) ++ ct ++ le_bytes 8 total ++ t_name c.
Definition tcrypt (n : tconn) (m : list Z) : list Z := stream_crypt (t_B c) (t_block c (k_key n) (k_tweak n)) (k_pos n) m.
Definition ttotal (n : tconn) (len : nat) : Z := (k_total n + Z.of_nat len) mod 2 ^ 64.
Definition ttag_of (n : tconn) (A m ct : list Z) : list Z :=
  kmac_out (t_rate c) A (m ++ tcovered (k_pos n) ct (ttotal n (length ct))) (t_tag c).
Definition tmac_after (n : tconn) (A m ct : list Z) : list Z :=
  kmac_after (t_rate c) A (m ++ tcovered (k_pos n) ct (ttotal n (length ct))) (t_tag c).
Definition tmoved (n : tconn) (len : nat) : tconn :=
  TConn (k_enc n) (k_key n) (k_tweak n) (k_pos n + Z.of_nat (nblocks (t_B c) len)) (k_mac n) (k_total n) (k_tag n).
Definition ttagged (n : tconn) (A m ct : list Z) : tconn :=
  TConn (k_enc n) (k_key n) (k_tweak n) (k_pos n) (Some (tmac_after n A m ct, [])) (ttotal n (length ct)) (ttag_of n A m ct).
(** associated data is followed by its length *)
Definition taad (n : tconn) (A m data : list Z) : tconn :=
  TConn (k_enc n) (k_key n) (k_tweak n) (k_pos n) (Some (A, m ++ data ++ le_bytes 4 (Z.of_nat (length data) mod 2 ^ 32))) (k_total n) (k_tag n).

Variable auth : bool.
(** the calls and results of Spec_Stream *)
Fixpoint texpected (n : tconn) (cs : list xcall) (rs : list xres) : Prop :=
  match cs, rs with
  | [], [] => True
  | XInit enc key iv info :: cs, r :: rs =>
    if negb (length key =? t_B c)%nat then r = XFail InvalidKey [] /\ texpected n cs rs
    else if negb (length iv =? 16)%nat then r = XFail InvalidNonce [] /\ texpected n cs rs
    else if negb ((length info =? 0)%nat || (length info =? 16)%nat) then r = XFail InvalidInfo [] /\ texpected n cs rs
    else r = XDone /\ texpected (topened auth enc key iv info) cs rs
  | XAad inp off len :: cs, r :: rs =>
    match k_mac n with
    | None => r = XFail IllegalOperation [] /\ texpected n cs rs
    | Some (A, m) =>
      if (len =? 0)%nat then r = XFail InvalidSize [] /\ texpected n cs rs
      else r = XDone /\ texpected (taad n A m (slice inp off len)) cs rs
    end
  | XTransform inp io out oo len _ :: cs, r :: rs =>
    let data := slice inp io len in
    match k_mac n with
    | None => (exists out', r = XOut out' /\ written out out' oo (tcrypt n data)) /\ texpected (tmoved n len) cs rs
    | Some (A, m) =>
      if k_enc n then
        if (length out <? oo + len + t_mac c)%nat then r = XFail InvalidSize out /\ texpected n cs rs
        else (exists out', r = XOut out' /\ written out out' oo (tcrypt n data ++ ttag_of n A m (tcrypt n data))) /\
             texpected (tmoved (ttagged n A m (tcrypt n data)) len) cs rs
      else
        (slice inp (io + len) (t_tag c) = ttag_of n A m data /\
         (exists out', r = XOut out' /\ written out out' oo (tcrypt n data)) /\ texpected (tmoved (ttagged n A m data) len) cs rs)
        \/ (slice inp (io + len) (t_tag c) <> ttag_of n A m data /\
            r = XFail AuthenticationFailure out /\ texpected (ttagged n A m data) cs rs)
    end
  | XTag :: cs, r :: rs => r = XOut (k_tag n) /\ texpected n cs rs
  | _, _ => False
  end.
End cipher.
