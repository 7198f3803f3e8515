(** What a ChaChaP20 or CSX512 object does, call by call, in terms of the keystream of Spec_ChaCha and of KMAC and
    cSHAKE.  Nothing here mentions a model definition. *)
From Verif Require Import Base Spec_Common Spec_ChaCha Spec_Keccak Session_Digest Session_KMAC.
Open Scope Z_scope.

(** word size in bits, block size, keystream block of a state and a counter value, sizes of key, nonce and
    distribution code, whether a code must have exactly that size, the default code, the name, rate and tag size of
    KMAC, whether associated data is followed by its length (and must not be empty), and how key, nonce and code make
    up the initial state and counter value *)
Record cipher := Cipher {
  b_w : Z; b_B : nat; b_block : list Z -> Z -> list Z; b_key : nat; b_iv : nat; b_code : nat; b_exact : bool;
  b_sigma : list Z; b_name : list Z; b_rate : nat; b_tag : nat; b_mark : bool; b_layout : list Z -> list Z -> list Z -> list Z * Z }.
(** "expand 32-byte k", "ChaChaP20-KMAC256" *)
Definition chacha20 : cipher :=
  Cipher 32 64 (chacha_block 10) 32 8 16 true
    [101; 120; 112; 97; 110; 100; 32; 51; 50; 45; 98; 121; 116; 101; 32; 107]
    [67; 104; 97; 67; 104; 97; 80; 50; 48; 45; 75; 77; 65; 67; 50; 53; 54] 136 32 false
    (fun key iv code => (le_words 4 (code ++ key ++ iv), 0)).
(** "CSX512 KMAC authentication ver. 1c CEX++ library", "CSX512-KMAC512" *)
Definition csx512 : cipher :=
  Cipher 64 128 (csx_block 20) 64 16 48 false
    [67; 83; 88; 53; 49; 50; 32; 75; 77; 65; 67; 32; 97; 117; 116; 104; 101; 110; 116; 105; 99; 97; 116; 105; 111; 110; 32;
     118; 101; 114; 46; 32; 49; 99; 32; 67; 69; 88; 43; 43; 32; 108; 105; 98; 114; 97; 114; 121]
    [67; 83; 88; 53; 49; 50; 45; 75; 77; 65; 67; 53; 49; 50] 72 64 true
    (fun key iv code => (le_words 8 (key ++ code), value_le iv)).

(** an initialised object: direction, distribution code, state, next counter value, the authenticator (the state its
    message starts from, and the message so far), bytes authenticated so far, and the last tag *)
Record conn := Conn { n_enc : bool; n_code : list Z; n_state : list Z; n_pos : Z; n_mac : option (list Z * list Z); n_total : Z; n_tag : list Z }.
Section cipher.
Variable c : cipher.
(** a code that is too short leaves the end of the previous one in place *)
Definition code_of (prev info : list Z) : list Z :=
  match info with [] => b_sigma c | _ => firstn (b_code c) info ++ skipn (length info) prev end.
(** the sizes Initialize accepts *)
Definition accepted (key iv info : list Z) : bool :=
  (length key =? b_key c)%nat && (length iv =? b_iv c)%nat &&
  negb (b_exact c && (0 <? length info)%nat && negb (length info =? b_code c)%nat).
(** with authentication, cSHAKE turns the key into a cipher key and, from its second block of output, a MAC key *)
Definition cipher_key (auth : bool) (key : list Z) : list Z :=
  if auth then cshake 24 (b_rate c) key (b_key c) (b_name c) [] else key.
Definition mac_key (key : list Z) : list Z := skipn (b_rate c) (cshake 24 (b_rate c) key (b_rate c + b_tag c) (b_name c) []).
Definition opened (auth : bool) (prev : list Z) (enc : bool) (key iv info : list Z) : conn :=
  let code := code_of prev info in
  let L := b_layout c (cipher_key auth key) iv code in
  Conn enc code (fst L) (snd L) (if auth then Some (kmac_start (b_rate c) kmac_name (mac_key key) [], []) else None) 0
    (if auth then zeros (b_tag c) else []).

(** the bytes the authenticator receives with one message: the counter value, the ciphertext, the running total *)
Definition covered (v : Z) (ct : list Z) (total : Z) : list Z :=
  concat (map (le_bytes (Z.to_nat (b_w c / 8))) (counter_words (b_w c) v)) ++ ct ++ le_bytes 8 total.
Definition crypt (n : conn) (m : list Z) : list Z := stream_crypt (b_B c) (b_block c (n_state n)) (n_pos n) m.
Definition total_after (n : conn) (len : nat) : Z := (n_total n + Z.of_nat len) mod 2 ^ 64.
(** the tag of a ciphertext *)
Definition tag_of (n : conn) (A m ct : list Z) : list Z :=
  kmac_out (b_rate c) A (m ++ covered (n_pos n) ct (total_after n (length ct))) (b_tag c).
Definition mac_after (n : conn) (A m ct : list Z) : list Z :=
  kmac_after (b_rate c) A (m ++ covered (n_pos n) ct (total_after n (length ct))) (b_tag c).
(** the object after a message of [len] bytes was ciphered without authentication *)
Definition moved (n : conn) (len : nat) : conn :=
  Conn (n_enc n) (n_code n) (n_state n) (n_pos n + Z.of_nat (nblocks (b_B c) len)) (n_mac n) (n_total n) (n_tag n).
(** the object after it authenticated the ciphertext [ct] *)
Definition tagged (n : conn) (A m ct : list Z) : conn :=
  Conn (n_enc n) (n_code n) (n_state n) (n_pos n) (Some (mac_after n A m ct, [])) (total_after n (length ct)) (tag_of n A m ct).
Definition aad (n : conn) (A m data : list Z) : conn :=
  Conn (n_enc n) (n_code n) (n_state n) (n_pos n)
    (Some (A, m ++ data ++ if b_mark c then le_bytes 4 (Z.of_nat (length data) mod 2 ^ 32) else [])) (n_total n) (n_tag n).
End cipher.

(** the calls: Initialize, SetAssociatedData, Transform, Tag; [ord] is the order in which parallel workers run *)
Inductive xcall :=
| XInit (enc : bool) (key iv info : list Z)
| XAad (inp : list Z) (off len : nat)
| XTransform (inp : list Z) (io : nat) (out : list Z) (oo len : nat) (ord : list nat)
| XTag.
(** nothing, an array, or an exception and what it left in the output array *)
Inductive xres := XDone | XOut (out : list Z) | XFail (e : err) (out : list Z).

Section expected.
Variables (c : cipher) (auth : bool).
Fixpoint xexpected (n : conn) (cs : list xcall) (rs : list xres) : Prop :=
  match cs, rs with
  | [], [] => True
  | XInit enc key iv info :: cs, r :: rs =>
    if negb (length key =? b_key c)%nat then r = XFail InvalidKey [] /\ xexpected n cs rs
    else if negb (length iv =? b_iv c)%nat then r = XFail InvalidNonce [] /\ xexpected n cs rs
    else if b_exact c && (0 <? length info)%nat && negb (length info =? b_code c)%nat then r = XFail InvalidInfo [] /\ xexpected n cs rs
    else r = XDone /\ xexpected (opened c auth (n_code n) enc key iv info) cs rs
  | XAad inp off len :: cs, r :: rs =>
    match n_mac n with
    | None => r = XFail IllegalOperation [] /\ xexpected n cs rs
    | Some (A, m) =>
      if b_mark c && (len =? 0)%nat then r = XFail InvalidSize [] /\ xexpected n cs rs
      else r = XDone /\ xexpected (aad c n A m (slice inp off len)) cs rs
    end
  | XTransform inp io out oo len _ :: cs, r :: rs =>
    let data := slice inp io len in
    match n_mac n with
    | None => (exists out', r = XOut out' /\ written out out' oo (crypt c n data)) /\ xexpected (moved c n len) cs rs
    | Some (A, m) =>
      if n_enc n then
        if (length out <? oo + len + b_tag c)%nat then r = XFail InvalidSize out /\ xexpected n cs rs
        else (exists out', r = XOut out' /\ written out out' oo (crypt c n data ++ tag_of c n A m (crypt c n data))) /\
             xexpected (moved c (tagged c n A m (crypt c n data)) len) cs rs
      else
        (slice inp (io + len) (b_tag c) = tag_of c n A m data /\
         (exists out', r = XOut out' /\ written out out' oo (crypt c n data)) /\ xexpected (moved c (tagged c n A m data) len) cs rs)
        \/ (slice inp (io + len) (b_tag c) <> tag_of c n A m data /\
            r = XFail AuthenticationFailure out /\ xexpected (tagged c n A m data) cs rs)
    end
  | XTag :: cs, r :: rs =>
    match n_mac n with None => r = XFail NotInitialized [] /\ xexpected n cs rs | Some _ => r = XOut (n_tag n) /\ xexpected n cs rs end
  | _, _ => False
  end.
End expected.
