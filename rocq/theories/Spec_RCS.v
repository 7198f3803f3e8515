(** What an RCS or RWS object does, call by call: Rijndael with a block of 256 or 512 bits in counter mode, round keys
    and MAC key from cSHAKE, a KMAC over nonce, ciphertext and length.  Nothing here mentions a model definition. *)
From Verif Require Import Base Spec_Common Spec_ChaCha Spec_Keccak Spec_AES Session_Digest Session_KMAC Spec_Stream.
Open Scope Z_scope.

(** block size, row offsets of ShiftRows, first value of the byte counter, legal key sizes; by key size: number of
    rounds, rate of cSHAKE and KMAC, size of tag and MAC key, and the name, with and without authentication *)
Record wide := Wide { w_B : nat; w_offs : list nat; w_first : Z; w_sizes : list nat; w_rounds : nat -> nat; w_rate : nat -> nat;
  w_tag : nat -> nat; w_label : bool -> nat -> list Z }.
(** "RCS", "RCSK256", "RCSK512" *)
Definition rcs : wide :=
  Wide 32 [0; 1; 3; 4]%nat 1 [32; 64]%nat
    (fun k => if (k =? 64)%nat then 30%nat else 22%nat) (fun k => if (k =? 64)%nat then 72%nat else 136%nat) (fun k => k)
    (fun auth k => [82; 67; 83] ++ if auth then (if (k =? 64)%nat then [75; 53; 49; 50] else [75; 50; 53; 54]) else []).
(** "RWS", "RWSK256", "RWSK512"; a 128-bit key has no name of its own *)
Definition rws : wide :=
  Wide 64 [1; 2; 4; 8]%nat 0 [16; 32; 64]%nat
    (fun k => if (k =? 64)%nat then 80%nat else if (k =? 32)%nat then 40%nat else 20%nat)
    (fun k => if (k =? 64)%nat then 72%nat else if (k =? 32)%nat then 136%nat else 168%nat) (fun k => k)
    (fun auth k => [82; 87; 83] ++ if auth then (if (k =? 64)%nat then [75; 53; 49; 50] else if (k =? 32)%nat then [75; 50; 53; 54] else []) else []).

(** an initialised object: direction, key size, round keys, customization string, the part of the nonce that does not
    count, next counter value, the authenticator (the state its message starts from, and the message so far), byte
    counter, last tag *)
Record line := Line { y_enc : bool; y_size : nat; y_keys : list (list Z); y_custom : list Z; y_rest : list Z; y_pos : Z;
  y_mac : option (list Z * list Z); y_total : Z; y_tag : list Z }.
Section wide.
Variable w : wide.
(** the name cSHAKE sees: first byte count, key size in bits, label *)
Definition full_name (auth : bool) (k : nat) : list Z := le_bytes 8 (w_first w) ++ le_bytes 2 (8 * Z.of_nat k) ++ w_label w auth k.
(** bytes of round keys; blocks of cSHAKE output they take *)
Definition key_bytes (k : nat) : nat := (w_B w * (w_rounds w k + 1))%nat.
Definition key_blocks (k : nat) : nat := nblocks (w_rate w k) (key_bytes k).
Definition round_keys (auth : bool) (key custom : list Z) : list (list Z) :=
  let k := length key in chunks (w_B w) (cshake 24 (w_rate w k) key (key_bytes k) (full_name auth k) custom).
(** the MAC key comes from the next block of output *)
Definition auth_key (key custom : list Z) : list Z :=
  let k := length key in let used := (key_blocks k * w_rate w k)%nat in
  skipn used (cshake 24 (w_rate w k) key (used + w_tag w k) (full_name true k) custom).
(** without a customization string the object uses as many zeros as the previous one was long *)
Definition custom_of (prev info : list Z) : list Z := match info with [] => zeros (length prev) | _ => info end.
Definition begun (auth : bool) (prev : list Z) (enc : bool) (key iv info : list Z) : line :=
  let k := length key in let custom := custom_of prev info in
  Line enc k (round_keys auth key custom) custom (skipn 16 iv) (value_le (firstn 16 iv))
    (if auth then Some (kmac_start (w_rate w k) kmac_name (auth_key key custom) [], []) else None) (w_first w)
    (if auth then zeros (w_tag w k) else []).

(** the nonce, and the keystream block, at a counter value *)
Definition nonce_at (rest : list Z) (v : Z) : list Z := le_bytes 16 v ++ rest.
Definition pad_block (n : line) (v : Z) : list Z := rijndael (w_offs w) (y_keys n) (nonce_at (y_rest n) v).
Definition ycrypt (n : line) (m : list Z) : list Z := stream_crypt (w_B w) (pad_block n) (y_pos n) m.
Definition ytotal (n : line) (len : nat) : Z := (y_total n + Z.of_nat len) mod 2 ^ 64.
(** the bytes the authenticator receives with one message: the nonce, the ciphertext, the length of everything *)
Definition ycovered (n : line) (ct : list Z) : list Z :=
  nonce_at (y_rest n) (y_pos n) ++ ct ++ le_bytes 8 (ytotal n (length ct) + Z.of_nat (w_B w) + 8).
Definition ytag_of (n : line) (A m ct : list Z) : list Z := kmac_out (w_rate w (y_size n)) A (m ++ ycovered n ct) (w_tag w (y_size n)).
Definition ymac_after (n : line) (A m ct : list Z) : list Z := kmac_after (w_rate w (y_size n)) A (m ++ ycovered n ct) (w_tag w (y_size n)).
Definition ymoved (n : line) (len : nat) : line :=
  Line (y_enc n) (y_size n) (y_keys n) (y_custom n) (y_rest n) (y_pos n + Z.of_nat (nblocks (w_B w) len)) (y_mac n) (y_total n) (y_tag n).
Definition ytagged (n : line) (A m ct : list Z) : line :=
  Line (y_enc n) (y_size n) (y_keys n) (y_custom n) (y_rest n) (y_pos n) (Some (ymac_after n A m ct, [])) (ytotal n (length ct)) (ytag_of n A m ct).
Definition yaad (n : line) (A m data : list Z) : line :=
  Line (y_enc n) (y_size n) (y_keys n) (y_custom n) (y_rest n) (y_pos n) (Some (A, m ++ data ++ le_bytes 4 (Z.of_nat (length data) mod 2 ^ 32)))
    (y_total n) (y_tag n).
(** the sizes Initialize accepts *)
Definition fitting (key iv : list Z) : bool := existsb (Nat.eqb (length key)) (w_sizes w) && (length iv =? w_B w)%nat.

(** what a history of calls returns *)
Variable auth : bool.
Fixpoint yexpected (n : line) (cs : list xcall) (rs : list xres) : Prop :=
  match cs, rs with
  | [], [] => True
  | XInit enc key iv info :: cs, r :: rs =>
    if negb (existsb (Nat.eqb (length key)) (w_sizes w)) then r = XFail InvalidKey [] /\ yexpected n cs rs
    else if negb (length iv =? w_B w)%nat then r = XFail InvalidNonce [] /\ yexpected n cs rs
    else r = XDone /\ yexpected (begun auth (y_custom n) enc key iv info) cs rs
  | XAad inp off len :: cs, r :: rs =>
    match y_mac n with
    | None => r = XFail IllegalOperation [] /\ yexpected n cs rs
    | Some (A, m) =>
      if (len =? 0)%nat then r = XFail InvalidSize [] /\ yexpected n cs rs
      else r = XDone /\ yexpected (yaad n A m (slice inp off len)) cs rs
    end
  | XTransform inp io out oo len _ :: cs, r :: rs =>
    let data := slice inp io len in
    match y_mac n with
    | None => (exists out', r = XOut out' /\ written out out' oo (ycrypt n data)) /\ yexpected (ymoved n len) cs rs
    | Some (A, m) =>
      let tag := w_tag w (y_size n) in
      if y_enc n then
        if (length out <? oo + len + tag)%nat then r = XFail InvalidSize out /\ yexpected n cs rs
        else (exists out', r = XOut out' /\ written out out' oo (ycrypt n data ++ ytag_of n A m (ycrypt n data))) /\
             yexpected (ymoved (ytagged n A m (ycrypt n data)) len) cs rs
      else
        (slice inp (io + len) tag = ytag_of n A m data /\
         (exists out', r = XOut out' /\ written out out' oo (ycrypt n data)) /\ yexpected (ymoved (ytagged n A m data) len) cs rs)
        \/ (slice inp (io + len) tag <> ytag_of n A m data /\
            r = XFail AuthenticationFailure out /\ yexpected (ytagged n A m data) cs rs)
    end
  | XTag :: cs, r :: rs =>
    match y_mac n with None => r = XFail NotInitialized [] /\ yexpected n cs rs | Some _ => r = XOut (y_tag n) /\ yexpected n cs rs end
  | _, _ => False
  end.
End wide.
