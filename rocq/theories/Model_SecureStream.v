(** Model of the stream that keeps its bytes encrypted: CEX/SecureStream.cpp.
    The machine is given by [sy_hash] (SHA2-512 of the computer, system, process and user names followed by the salt bytes:
    SecureStream.cpp:263-282 GetSystemKey) and [sy_aes] (AES-256 under a 32-byte key), with the profile and worker orders of the CTR engine.
    Capacity is not represented, as in Model_Stream. *)
From Verif Require Import Base Model_IntegerTools Model_Modes Model_Stream.
Open Scope Z_scope.

Record system := System { sy_hash : list Z -> list Z; sy_aes : list Z -> list Z -> list Z; sy_stale : nat; sy_prof : prof; sy_ord : nat -> list nat }.
Record sstream := SStream { ss_salt : list Z; ss_data : list Z; ss_pos : Z; ss_dead : bool }.
Definition ssize (s : sstream) : Z := Z.of_nat (length (ss_data s)).
Definition with_data (s : sstream) (d : list Z) (p : Z) : sstream := SStream (ss_salt s) d p (ss_dead s).

(** SecureStream.cpp:284-303 Transform: a fresh AES256-CTR engine over the whole array *)
Definition SecureStream_Transform (Y : system) (salt d : list Z) : res (list Z) :=
  match d with
  | [] => Ok []
  | _ =>
    let seed := sy_hash Y salt in
    key <- wcopy seed 0 (zeros 32) 0 32 ;;
    iv <- wcopy seed 32 (zeros 16) 0 16 ;;
    r <- CTR_Transform (sy_aes Y key) (sy_stale Y) (sy_prof Y) (sy_ord Y) (Some d) 0 (zeros (length d)) 0 (length d) iv ;;
    Ok (fst r)
  end.
(** SecureStream.cpp:30, :46, :62: the salt vector is first built with KeySalt elements, and then cut or extended to 8 bytes (:34-38, :50-54, :71-75).
    A vector of 2^63 or more bytes throws std::length_error; running out of memory for a smaller one is not represented *)
Definition key_salt (salt : Z) : res (list Z) :=
  if 2 ^ 63 <=? salt then Throw OtherError else Ok (if salt =? 0 then [] else le_bytes 8 salt).
(** SecureStream.cpp:18-25 *)
Definition SecureStream_default : sstream := SStream [] [] 0 false.
(** SecureStream.cpp:27-41: reserve *)
Definition SecureStream_new (len salt : Z) : res sstream :=
  k <- key_salt salt ;; if 2 ^ 63 <=? len then Throw OtherError else Ok (SStream k [] 0 false).
(** SecureStream.cpp:43-57 *)
Definition SecureStream_of (Y : system) (d : list Z) (salt : Z) : res sstream :=
  k <- key_salt salt ;; d <- SecureStream_Transform Y k d ;; Ok (SStream k d 0 false).
(** SecureStream.cpp:59-78 *)
Definition SecureStream_part (Y : system) (d : list Z) (off len : nat) (salt : Z) : res sstream :=
  k <- key_salt salt ;; x <- wcopy d off (zeros len) 0 len ;; x <- SecureStream_Transform Y k x ;; Ok (SStream k x 0 false).
(** SecureStream.cpp:124-128 Close, :179-184 Reset *)
Definition SecureStream_Close (s : sstream) : sstream := with_data s [] 0.
Definition SecureStream_Reset (s : sstream) : sstream := with_data s [] 0.
(** SecureStream.cpp:130-135 CopyTo a MemoryStream *)
Definition SecureStream_CopyTo (Y : system) (s : sstream) (dst : mstream) : res (sstream * mstream) :=
  d <- SecureStream_Transform Y (ss_salt s) (ss_data s) ;;
  dst <- MemoryStream_Write dst d 0 (Z.of_nat (length d)) ;;
  d <- SecureStream_Transform Y (ss_salt s) d ;;
  Ok (with_data s d (ss_pos s), dst).
(** SecureStream.cpp:137-146 Destroy *)
Definition SecureStream_Destroy (s : sstream) : sstream := if ss_dead s then s else SStream (ss_salt s) [] 0 true.
(** SecureStream.cpp:148-164 Read *)
Definition SecureStream_Read (Y : system) (s : sstream) (out : list Z) (off len : Z) : res (sstream * list Z * Z) :=
  let avail := (ssize s - ss_pos s) mod 2 ^ 64 in
  let len := if avail <? (off + len) mod 2 ^ 64 then avail else len in
  if 0 <? len then
    d <- SecureStream_Transform Y (ss_salt s) (ss_data s) ;;
    out <- copy_at d (ss_pos s) out off len ;;
    d <- SecureStream_Transform Y (ss_salt s) d ;;
    Ok (with_data s d ((ss_pos s + len) mod 2 ^ 64), out, len)
  else Ok (s, out, len).
(** SecureStream.cpp:166-177 ReadByte *)
Definition SecureStream_ReadByte (Y : system) (s : sstream) : res (sstream * Z) :=
  d <- SecureStream_Transform Y (ss_salt s) (ss_data s) ;;
  b <- copy_at d (ss_pos s) (zeros 1) 0 1 ;;
  v <- get b 0 ;;
  d <- SecureStream_Transform Y (ss_salt s) d ;;
  Ok (with_data s d ((ss_pos s + 1) mod 2 ^ 64), v).
(** SecureStream.cpp:186-200 Seek *)
Definition SecureStream_Seek (s : sstream) (off : Z) (o : origin) : sstream :=
  with_data s (ss_data s) (match o with FromBegin => off | FromEnd => (ssize s - off) mod 2 ^ 64 | FromCurrent => (ss_pos s + off) mod 2 ^ 64 end).
(** SecureStream.cpp:202-205 SetLength: reserve *)
Definition SecureStream_SetLength (s : sstream) (n : Z) : res sstream := if 2 ^ 63 <=? n then Throw OtherError else Ok s.
(** SecureStream.cpp:207-223 ToArray *)
Definition SecureStream_ToArray (Y : system) (s : sstream) : res (sstream * list Z) :=
  match ss_data s with
  | [] => Ok (s, [])
  | _ => tmp <- SecureStream_Transform Y (ss_salt s) (ss_data s) ;;
         d <- SecureStream_Transform Y (ss_salt s) tmp ;;
         Ok (with_data s d (ss_pos s), tmp)
  end.
(** SecureStream.cpp:225-246 Write: the array grows, by zeros, before it is decrypted *)
Definition SecureStream_Write (Y : system) (s : sstream) (inp : list Z) (off len : Z) : res sstream :=
  let ttl := (ss_pos s + len) mod 2 ^ 64 in
  d <- (if ssize s <? ttl then grow (ss_data s) ttl else Ok (ss_data s)) ;;
  d <- SecureStream_Transform Y (ss_salt s) d ;;
  d <- copy_at inp off d (ss_pos s) len ;;
  d <- SecureStream_Transform Y (ss_salt s) d ;;
  Ok (with_data s d ((ss_pos s + len) mod 2 ^ 64)).
(** SecureStream.cpp:248-259 WriteByte *)
Definition SecureStream_WriteByte (Y : system) (s : sstream) (v : Z) : res sstream :=
  d <- (if (ssize s - ss_pos s) mod 2 ^ 64 <? 1 then grow (ss_data s) (ssize s + 1) else Ok (ss_data s)) ;;
  d <- SecureStream_Transform Y (ss_salt s) d ;;
  d <- copy_at [v] 0 d (ss_pos s) 1 ;;
  d <- SecureStream_Transform Y (ss_salt s) d ;;
  Ok (with_data s d ((ss_pos s + 1) mod 2 ^ 64)).
