(** A file whose gaps are not zero: writing beyond the end fills the gap with the bytes [gap] gives for the positions. *)
From Verif Require Import Base Spec_Common Spec_File.
Open Scope Z_scope.

Definition fill_step (gap : nat -> Z) (f : file) (c : fcall) : option (file * fres) :=
  match c, fcall_step f c with
  | FWrite inp off len, Some (f', a) =>
      let d := f_bytes f in
      if (f_pos f <=? length d)%nat then Some (f', a)
      else Some (File (d ++ map gap (seq (length d) (f_pos f - length d)) ++ firstn len (skipn off inp)) (f_pos f'), a)
  | _, r => r
  end.
(** the answers, with the length, position and bytes seen after each call *)
Fixpoint fill_history (gap : nat -> Z) (f : file) (cs : list fcall) : option (list (fres * nat * nat * list Z)) :=
  match cs with
  | [] => Some []
  | c :: r => match fill_step gap f c with
              | None => None
              | Some (f', a) => match fill_history gap f' r with Some t => Some ((a, length (f_bytes f'), f_pos f', f_bytes f') :: t) | None => None end
              end
  end.
(** no write starts beyond the end of the file *)
Fixpoint no_gap (f : file) (cs : list fcall) : bool :=
  match cs with
  | [] => true
  | c :: r => (match c with FWrite _ _ _ => (f_pos f <=? length (f_bytes f))%nat | _ => true end) &&
              match fcall_step f c with Some (f', _) => no_gap f' r | None => true end
  end.
(** byte [i] of the AES256-CTR key stream: the key is the first 32 bytes of the seed, the counter starts at the number in the next 16 *)
Definition seed_pad (aes : list Z -> list Z -> list Z) (seed : list Z) (i : nat) : Z :=
  nth (i mod 16) (aes (firstn 32 seed) (be_bytes 16 (value_be (firstn 16 (skipn 32 seed)) + Z.of_nat (i / 16)))) 0.
Definition pad_with (pad : nat -> Z) (d : list Z) : list Z := map (fun i => Z.lxor (nth i d 0) (pad i)) (seq 0 (length d)).
(** the bytes seen last *)
Definition shown_last (d : list Z) (t : list (fres * nat * nat * list Z)) : list Z := last (map snd t) d.
(** the salt as it enters the seed *)
Definition salt_bytes (salt : Z) : list Z := if salt =? 0 then [] else le_bytes 8 salt.
