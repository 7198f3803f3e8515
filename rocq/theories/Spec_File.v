(** What a file in memory is: its bytes and a position.  A call that has no meaning for such a file has no result. *)
From Verif Require Import Base.
Open Scope Z_scope.

Inductive seek_from := SBegin | SEnd | SCurrent.
Inductive fcall :=
| FWrite (inp : list Z) (off len : nat)
| FWriteByte (v : Z)
| FRead (out : list Z) (off len : nat)
| FReadByte
| FSeek (off : nat) (from : seek_from)
| FReset
| FClose.
Inductive fres := FDone | FGot (out : list Z) (n : nat) | FByte (v : Z).
Record file := File { f_bytes : list Z; f_pos : nat }.

(** the bytes after writing [w] at [p]; writing beyond the end leaves a gap of zeros *)
Definition put_at (d : list Z) (p : nat) (w : list Z) : list Z :=
  if (p <=? length d)%nat then firstn p d ++ w ++ skipn (p + length w) d else d ++ repeat 0 (p - length d) ++ w.
Definition too_big (n : nat) : bool := 2 ^ 63 <=? Z.of_nat n.

Definition fcall_step (f : file) (c : fcall) : option (file * fres) :=
  let d := f_bytes f in let p := f_pos f in let n := length d in
  match c with
  | FWrite inp off len =>
      if (off + len <=? length inp)%nat && negb (too_big (p + len))
      then Some (File (put_at d p (firstn len (skipn off inp))) (p + len), FDone) else None
  | FWriteByte v => if (p <=? n)%nat && negb (too_big (p + 1)) then Some (File (put_at d p [v]) (p + 1), FDone) else None
  | FRead out off len =>
      (* with an offset, only when enough bytes remain: see C53_read_offset_refuted *)
      if (p <=? n)%nat && (off + len <=? length out)%nat && ((off =? 0)%nat || (off + len <=? n - p)%nat) && negb (too_big (off + len))
      then let k := Nat.min len (n - p) in
           Some (File d (p + k), FGot (firstn off out ++ firstn k (skipn p d) ++ skipn (off + k) out) k) else None
  | FReadByte => if (p <? n)%nat then Some (File d (p + 1), FByte (nth p d 0)) else None
  | FSeek off from =>
      match from with
      | SBegin => if too_big off then None else Some (File d off, FDone)
      | SEnd => if (off <=? n)%nat then Some (File d (n - off), FDone) else None
      | SCurrent => if too_big (p + off) then None else Some (File d (p + off), FDone)
      end
  | FReset | FClose => Some (File [] 0, FDone)
  end.
(** the answers, with the length, position and bytes seen after each call *)
Fixpoint file_history (f : file) (cs : list fcall) : option (list (fres * nat * nat * list Z)) :=
  match cs with
  | [] => Some []
  | c :: r => match fcall_step f c with
              | None => None
              | Some (f', a) => match file_history f' r with Some t => Some ((a, length (f_bytes f'), f_pos f', f_bytes f') :: t) | None => None end
              end
  end.

(** ** typed items *)
Inductive item := IByte (v : Z) | IShort (v : Z) | IInt (v : Z) | ILong (v : Z) | IArray (l : list Z).
Inductive kind := KByte | KShort | KInt | KLong | KArray (n : nat).
Definition kind_of (i : item) : kind := match i with IByte _ => KByte | IShort _ => KShort | IInt _ => KInt | ILong _ => KLong | IArray l => KArray (length l) end.
Definition item_ok (i : item) : Prop :=
  match i with IByte v => 0 <= v < 2 ^ 8 | IShort v => 0 <= v < 2 ^ 16 | IInt v => 0 <= v < 2 ^ 32 | ILong v => 0 <= v < 2 ^ 64 | IArray l => bytes l end.
Definition item_size (i : item) : nat := match i with IByte _ => 1 | IShort _ => 2 | IInt _ => 4 | ILong _ => 8 | IArray l => length l end.
Definition items_size (l : list item) : nat := list_sum (map item_size l).
