(** Sequences of Update calls: every digest and MAC takes its message in pieces. *)
From Verif Require Import Base.

(** one call Update(Input, InOffset, Length) *)
Record piece := Piece { p_in : list Z; p_off : nat; p_len : nat }.
(** the bytes it reads *)
Definition p_data (p : piece) : list Z := slice (p_in p) (p_off p) (p_len p).
(** the window lies inside the array and the array holds bytes *)
Definition p_ok (p : piece) : Prop := (p_off p + p_len p <= length (p_in p))%nat /\ bytes (p_in p).
(** the message made of all pieces *)
Definition joined (ps : list piece) : list Z := concat (map p_data ps).
(** run an Update function over the pieces, threading the state *)
Fixpoint feed {S : Type} (upd : S -> list Z -> nat -> nat -> res S) (ps : list piece) (s : S) : res S :=
  match ps with
  | [] => Ok s
  | p :: t => s' <- upd s (p_in p) (p_off p) (p_len p) ;; feed upd t s'
  end.
