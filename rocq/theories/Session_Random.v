(** Sequences of calls on one SecureRandom object. *)
From Verif Require Import Base Spec_Random Model_SecureRandom.
Open Scope Z_scope.

Inductive rcall : Type :=
| CGenerate (secure : bool) (out : list Z) (off len : nat)
| CFill (secure : bool) (w : nat) (out : list Z) (off n : nat)
| CNext (signed : bool) (w : nat)
| CNextMax (signed : bool) (w : nat) (mx : Z)
| CNextRange (signed : bool) (w : nat) (mx mn : Z).
Inductive rres : Type :=
| Array (l : list Z) | Int (v : Z) | Failed (e : err) | Sampling.

(** the results of the calls; a call that is still sampling after [fuel] samples ends the list *)
Definition answer {A} (r : res (A * rnd)) (s : rnd) (f : A -> rres) (k : rnd -> res (list rres)) : res (list rres) :=
  match r with
  | Ok (a, s') => match f a with Sampling => Ok [Sampling] | x => l <- k s' ;; Ok (x :: l) end
  | Throw e => l <- k s ;; Ok (Failed e :: l)
  | UB => UB
  end.
Definition int_or (o : option Z) : rres := match o with Some v => Int v | None => Sampling end.
Fixpoint rhistory (fuel : nat) (g : nat -> Z) (cs : list rcall) (s : rnd) : res (list rres) :=
  match cs with
  | [] => Ok []
  | c :: cs =>
    match c with
    | CGenerate secure out off len => answer (Generate g secure s out off len) s Array (rhistory fuel g cs)
    | CFill secure w out off n => answer (Fill g secure w s out off n) s Array (rhistory fuel g cs)
    | CNext signed w => answer (Next g signed w s) s Int (rhistory fuel g cs)
    | CNextMax signed w mx => answer (NextMax fuel g signed w mx s) s int_or (rhistory fuel g cs)
    | CNextRange signed w mx mn => answer (NextRange fuel g signed w mx mn s) s int_or (rhistory fuel g cs)
    end
  end.

(** the calls of a caller that keeps to the arrays and to ranges of at most the type's largest positive value
    (unsigned types: anything but the whole type) *)
Definition size_ok (w : nat) : Prop := w = 2%nat \/ w = 4%nat \/ w = 8%nat.
Definition rcall_ok (c : rcall) : Prop :=
  match c with
  | CGenerate _ out off len => (off + len <= length out)%nat
  | CFill _ w _ _ _ => size_ok w
  | CNext _ w => w = 1%nat \/ size_ok w
  | CNextMax signed w mx => size_ok w /\ in_type signed w mx
  | CNextRange signed w mx mn => size_ok w /\ in_type signed w mx /\ in_type signed w mn /\ mx - mn + 1 <= top signed w
  end.

(** the expected results *)
Definition value (o : option Z) (base : Z) (k : list rres) : list rres := match o with Some v => Int (base + v) :: k | None => [Sampling] end.
Fixpoint rexpected (fuel : nat) (g : nat -> Z) (cs : list rcall) (pa : nat * nat) : list rres :=
  match cs with
  | [] => []
  | c :: cs =>
    match c with
    | CGenerate _ out off len =>
      let '(a, pa') := serve len pa in Array (splice out off (source g a len)) :: rexpected fuel g cs pa'
    | CFill _ w out off n =>
      if (off + n <=? length out)%nat then
        let '(a, pa') := serve (n * w) pa in Array (splice out off (map le_val (chunks w (source g a (n * w))))) :: rexpected fuel g cs pa'
      else Failed InvalidParam :: rexpected fuel g cs pa
    | CNext signed w => let '(a, pa') := serve w pa in Int (as_type signed w (source g a w)) :: rexpected fuel g cs pa'
    | CNextMax signed w mx =>
      if mx <? 1 then Failed IllegalOperation :: rexpected fuel g cs pa
      else let '(o, pa') := first_outcome fuel g signed w mx pa in value o 0 (rexpected fuel g cs pa')
    | CNextRange signed w mx mn =>
      if ((mx <? 1) || (mx <? mn))%bool then Failed IllegalOperation :: rexpected fuel g cs pa
      else let '(o, pa') := first_outcome fuel g signed w (mx - mn + 1) pa in value o mn (rexpected fuel g cs pa')
    end
  end.

(** a list of requests for random bytes, into vectors or SecureVectors *)
Fixpoint requests (g : nat -> Z) (ns : list (bool * nat)) (s : rnd) : res (list (list Z)) :=
  match ns with
  | [] => Ok []
  | (secure, n) :: ns => r <- Generate_all g secure s (zeros n) ;; l <- requests g ns (snd r) ;; Ok (fst r :: l)
  end.
(** windows [a, a+n) one after the other *)
Fixpoint in_order (from : nat) (ws : list (nat * nat)) : Prop :=
  match ws with [] => True | (a, n) :: ws => (from <= a)%nat /\ in_order (a + n) ws end.
(** what may be returned for a call *)
Definition asked (c : rcall) (v : Z) : Prop :=
  match c with
  | CNext signed w => in_type signed w v
  | CNextMax _ _ mx => 0 <= v < mx
  | CNextRange _ _ mx mn => mn <= v <= mx
  | _ => False
  end.
