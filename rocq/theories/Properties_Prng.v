(** C78: the buffered random generators BCR, CSR and HCR.  Statements only; [own] is true for BCR and false for CSR and HCR. *)
From Verif Require Import Base BaseLemmas Spec_Random Model_SecureRandom Session_Random Model_Prng Session_Prng ProofsP_Prng.
Open Scope Z_scope.

(** C78: in every history of requests, integers and Resets each call returns the next bytes of the generator; a request larger than
    what is buffered discards the buffered bytes, and Reset keeps the place in the buffer. *)
Theorem C78_every_history : forall (own : bool) (g : nat -> Z) (cs : list pcall), Forall (pcall_ok own) cs ->
  exists s, phistory own g (Prng_new g) cs = Ok (pexpected g (0, 1024)%nat cs, s).
Proof. exact c78_history. Qed.
Print Assumptions C78_every_history.
(** no byte of the generator is given out twice: the answers are windows of its output, one after the other, also across Resets *)
Theorem C78_no_byte_twice : forall (own : bool) (g : nat -> Z) (os : list (option nat)), exists starts s, length starts = length (sizes os) /\
  phistory own g (Prng_new g) (map ask os) = Ok (answers g starts os, s) /\ in_order 0 (combine starts (sizes os)).
Proof. exact c78_once. Qed.
Print Assumptions C78_no_byte_twice.
(** what was given out is no longer in the buffer: everything before the place reached is zero, as long as Reset made no new one *)
Theorem C78_erased : forall (own : bool) (g : nat -> Z) (cs : list pcall) rs s, Forall (fun c => c <> PReset true) cs ->
  phistory own g (Prng_new g) cs = Ok (rs, s) -> firstn (r_pos s) (r_buf s) = zeros (r_pos s).
Proof. exact c78_erased. Qed.
Print Assumptions C78_erased.
Example C78_case :
  let g := fun i => Z.of_nat (7 * i + 3) mod 256 in
  let cs := [PVec [9; 9; 9]; PVecAt [9; 9; 9; 9] 0 4; PVecAt [9; 9] 1 2; PSecAt [9; 9; 9] 1 2; PNext 2; PReset false] in
  Forall (pcall_ok false) cs /\ Forall (pcall_ok true) (cs ++ [PReset true; PVecAt [9; 9; 9] 1 1]) /\ Forall (fun c => c <> PReset true) cs /\
  pexpected g (0, 1024)%nat (cs ++ [PReset true; PVec [0]]) =
    [PBytes [3; 10; 17]; PBytes [24; 31; 38; 45]; PFail InvalidSize; PBytes [9; 52; 59]; PInt (66 + 256 * 73); PFail OtherError; PDone; PBytes [g 1035%nat]].
Proof.
  cbv zeta. split; [|split; [|split]].
  - repeat (apply Forall_cons; [cbn [pcall_ok length]; repeat split; lia|]). apply Forall_nil.
  - cbn [app]. repeat (apply Forall_cons; [cbn [pcall_ok length]; repeat split; lia|]). apply Forall_nil.
  - repeat (apply Forall_cons; [discriminate|]). apply Forall_nil.
  - vm_compute. reflexivity.
Qed.

(** Refuted: "Generate with an offset and a length writes that window": CSR and HCR ask for as many bytes as the whole array has,
    in a temporary of the length of the window.  Whatever was called before, every request for less than the whole array writes
    beyond the end of the temporary. *)
Theorem C78_window_overrun_refuted : forall (g : nat -> Z) (cs : list pcall) (out : list Z) (off n : nat), Forall (pcall_ok false) cs ->
  Z.of_nat (length out) < 2 ^ 64 -> (off + n <= length out)%nat -> (n < length out)%nat ->
  phistory false g (Prng_new g) (cs ++ [PVecAt out off n]) = UB.
Proof. exact c78_overrun. Qed.
Print Assumptions C78_window_overrun_refuted.
Example C78_window_case : let out := [9; 9; 9] in Z.of_nat (length out) < 2 ^ 64 /\ (1 + 1 <= length out)%nat /\ (1 < length out)%nat.
Proof. cbn [length]. lia. Qed.

(** Refuted: "the bytes do not depend on how the requests are cut": a request for more than is buffered discards the buffer. *)
Theorem C78_split_refuted : forall (own : bool) (g : nat -> Z), g 0%nat <> g 1024%nat -> exists a b c s1 s2,
  phistory own g (Prng_new g) [PVec (zeros 1); PVec (zeros 1024)] = Ok ([PBytes a; PBytes b], s1) /\
  phistory own g (Prng_new g) [PVec (zeros 1025)] = Ok ([PBytes c], s2) /\ a ++ b <> c.
Proof. exact c78_split. Qed.
Print Assumptions C78_split_refuted.
Example C78_split_case : let g := fun i => if (i =? 0)%nat then 1 else 0 in g 0%nat <> g 1024%nat.
Proof. cbv zeta. discriminate. Qed.
