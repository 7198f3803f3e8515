(** The Serpent S-boxes and linear transformations as statement lists (see Model_Straight.v).
    GENERATED by tools/gen_serpent.py from CEX/Serpent.h; do not edit.
    Registers: 0-3 are R0 to R3, 4 is B4. *)
From Verif Require Import Base Model_Straight.
Open Scope Z_scope.

(** CEX/Serpent.h:309-321 *)
Definition LinearTransform_prog : prog := [
  (0%nat, RLo (R 0) 13);
  (2%nat, RLo (R 2) 3);
  (1%nat, Xo (R 1) (Xo (R 0) (R 2)));
  (3%nat, Xo (R 3) (Xo (R 2) (SL (R 0) 3)));
  (1%nat, RLo (R 1) 1);
  (3%nat, RLo (R 3) 7);
  (0%nat, Xo (R 0) (Xo (R 1) (R 3)));
  (2%nat, Xo (R 2) (Xo (R 3) (SL (R 1) 7)));
  (0%nat, RLo (R 0) 5);
  (2%nat, RLo (R 2) 22)].

(** CEX/Serpent.h:339-351 *)
Definition InverseTransform_prog : prog := [
  (2%nat, RRo (R 2) 22);
  (0%nat, RRo (R 0) 5);
  (2%nat, Xo (R 2) (Xo (R 3) (SL (R 1) 7)));
  (0%nat, Xo (R 0) (Xo (R 1) (R 3)));
  (3%nat, RRo (R 3) 7);
  (1%nat, RRo (R 1) 1);
  (3%nat, Xo (R 3) (Xo (R 2) (SL (R 0) 3)));
  (1%nat, Xo (R 1) (Xo (R 0) (R 2)));
  (2%nat, RRo (R 2) 3);
  (0%nat, RRo (R 0) 13)].

(** CEX/Serpent.h:370-393 *)
Definition Sb0_prog : prog := [
  (3%nat, Xo (R 3) (R 0));
  (4%nat, R 1);
  (1%nat, An (R 1) (R 3));
  (4%nat, Xo (R 4) (R 2));
  (1%nat, Xo (R 1) (R 0));
  (0%nat, Or (R 0) (R 3));
  (0%nat, Xo (R 0) (R 4));
  (4%nat, Xo (R 4) (R 3));
  (3%nat, Xo (R 3) (R 2));
  (2%nat, Or (R 2) (R 1));
  (2%nat, Xo (R 2) (R 4));
  (4%nat, No (R 4));
  (4%nat, Or (R 4) (R 1));
  (1%nat, Xo (R 1) (R 3));
  (1%nat, Xo (R 1) (R 4));
  (3%nat, Or (R 3) (R 0));
  (1%nat, Xo (R 1) (R 3));
  (4%nat, Xo (R 4) (R 3));
  (3%nat, R 0);
  (0%nat, R 1);
  (1%nat, R 4)].

(** CEX/Serpent.h:396-419 *)
Definition Ib0_prog : prog := [
  (2%nat, No (R 2));
  (4%nat, R 1);
  (1%nat, Or (R 1) (R 0));
  (4%nat, No (R 4));
  (1%nat, Xo (R 1) (R 2));
  (2%nat, Or (R 2) (R 4));
  (1%nat, Xo (R 1) (R 3));
  (0%nat, Xo (R 0) (R 4));
  (2%nat, Xo (R 2) (R 0));
  (0%nat, An (R 0) (R 3));
  (4%nat, Xo (R 4) (R 0));
  (0%nat, Or (R 0) (R 1));
  (0%nat, Xo (R 0) (R 2));
  (3%nat, Xo (R 3) (R 4));
  (2%nat, Xo (R 2) (R 1));
  (3%nat, Xo (R 3) (R 0));
  (3%nat, Xo (R 3) (R 1));
  (2%nat, An (R 2) (R 3));
  (4%nat, Xo (R 4) (R 2));
  (2%nat, R 1);
  (1%nat, R 4)].

(** CEX/Serpent.h:422-446 *)
Definition Sb1_prog : prog := [
  (0%nat, No (R 0));
  (2%nat, No (R 2));
  (4%nat, R 0);
  (0%nat, An (R 0) (R 1));
  (2%nat, Xo (R 2) (R 0));
  (0%nat, Or (R 0) (R 3));
  (3%nat, Xo (R 3) (R 2));
  (1%nat, Xo (R 1) (R 0));
  (0%nat, Xo (R 0) (R 4));
  (4%nat, Or (R 4) (R 1));
  (1%nat, Xo (R 1) (R 3));
  (2%nat, Or (R 2) (R 0));
  (2%nat, An (R 2) (R 4));
  (0%nat, Xo (R 0) (R 1));
  (1%nat, An (R 1) (R 2));
  (1%nat, Xo (R 1) (R 0));
  (0%nat, An (R 0) (R 2));
  (4%nat, Xo (R 4) (R 0));
  (0%nat, R 2);
  (2%nat, R 3);
  (3%nat, R 1);
  (1%nat, R 4)].

(** CEX/Serpent.h:449-475 *)
Definition Ib1_prog : prog := [
  (4%nat, R 1);
  (1%nat, Xo (R 1) (R 3));
  (3%nat, An (R 3) (R 1));
  (4%nat, Xo (R 4) (R 2));
  (3%nat, Xo (R 3) (R 0));
  (0%nat, Or (R 0) (R 1));
  (2%nat, Xo (R 2) (R 3));
  (0%nat, Xo (R 0) (R 4));
  (0%nat, Or (R 0) (R 2));
  (1%nat, Xo (R 1) (R 3));
  (0%nat, Xo (R 0) (R 1));
  (1%nat, Or (R 1) (R 3));
  (1%nat, Xo (R 1) (R 0));
  (4%nat, No (R 4));
  (4%nat, Xo (R 4) (R 1));
  (1%nat, Or (R 1) (R 0));
  (1%nat, Xo (R 1) (R 0));
  (1%nat, Or (R 1) (R 4));
  (3%nat, Xo (R 3) (R 1));
  (1%nat, R 0);
  (0%nat, R 4);
  (4%nat, R 2);
  (2%nat, R 3);
  (3%nat, R 4)].

(** CEX/Serpent.h:478-499 *)
Definition Sb2_prog : prog := [
  (4%nat, R 0);
  (0%nat, An (R 0) (R 2));
  (0%nat, Xo (R 0) (R 3));
  (2%nat, Xo (R 2) (R 1));
  (2%nat, Xo (R 2) (R 0));
  (3%nat, Or (R 3) (R 4));
  (3%nat, Xo (R 3) (R 1));
  (4%nat, Xo (R 4) (R 2));
  (1%nat, R 3);
  (3%nat, Or (R 3) (R 4));
  (3%nat, Xo (R 3) (R 0));
  (0%nat, An (R 0) (R 1));
  (4%nat, Xo (R 4) (R 0));
  (1%nat, Xo (R 1) (R 3));
  (1%nat, Xo (R 1) (R 4));
  (0%nat, R 2);
  (2%nat, R 1);
  (1%nat, R 3);
  (3%nat, No (R 4))].

(** CEX/Serpent.h:502-525 *)
Definition Ib2_prog : prog := [
  (2%nat, Xo (R 2) (R 3));
  (3%nat, Xo (R 3) (R 0));
  (4%nat, R 3);
  (3%nat, An (R 3) (R 2));
  (3%nat, Xo (R 3) (R 1));
  (1%nat, Or (R 1) (R 2));
  (1%nat, Xo (R 1) (R 4));
  (4%nat, An (R 4) (R 3));
  (2%nat, Xo (R 2) (R 3));
  (4%nat, An (R 4) (R 0));
  (4%nat, Xo (R 4) (R 2));
  (2%nat, An (R 2) (R 1));
  (2%nat, Or (R 2) (R 0));
  (3%nat, No (R 3));
  (2%nat, Xo (R 2) (R 3));
  (0%nat, Xo (R 0) (R 3));
  (0%nat, An (R 0) (R 1));
  (3%nat, Xo (R 3) (R 4));
  (3%nat, Xo (R 3) (R 0));
  (0%nat, R 1);
  (1%nat, R 4)].

(** CEX/Serpent.h:528-552 *)
Definition Sb3_prog : prog := [
  (4%nat, R 0);
  (0%nat, Or (R 0) (R 3));
  (3%nat, Xo (R 3) (R 1));
  (1%nat, An (R 1) (R 4));
  (4%nat, Xo (R 4) (R 2));
  (2%nat, Xo (R 2) (R 3));
  (3%nat, An (R 3) (R 0));
  (4%nat, Or (R 4) (R 1));
  (3%nat, Xo (R 3) (R 4));
  (0%nat, Xo (R 0) (R 1));
  (4%nat, An (R 4) (R 0));
  (1%nat, Xo (R 1) (R 3));
  (4%nat, Xo (R 4) (R 2));
  (1%nat, Or (R 1) (R 0));
  (1%nat, Xo (R 1) (R 2));
  (0%nat, Xo (R 0) (R 3));
  (2%nat, R 1);
  (1%nat, Or (R 1) (R 3));
  (0%nat, Xo (R 0) (R 1));
  (1%nat, R 2);
  (2%nat, R 3);
  (3%nat, R 4)].

(** CEX/Serpent.h:555-579 *)
Definition Ib3_prog : prog := [
  (4%nat, R 2);
  (2%nat, Xo (R 2) (R 1));
  (0%nat, Xo (R 0) (R 2));
  (4%nat, An (R 4) (R 2));
  (4%nat, Xo (R 4) (R 0));
  (0%nat, An (R 0) (R 1));
  (1%nat, Xo (R 1) (R 3));
  (3%nat, Or (R 3) (R 4));
  (2%nat, Xo (R 2) (R 3));
  (0%nat, Xo (R 0) (R 3));
  (1%nat, Xo (R 1) (R 4));
  (3%nat, An (R 3) (R 2));
  (3%nat, Xo (R 3) (R 1));
  (1%nat, Xo (R 1) (R 0));
  (1%nat, Or (R 1) (R 2));
  (0%nat, Xo (R 0) (R 3));
  (1%nat, Xo (R 1) (R 4));
  (0%nat, Xo (R 0) (R 1));
  (4%nat, R 0);
  (0%nat, R 2);
  (2%nat, R 3);
  (3%nat, R 4)].

(** CEX/Serpent.h:582-607 *)
Definition Sb4_prog : prog := [
  (1%nat, Xo (R 1) (R 3));
  (3%nat, No (R 3));
  (2%nat, Xo (R 2) (R 3));
  (3%nat, Xo (R 3) (R 0));
  (4%nat, R 1);
  (1%nat, An (R 1) (R 3));
  (1%nat, Xo (R 1) (R 2));
  (4%nat, Xo (R 4) (R 3));
  (0%nat, Xo (R 0) (R 4));
  (2%nat, An (R 2) (R 4));
  (2%nat, Xo (R 2) (R 0));
  (0%nat, An (R 0) (R 1));
  (3%nat, Xo (R 3) (R 0));
  (4%nat, Or (R 4) (R 1));
  (4%nat, Xo (R 4) (R 0));
  (0%nat, Or (R 0) (R 3));
  (0%nat, Xo (R 0) (R 2));
  (2%nat, An (R 2) (R 3));
  (0%nat, No (R 0));
  (4%nat, Xo (R 4) (R 2));
  (2%nat, R 0);
  (0%nat, R 1);
  (1%nat, R 4)].

(** CEX/Serpent.h:610-634 *)
Definition Ib4_prog : prog := [
  (4%nat, R 2);
  (2%nat, An (R 2) (R 3));
  (2%nat, Xo (R 2) (R 1));
  (1%nat, Or (R 1) (R 3));
  (1%nat, An (R 1) (R 0));
  (4%nat, Xo (R 4) (R 2));
  (4%nat, Xo (R 4) (R 1));
  (1%nat, An (R 1) (R 2));
  (0%nat, No (R 0));
  (3%nat, Xo (R 3) (R 4));
  (1%nat, Xo (R 1) (R 3));
  (3%nat, An (R 3) (R 0));
  (3%nat, Xo (R 3) (R 2));
  (0%nat, Xo (R 0) (R 1));
  (2%nat, An (R 2) (R 0));
  (3%nat, Xo (R 3) (R 0));
  (2%nat, Xo (R 2) (R 4));
  (2%nat, Or (R 2) (R 3));
  (3%nat, Xo (R 3) (R 0));
  (2%nat, Xo (R 2) (R 1));
  (1%nat, R 3);
  (3%nat, R 4)].

(** CEX/Serpent.h:637-662 *)
Definition Sb5_prog : prog := [
  (0%nat, Xo (R 0) (R 1));
  (1%nat, Xo (R 1) (R 3));
  (3%nat, No (R 3));
  (4%nat, R 1);
  (1%nat, An (R 1) (R 0));
  (2%nat, Xo (R 2) (R 3));
  (1%nat, Xo (R 1) (R 2));
  (2%nat, Or (R 2) (R 4));
  (4%nat, Xo (R 4) (R 3));
  (3%nat, An (R 3) (R 1));
  (3%nat, Xo (R 3) (R 0));
  (4%nat, Xo (R 4) (R 1));
  (4%nat, Xo (R 4) (R 2));
  (2%nat, Xo (R 2) (R 0));
  (0%nat, An (R 0) (R 3));
  (2%nat, No (R 2));
  (0%nat, Xo (R 0) (R 4));
  (4%nat, Or (R 4) (R 3));
  (4%nat, Xo (R 4) (R 2));
  (2%nat, R 0);
  (0%nat, R 1);
  (1%nat, R 3);
  (3%nat, R 4)].

(** CEX/Serpent.h:665-691 *)
Definition Ib5_prog : prog := [
  (1%nat, No (R 1));
  (4%nat, R 3);
  (2%nat, Xo (R 2) (R 1));
  (3%nat, Or (R 3) (R 0));
  (3%nat, Xo (R 3) (R 2));
  (2%nat, Or (R 2) (R 1));
  (2%nat, An (R 2) (R 0));
  (4%nat, Xo (R 4) (R 3));
  (2%nat, Xo (R 2) (R 4));
  (4%nat, Or (R 4) (R 0));
  (4%nat, Xo (R 4) (R 1));
  (1%nat, An (R 1) (R 2));
  (1%nat, Xo (R 1) (R 3));
  (4%nat, Xo (R 4) (R 2));
  (3%nat, An (R 3) (R 4));
  (4%nat, Xo (R 4) (R 1));
  (3%nat, Xo (R 3) (R 4));
  (4%nat, No (R 4));
  (3%nat, Xo (R 3) (R 0));
  (0%nat, R 1);
  (1%nat, R 4);
  (4%nat, R 3);
  (3%nat, R 2);
  (2%nat, R 4)].

(** CEX/Serpent.h:694-715 *)
Definition Sb6_prog : prog := [
  (2%nat, No (R 2));
  (4%nat, R 3);
  (3%nat, An (R 3) (R 0));
  (0%nat, Xo (R 0) (R 4));
  (3%nat, Xo (R 3) (R 2));
  (2%nat, Or (R 2) (R 4));
  (1%nat, Xo (R 1) (R 3));
  (2%nat, Xo (R 2) (R 0));
  (0%nat, Or (R 0) (R 1));
  (2%nat, Xo (R 2) (R 1));
  (4%nat, Xo (R 4) (R 0));
  (0%nat, Or (R 0) (R 3));
  (0%nat, Xo (R 0) (R 2));
  (4%nat, Xo (R 4) (R 3));
  (4%nat, Xo (R 4) (R 0));
  (3%nat, No (R 3));
  (2%nat, An (R 2) (R 4));
  (3%nat, Xo (R 3) (R 2));
  (2%nat, R 4)].

(** CEX/Serpent.h:718-740 *)
Definition Ib6_prog : prog := [
  (0%nat, Xo (R 0) (R 2));
  (4%nat, R 2);
  (2%nat, An (R 2) (R 0));
  (4%nat, Xo (R 4) (R 3));
  (2%nat, No (R 2));
  (3%nat, Xo (R 3) (R 1));
  (2%nat, Xo (R 2) (R 3));
  (4%nat, Or (R 4) (R 0));
  (0%nat, Xo (R 0) (R 2));
  (3%nat, Xo (R 3) (R 4));
  (4%nat, Xo (R 4) (R 1));
  (1%nat, An (R 1) (R 3));
  (1%nat, Xo (R 1) (R 0));
  (0%nat, Xo (R 0) (R 3));
  (0%nat, Or (R 0) (R 2));
  (3%nat, Xo (R 3) (R 1));
  (4%nat, Xo (R 4) (R 0));
  (0%nat, R 1);
  (1%nat, R 2);
  (2%nat, R 4)].

(** CEX/Serpent.h:743-769 *)
Definition Sb7_prog : prog := [
  (4%nat, R 1);
  (1%nat, Or (R 1) (R 2));
  (1%nat, Xo (R 1) (R 3));
  (4%nat, Xo (R 4) (R 2));
  (2%nat, Xo (R 2) (R 1));
  (3%nat, Or (R 3) (R 4));
  (3%nat, An (R 3) (R 0));
  (4%nat, Xo (R 4) (R 2));
  (3%nat, Xo (R 3) (R 1));
  (1%nat, Or (R 1) (R 4));
  (1%nat, Xo (R 1) (R 0));
  (0%nat, Or (R 0) (R 4));
  (0%nat, Xo (R 0) (R 2));
  (1%nat, Xo (R 1) (R 4));
  (2%nat, Xo (R 2) (R 1));
  (1%nat, An (R 1) (R 0));
  (1%nat, Xo (R 1) (R 4));
  (2%nat, No (R 2));
  (2%nat, Or (R 2) (R 0));
  (4%nat, Xo (R 4) (R 2));
  (2%nat, R 1);
  (1%nat, R 3);
  (3%nat, R 0);
  (0%nat, R 4)].

(** CEX/Serpent.h:772-797 *)
Definition Ib7_prog : prog := [
  (4%nat, R 2);
  (2%nat, Xo (R 2) (R 0));
  (0%nat, An (R 0) (R 3));
  (4%nat, Or (R 4) (R 3));
  (2%nat, No (R 2));
  (3%nat, Xo (R 3) (R 1));
  (1%nat, Or (R 1) (R 0));
  (0%nat, Xo (R 0) (R 2));
  (2%nat, An (R 2) (R 4));
  (3%nat, An (R 3) (R 4));
  (1%nat, Xo (R 1) (R 2));
  (2%nat, Xo (R 2) (R 0));
  (0%nat, Or (R 0) (R 2));
  (4%nat, Xo (R 4) (R 1));
  (0%nat, Xo (R 0) (R 3));
  (3%nat, Xo (R 3) (R 4));
  (4%nat, Or (R 4) (R 0));
  (3%nat, Xo (R 3) (R 2));
  (4%nat, Xo (R 4) (R 2));
  (2%nat, R 1);
  (1%nat, R 0);
  (0%nat, R 3);
  (3%nat, R 4)].
