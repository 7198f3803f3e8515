(** The ChaCha permutations as statement lists (see Model_Straight.v).
    GENERATED by tools/gen_chacha.py from CEX/ChaCha.h; do not edit.
    Registers: 0-15 the working words X, 16-29 State, 30-31 Counter.  An entry (e, n) of a
    store list is the statement LeNToBytes(e, Output, OutOffset + n). *)
From Verif Require Import Base Model_Straight.
Open Scope Z_scope.

(** CEX/ChaCha.h:298-981 PermuteR20P512U: the statements before the stores *)
Definition chacha_U : prog := [
  (0%nat, R 16);
  (1%nat, R 17);
  (2%nat, R 18);
  (3%nat, R 19);
  (4%nat, R 20);
  (5%nat, R 21);
  (6%nat, R 22);
  (7%nat, R 23);
  (8%nat, R 24);
  (9%nat, R 25);
  (10%nat, R 26);
  (11%nat, R 27);
  (12%nat, R 30);
  (13%nat, R 31);
  (14%nat, R 28);
  (15%nat, R 29);
  (0%nat, Ad (R 0) (R 4));
  (12%nat, RLo (Xo (R 12) (R 0)) 16);
  (8%nat, Ad (R 8) (R 12));
  (4%nat, RLo (Xo (R 4) (R 8)) 12);
  (0%nat, Ad (R 0) (R 4));
  (12%nat, RLo (Xo (R 12) (R 0)) 8);
  (8%nat, Ad (R 8) (R 12));
  (4%nat, RLo (Xo (R 4) (R 8)) 7);
  (1%nat, Ad (R 1) (R 5));
  (13%nat, RLo (Xo (R 13) (R 1)) 16);
  (9%nat, Ad (R 9) (R 13));
  (5%nat, RLo (Xo (R 5) (R 9)) 12);
  (1%nat, Ad (R 1) (R 5));
  (13%nat, RLo (Xo (R 13) (R 1)) 8);
  (9%nat, Ad (R 9) (R 13));
  (5%nat, RLo (Xo (R 5) (R 9)) 7);
  (2%nat, Ad (R 2) (R 6));
  (14%nat, RLo (Xo (R 14) (R 2)) 16);
  (10%nat, Ad (R 10) (R 14));
  (6%nat, RLo (Xo (R 6) (R 10)) 12);
  (2%nat, Ad (R 2) (R 6));
  (14%nat, RLo (Xo (R 14) (R 2)) 8);
  (10%nat, Ad (R 10) (R 14));
  (6%nat, RLo (Xo (R 6) (R 10)) 7);
  (3%nat, Ad (R 3) (R 7));
  (15%nat, RLo (Xo (R 15) (R 3)) 16);
  (11%nat, Ad (R 11) (R 15));
  (7%nat, RLo (Xo (R 7) (R 11)) 12);
  (3%nat, Ad (R 3) (R 7));
  (15%nat, RLo (Xo (R 15) (R 3)) 8);
  (11%nat, Ad (R 11) (R 15));
  (7%nat, RLo (Xo (R 7) (R 11)) 7);
  (0%nat, Ad (R 0) (R 5));
  (15%nat, RLo (Xo (R 15) (R 0)) 16);
  (10%nat, Ad (R 10) (R 15));
  (5%nat, RLo (Xo (R 5) (R 10)) 12);
  (0%nat, Ad (R 0) (R 5));
  (15%nat, RLo (Xo (R 15) (R 0)) 8);
  (10%nat, Ad (R 10) (R 15));
  (5%nat, RLo (Xo (R 5) (R 10)) 7);
  (1%nat, Ad (R 1) (R 6));
  (12%nat, RLo (Xo (R 12) (R 1)) 16);
  (11%nat, Ad (R 11) (R 12));
  (6%nat, RLo (Xo (R 6) (R 11)) 12);
  (1%nat, Ad (R 1) (R 6));
  (12%nat, RLo (Xo (R 12) (R 1)) 8);
  (11%nat, Ad (R 11) (R 12));
  (6%nat, RLo (Xo (R 6) (R 11)) 7);
  (2%nat, Ad (R 2) (R 7));
  (13%nat, RLo (Xo (R 13) (R 2)) 16);
  (8%nat, Ad (R 8) (R 13));
  (7%nat, RLo (Xo (R 7) (R 8)) 12);
  (2%nat, Ad (R 2) (R 7));
  (13%nat, RLo (Xo (R 13) (R 2)) 8);
  (8%nat, Ad (R 8) (R 13));
  (7%nat, RLo (Xo (R 7) (R 8)) 7);
  (3%nat, Ad (R 3) (R 4));
  (14%nat, RLo (Xo (R 14) (R 3)) 16);
  (9%nat, Ad (R 9) (R 14));
  (4%nat, RLo (Xo (R 4) (R 9)) 12);
  (3%nat, Ad (R 3) (R 4));
  (14%nat, RLo (Xo (R 14) (R 3)) 8);
  (9%nat, Ad (R 9) (R 14));
  (4%nat, RLo (Xo (R 4) (R 9)) 7);
  (0%nat, Ad (R 0) (R 4));
  (12%nat, RLo (Xo (R 12) (R 0)) 16);
  (8%nat, Ad (R 8) (R 12));
  (4%nat, RLo (Xo (R 4) (R 8)) 12);
  (0%nat, Ad (R 0) (R 4));
  (12%nat, RLo (Xo (R 12) (R 0)) 8);
  (8%nat, Ad (R 8) (R 12));
  (4%nat, RLo (Xo (R 4) (R 8)) 7);
  (1%nat, Ad (R 1) (R 5));
  (13%nat, RLo (Xo (R 13) (R 1)) 16);
  (9%nat, Ad (R 9) (R 13));
  (5%nat, RLo (Xo (R 5) (R 9)) 12);
  (1%nat, Ad (R 1) (R 5));
  (13%nat, RLo (Xo (R 13) (R 1)) 8);
  (9%nat, Ad (R 9) (R 13));
  (5%nat, RLo (Xo (R 5) (R 9)) 7);
  (2%nat, Ad (R 2) (R 6));
  (14%nat, RLo (Xo (R 14) (R 2)) 16);
  (10%nat, Ad (R 10) (R 14));
  (6%nat, RLo (Xo (R 6) (R 10)) 12);
  (2%nat, Ad (R 2) (R 6));
  (14%nat, RLo (Xo (R 14) (R 2)) 8);
  (10%nat, Ad (R 10) (R 14));
  (6%nat, RLo (Xo (R 6) (R 10)) 7);
  (3%nat, Ad (R 3) (R 7));
  (15%nat, RLo (Xo (R 15) (R 3)) 16);
  (11%nat, Ad (R 11) (R 15));
  (7%nat, RLo (Xo (R 7) (R 11)) 12);
  (3%nat, Ad (R 3) (R 7));
  (15%nat, RLo (Xo (R 15) (R 3)) 8);
  (11%nat, Ad (R 11) (R 15));
  (7%nat, RLo (Xo (R 7) (R 11)) 7);
  (0%nat, Ad (R 0) (R 5));
  (15%nat, RLo (Xo (R 15) (R 0)) 16);
  (10%nat, Ad (R 10) (R 15));
  (5%nat, RLo (Xo (R 5) (R 10)) 12);
  (0%nat, Ad (R 0) (R 5));
  (15%nat, RLo (Xo (R 15) (R 0)) 8);
  (10%nat, Ad (R 10) (R 15));
  (5%nat, RLo (Xo (R 5) (R 10)) 7);
  (1%nat, Ad (R 1) (R 6));
  (12%nat, RLo (Xo (R 12) (R 1)) 16);
  (11%nat, Ad (R 11) (R 12));
  (6%nat, RLo (Xo (R 6) (R 11)) 12);
  (1%nat, Ad (R 1) (R 6));
  (12%nat, RLo (Xo (R 12) (R 1)) 8);
  (11%nat, Ad (R 11) (R 12));
  (6%nat, RLo (Xo (R 6) (R 11)) 7);
  (2%nat, Ad (R 2) (R 7));
  (13%nat, RLo (Xo (R 13) (R 2)) 16);
  (8%nat, Ad (R 8) (R 13));
  (7%nat, RLo (Xo (R 7) (R 8)) 12);
  (2%nat, Ad (R 2) (R 7));
  (13%nat, RLo (Xo (R 13) (R 2)) 8);
  (8%nat, Ad (R 8) (R 13));
  (7%nat, RLo (Xo (R 7) (R 8)) 7);
  (3%nat, Ad (R 3) (R 4));
  (14%nat, RLo (Xo (R 14) (R 3)) 16);
  (9%nat, Ad (R 9) (R 14));
  (4%nat, RLo (Xo (R 4) (R 9)) 12);
  (3%nat, Ad (R 3) (R 4));
  (14%nat, RLo (Xo (R 14) (R 3)) 8);
  (9%nat, Ad (R 9) (R 14));
  (4%nat, RLo (Xo (R 4) (R 9)) 7);
  (0%nat, Ad (R 0) (R 4));
  (12%nat, RLo (Xo (R 12) (R 0)) 16);
  (8%nat, Ad (R 8) (R 12));
  (4%nat, RLo (Xo (R 4) (R 8)) 12);
  (0%nat, Ad (R 0) (R 4));
  (12%nat, RLo (Xo (R 12) (R 0)) 8);
  (8%nat, Ad (R 8) (R 12));
  (4%nat, RLo (Xo (R 4) (R 8)) 7);
  (1%nat, Ad (R 1) (R 5));
  (13%nat, RLo (Xo (R 13) (R 1)) 16);
  (9%nat, Ad (R 9) (R 13));
  (5%nat, RLo (Xo (R 5) (R 9)) 12);
  (1%nat, Ad (R 1) (R 5));
  (13%nat, RLo (Xo (R 13) (R 1)) 8);
  (9%nat, Ad (R 9) (R 13));
  (5%nat, RLo (Xo (R 5) (R 9)) 7);
  (2%nat, Ad (R 2) (R 6));
  (14%nat, RLo (Xo (R 14) (R 2)) 16);
  (10%nat, Ad (R 10) (R 14));
  (6%nat, RLo (Xo (R 6) (R 10)) 12);
  (2%nat, Ad (R 2) (R 6));
  (14%nat, RLo (Xo (R 14) (R 2)) 8);
  (10%nat, Ad (R 10) (R 14));
  (6%nat, RLo (Xo (R 6) (R 10)) 7);
  (3%nat, Ad (R 3) (R 7));
  (15%nat, RLo (Xo (R 15) (R 3)) 16);
  (11%nat, Ad (R 11) (R 15));
  (7%nat, RLo (Xo (R 7) (R 11)) 12);
  (3%nat, Ad (R 3) (R 7));
  (15%nat, RLo (Xo (R 15) (R 3)) 8);
  (11%nat, Ad (R 11) (R 15));
  (7%nat, RLo (Xo (R 7) (R 11)) 7);
  (0%nat, Ad (R 0) (R 5));
  (15%nat, RLo (Xo (R 15) (R 0)) 16);
  (10%nat, Ad (R 10) (R 15));
  (5%nat, RLo (Xo (R 5) (R 10)) 12);
  (0%nat, Ad (R 0) (R 5));
  (15%nat, RLo (Xo (R 15) (R 0)) 8);
  (10%nat, Ad (R 10) (R 15));
  (5%nat, RLo (Xo (R 5) (R 10)) 7);
  (1%nat, Ad (R 1) (R 6));
  (12%nat, RLo (Xo (R 12) (R 1)) 16);
  (11%nat, Ad (R 11) (R 12));
  (6%nat, RLo (Xo (R 6) (R 11)) 12);
  (1%nat, Ad (R 1) (R 6));
  (12%nat, RLo (Xo (R 12) (R 1)) 8);
  (11%nat, Ad (R 11) (R 12));
  (6%nat, RLo (Xo (R 6) (R 11)) 7);
  (2%nat, Ad (R 2) (R 7));
  (13%nat, RLo (Xo (R 13) (R 2)) 16);
  (8%nat, Ad (R 8) (R 13));
  (7%nat, RLo (Xo (R 7) (R 8)) 12);
  (2%nat, Ad (R 2) (R 7));
  (13%nat, RLo (Xo (R 13) (R 2)) 8);
  (8%nat, Ad (R 8) (R 13));
  (7%nat, RLo (Xo (R 7) (R 8)) 7);
  (3%nat, Ad (R 3) (R 4));
  (14%nat, RLo (Xo (R 14) (R 3)) 16);
  (9%nat, Ad (R 9) (R 14));
  (4%nat, RLo (Xo (R 4) (R 9)) 12);
  (3%nat, Ad (R 3) (R 4));
  (14%nat, RLo (Xo (R 14) (R 3)) 8);
  (9%nat, Ad (R 9) (R 14));
  (4%nat, RLo (Xo (R 4) (R 9)) 7);
  (0%nat, Ad (R 0) (R 4));
  (12%nat, RLo (Xo (R 12) (R 0)) 16);
  (8%nat, Ad (R 8) (R 12));
  (4%nat, RLo (Xo (R 4) (R 8)) 12);
  (0%nat, Ad (R 0) (R 4));
  (12%nat, RLo (Xo (R 12) (R 0)) 8);
  (8%nat, Ad (R 8) (R 12));
  (4%nat, RLo (Xo (R 4) (R 8)) 7);
  (1%nat, Ad (R 1) (R 5));
  (13%nat, RLo (Xo (R 13) (R 1)) 16);
  (9%nat, Ad (R 9) (R 13));
  (5%nat, RLo (Xo (R 5) (R 9)) 12);
  (1%nat, Ad (R 1) (R 5));
  (13%nat, RLo (Xo (R 13) (R 1)) 8);
  (9%nat, Ad (R 9) (R 13));
  (5%nat, RLo (Xo (R 5) (R 9)) 7);
  (2%nat, Ad (R 2) (R 6));
  (14%nat, RLo (Xo (R 14) (R 2)) 16);
  (10%nat, Ad (R 10) (R 14));
  (6%nat, RLo (Xo (R 6) (R 10)) 12);
  (2%nat, Ad (R 2) (R 6));
  (14%nat, RLo (Xo (R 14) (R 2)) 8);
  (10%nat, Ad (R 10) (R 14));
  (6%nat, RLo (Xo (R 6) (R 10)) 7);
  (3%nat, Ad (R 3) (R 7));
  (15%nat, RLo (Xo (R 15) (R 3)) 16);
  (11%nat, Ad (R 11) (R 15));
  (7%nat, RLo (Xo (R 7) (R 11)) 12);
  (3%nat, Ad (R 3) (R 7));
  (15%nat, RLo (Xo (R 15) (R 3)) 8);
  (11%nat, Ad (R 11) (R 15));
  (7%nat, RLo (Xo (R 7) (R 11)) 7);
  (0%nat, Ad (R 0) (R 5));
  (15%nat, RLo (Xo (R 15) (R 0)) 16);
  (10%nat, Ad (R 10) (R 15));
  (5%nat, RLo (Xo (R 5) (R 10)) 12);
  (0%nat, Ad (R 0) (R 5));
  (15%nat, RLo (Xo (R 15) (R 0)) 8);
  (10%nat, Ad (R 10) (R 15));
  (5%nat, RLo (Xo (R 5) (R 10)) 7);
  (1%nat, Ad (R 1) (R 6));
  (12%nat, RLo (Xo (R 12) (R 1)) 16);
  (11%nat, Ad (R 11) (R 12));
  (6%nat, RLo (Xo (R 6) (R 11)) 12);
  (1%nat, Ad (R 1) (R 6));
  (12%nat, RLo (Xo (R 12) (R 1)) 8);
  (11%nat, Ad (R 11) (R 12));
  (6%nat, RLo (Xo (R 6) (R 11)) 7);
  (2%nat, Ad (R 2) (R 7));
  (13%nat, RLo (Xo (R 13) (R 2)) 16);
  (8%nat, Ad (R 8) (R 13));
  (7%nat, RLo (Xo (R 7) (R 8)) 12);
  (2%nat, Ad (R 2) (R 7));
  (13%nat, RLo (Xo (R 13) (R 2)) 8);
  (8%nat, Ad (R 8) (R 13));
  (7%nat, RLo (Xo (R 7) (R 8)) 7);
  (3%nat, Ad (R 3) (R 4));
  (14%nat, RLo (Xo (R 14) (R 3)) 16);
  (9%nat, Ad (R 9) (R 14));
  (4%nat, RLo (Xo (R 4) (R 9)) 12);
  (3%nat, Ad (R 3) (R 4));
  (14%nat, RLo (Xo (R 14) (R 3)) 8);
  (9%nat, Ad (R 9) (R 14));
  (4%nat, RLo (Xo (R 4) (R 9)) 7);
  (0%nat, Ad (R 0) (R 4));
  (12%nat, RLo (Xo (R 12) (R 0)) 16);
  (8%nat, Ad (R 8) (R 12));
  (4%nat, RLo (Xo (R 4) (R 8)) 12);
  (0%nat, Ad (R 0) (R 4));
  (12%nat, RLo (Xo (R 12) (R 0)) 8);
  (8%nat, Ad (R 8) (R 12));
  (4%nat, RLo (Xo (R 4) (R 8)) 7);
  (1%nat, Ad (R 1) (R 5));
  (13%nat, RLo (Xo (R 13) (R 1)) 16);
  (9%nat, Ad (R 9) (R 13));
  (5%nat, RLo (Xo (R 5) (R 9)) 12);
  (1%nat, Ad (R 1) (R 5));
  (13%nat, RLo (Xo (R 13) (R 1)) 8);
  (9%nat, Ad (R 9) (R 13));
  (5%nat, RLo (Xo (R 5) (R 9)) 7);
  (2%nat, Ad (R 2) (R 6));
  (14%nat, RLo (Xo (R 14) (R 2)) 16);
  (10%nat, Ad (R 10) (R 14));
  (6%nat, RLo (Xo (R 6) (R 10)) 12);
  (2%nat, Ad (R 2) (R 6));
  (14%nat, RLo (Xo (R 14) (R 2)) 8);
  (10%nat, Ad (R 10) (R 14));
  (6%nat, RLo (Xo (R 6) (R 10)) 7);
  (3%nat, Ad (R 3) (R 7));
  (15%nat, RLo (Xo (R 15) (R 3)) 16);
  (11%nat, Ad (R 11) (R 15));
  (7%nat, RLo (Xo (R 7) (R 11)) 12);
  (3%nat, Ad (R 3) (R 7));
  (15%nat, RLo (Xo (R 15) (R 3)) 8);
  (11%nat, Ad (R 11) (R 15));
  (7%nat, RLo (Xo (R 7) (R 11)) 7);
  (0%nat, Ad (R 0) (R 5));
  (15%nat, RLo (Xo (R 15) (R 0)) 16);
  (10%nat, Ad (R 10) (R 15));
  (5%nat, RLo (Xo (R 5) (R 10)) 12);
  (0%nat, Ad (R 0) (R 5));
  (15%nat, RLo (Xo (R 15) (R 0)) 8);
  (10%nat, Ad (R 10) (R 15));
  (5%nat, RLo (Xo (R 5) (R 10)) 7);
  (1%nat, Ad (R 1) (R 6));
  (12%nat, RLo (Xo (R 12) (R 1)) 16);
  (11%nat, Ad (R 11) (R 12));
  (6%nat, RLo (Xo (R 6) (R 11)) 12);
  (1%nat, Ad (R 1) (R 6));
  (12%nat, RLo (Xo (R 12) (R 1)) 8);
  (11%nat, Ad (R 11) (R 12));
  (6%nat, RLo (Xo (R 6) (R 11)) 7);
  (2%nat, Ad (R 2) (R 7));
  (13%nat, RLo (Xo (R 13) (R 2)) 16);
  (8%nat, Ad (R 8) (R 13));
  (7%nat, RLo (Xo (R 7) (R 8)) 12);
  (2%nat, Ad (R 2) (R 7));
  (13%nat, RLo (Xo (R 13) (R 2)) 8);
  (8%nat, Ad (R 8) (R 13));
  (7%nat, RLo (Xo (R 7) (R 8)) 7);
  (3%nat, Ad (R 3) (R 4));
  (14%nat, RLo (Xo (R 14) (R 3)) 16);
  (9%nat, Ad (R 9) (R 14));
  (4%nat, RLo (Xo (R 4) (R 9)) 12);
  (3%nat, Ad (R 3) (R 4));
  (14%nat, RLo (Xo (R 14) (R 3)) 8);
  (9%nat, Ad (R 9) (R 14));
  (4%nat, RLo (Xo (R 4) (R 9)) 7);
  (0%nat, Ad (R 0) (R 4));
  (12%nat, RLo (Xo (R 12) (R 0)) 16);
  (8%nat, Ad (R 8) (R 12));
  (4%nat, RLo (Xo (R 4) (R 8)) 12);
  (0%nat, Ad (R 0) (R 4));
  (12%nat, RLo (Xo (R 12) (R 0)) 8);
  (8%nat, Ad (R 8) (R 12));
  (4%nat, RLo (Xo (R 4) (R 8)) 7);
  (1%nat, Ad (R 1) (R 5));
  (13%nat, RLo (Xo (R 13) (R 1)) 16);
  (9%nat, Ad (R 9) (R 13));
  (5%nat, RLo (Xo (R 5) (R 9)) 12);
  (1%nat, Ad (R 1) (R 5));
  (13%nat, RLo (Xo (R 13) (R 1)) 8);
  (9%nat, Ad (R 9) (R 13));
  (5%nat, RLo (Xo (R 5) (R 9)) 7);
  (2%nat, Ad (R 2) (R 6));
  (14%nat, RLo (Xo (R 14) (R 2)) 16);
  (10%nat, Ad (R 10) (R 14));
  (6%nat, RLo (Xo (R 6) (R 10)) 12);
  (2%nat, Ad (R 2) (R 6));
  (14%nat, RLo (Xo (R 14) (R 2)) 8);
  (10%nat, Ad (R 10) (R 14));
  (6%nat, RLo (Xo (R 6) (R 10)) 7);
  (3%nat, Ad (R 3) (R 7));
  (15%nat, RLo (Xo (R 15) (R 3)) 16);
  (11%nat, Ad (R 11) (R 15));
  (7%nat, RLo (Xo (R 7) (R 11)) 12);
  (3%nat, Ad (R 3) (R 7));
  (15%nat, RLo (Xo (R 15) (R 3)) 8);
  (11%nat, Ad (R 11) (R 15));
  (7%nat, RLo (Xo (R 7) (R 11)) 7);
  (0%nat, Ad (R 0) (R 5));
  (15%nat, RLo (Xo (R 15) (R 0)) 16);
  (10%nat, Ad (R 10) (R 15));
  (5%nat, RLo (Xo (R 5) (R 10)) 12);
  (0%nat, Ad (R 0) (R 5));
  (15%nat, RLo (Xo (R 15) (R 0)) 8);
  (10%nat, Ad (R 10) (R 15));
  (5%nat, RLo (Xo (R 5) (R 10)) 7);
  (1%nat, Ad (R 1) (R 6));
  (12%nat, RLo (Xo (R 12) (R 1)) 16);
  (11%nat, Ad (R 11) (R 12));
  (6%nat, RLo (Xo (R 6) (R 11)) 12);
  (1%nat, Ad (R 1) (R 6));
  (12%nat, RLo (Xo (R 12) (R 1)) 8);
  (11%nat, Ad (R 11) (R 12));
  (6%nat, RLo (Xo (R 6) (R 11)) 7);
  (2%nat, Ad (R 2) (R 7));
  (13%nat, RLo (Xo (R 13) (R 2)) 16);
  (8%nat, Ad (R 8) (R 13));
  (7%nat, RLo (Xo (R 7) (R 8)) 12);
  (2%nat, Ad (R 2) (R 7));
  (13%nat, RLo (Xo (R 13) (R 2)) 8);
  (8%nat, Ad (R 8) (R 13));
  (7%nat, RLo (Xo (R 7) (R 8)) 7);
  (3%nat, Ad (R 3) (R 4));
  (14%nat, RLo (Xo (R 14) (R 3)) 16);
  (9%nat, Ad (R 9) (R 14));
  (4%nat, RLo (Xo (R 4) (R 9)) 12);
  (3%nat, Ad (R 3) (R 4));
  (14%nat, RLo (Xo (R 14) (R 3)) 8);
  (9%nat, Ad (R 9) (R 14));
  (4%nat, RLo (Xo (R 4) (R 9)) 7);
  (0%nat, Ad (R 0) (R 4));
  (12%nat, RLo (Xo (R 12) (R 0)) 16);
  (8%nat, Ad (R 8) (R 12));
  (4%nat, RLo (Xo (R 4) (R 8)) 12);
  (0%nat, Ad (R 0) (R 4));
  (12%nat, RLo (Xo (R 12) (R 0)) 8);
  (8%nat, Ad (R 8) (R 12));
  (4%nat, RLo (Xo (R 4) (R 8)) 7);
  (1%nat, Ad (R 1) (R 5));
  (13%nat, RLo (Xo (R 13) (R 1)) 16);
  (9%nat, Ad (R 9) (R 13));
  (5%nat, RLo (Xo (R 5) (R 9)) 12);
  (1%nat, Ad (R 1) (R 5));
  (13%nat, RLo (Xo (R 13) (R 1)) 8);
  (9%nat, Ad (R 9) (R 13));
  (5%nat, RLo (Xo (R 5) (R 9)) 7);
  (2%nat, Ad (R 2) (R 6));
  (14%nat, RLo (Xo (R 14) (R 2)) 16);
  (10%nat, Ad (R 10) (R 14));
  (6%nat, RLo (Xo (R 6) (R 10)) 12);
  (2%nat, Ad (R 2) (R 6));
  (14%nat, RLo (Xo (R 14) (R 2)) 8);
  (10%nat, Ad (R 10) (R 14));
  (6%nat, RLo (Xo (R 6) (R 10)) 7);
  (3%nat, Ad (R 3) (R 7));
  (15%nat, RLo (Xo (R 15) (R 3)) 16);
  (11%nat, Ad (R 11) (R 15));
  (7%nat, RLo (Xo (R 7) (R 11)) 12);
  (3%nat, Ad (R 3) (R 7));
  (15%nat, RLo (Xo (R 15) (R 3)) 8);
  (11%nat, Ad (R 11) (R 15));
  (7%nat, RLo (Xo (R 7) (R 11)) 7);
  (0%nat, Ad (R 0) (R 5));
  (15%nat, RLo (Xo (R 15) (R 0)) 16);
  (10%nat, Ad (R 10) (R 15));
  (5%nat, RLo (Xo (R 5) (R 10)) 12);
  (0%nat, Ad (R 0) (R 5));
  (15%nat, RLo (Xo (R 15) (R 0)) 8);
  (10%nat, Ad (R 10) (R 15));
  (5%nat, RLo (Xo (R 5) (R 10)) 7);
  (1%nat, Ad (R 1) (R 6));
  (12%nat, RLo (Xo (R 12) (R 1)) 16);
  (11%nat, Ad (R 11) (R 12));
  (6%nat, RLo (Xo (R 6) (R 11)) 12);
  (1%nat, Ad (R 1) (R 6));
  (12%nat, RLo (Xo (R 12) (R 1)) 8);
  (11%nat, Ad (R 11) (R 12));
  (6%nat, RLo (Xo (R 6) (R 11)) 7);
  (2%nat, Ad (R 2) (R 7));
  (13%nat, RLo (Xo (R 13) (R 2)) 16);
  (8%nat, Ad (R 8) (R 13));
  (7%nat, RLo (Xo (R 7) (R 8)) 12);
  (2%nat, Ad (R 2) (R 7));
  (13%nat, RLo (Xo (R 13) (R 2)) 8);
  (8%nat, Ad (R 8) (R 13));
  (7%nat, RLo (Xo (R 7) (R 8)) 7);
  (3%nat, Ad (R 3) (R 4));
  (14%nat, RLo (Xo (R 14) (R 3)) 16);
  (9%nat, Ad (R 9) (R 14));
  (4%nat, RLo (Xo (R 4) (R 9)) 12);
  (3%nat, Ad (R 3) (R 4));
  (14%nat, RLo (Xo (R 14) (R 3)) 8);
  (9%nat, Ad (R 9) (R 14));
  (4%nat, RLo (Xo (R 4) (R 9)) 7);
  (0%nat, Ad (R 0) (R 4));
  (12%nat, RLo (Xo (R 12) (R 0)) 16);
  (8%nat, Ad (R 8) (R 12));
  (4%nat, RLo (Xo (R 4) (R 8)) 12);
  (0%nat, Ad (R 0) (R 4));
  (12%nat, RLo (Xo (R 12) (R 0)) 8);
  (8%nat, Ad (R 8) (R 12));
  (4%nat, RLo (Xo (R 4) (R 8)) 7);
  (1%nat, Ad (R 1) (R 5));
  (13%nat, RLo (Xo (R 13) (R 1)) 16);
  (9%nat, Ad (R 9) (R 13));
  (5%nat, RLo (Xo (R 5) (R 9)) 12);
  (1%nat, Ad (R 1) (R 5));
  (13%nat, RLo (Xo (R 13) (R 1)) 8);
  (9%nat, Ad (R 9) (R 13));
  (5%nat, RLo (Xo (R 5) (R 9)) 7);
  (2%nat, Ad (R 2) (R 6));
  (14%nat, RLo (Xo (R 14) (R 2)) 16);
  (10%nat, Ad (R 10) (R 14));
  (6%nat, RLo (Xo (R 6) (R 10)) 12);
  (2%nat, Ad (R 2) (R 6));
  (14%nat, RLo (Xo (R 14) (R 2)) 8);
  (10%nat, Ad (R 10) (R 14));
  (6%nat, RLo (Xo (R 6) (R 10)) 7);
  (3%nat, Ad (R 3) (R 7));
  (15%nat, RLo (Xo (R 15) (R 3)) 16);
  (11%nat, Ad (R 11) (R 15));
  (7%nat, RLo (Xo (R 7) (R 11)) 12);
  (3%nat, Ad (R 3) (R 7));
  (15%nat, RLo (Xo (R 15) (R 3)) 8);
  (11%nat, Ad (R 11) (R 15));
  (7%nat, RLo (Xo (R 7) (R 11)) 7);
  (0%nat, Ad (R 0) (R 5));
  (15%nat, RLo (Xo (R 15) (R 0)) 16);
  (10%nat, Ad (R 10) (R 15));
  (5%nat, RLo (Xo (R 5) (R 10)) 12);
  (0%nat, Ad (R 0) (R 5));
  (15%nat, RLo (Xo (R 15) (R 0)) 8);
  (10%nat, Ad (R 10) (R 15));
  (5%nat, RLo (Xo (R 5) (R 10)) 7);
  (1%nat, Ad (R 1) (R 6));
  (12%nat, RLo (Xo (R 12) (R 1)) 16);
  (11%nat, Ad (R 11) (R 12));
  (6%nat, RLo (Xo (R 6) (R 11)) 12);
  (1%nat, Ad (R 1) (R 6));
  (12%nat, RLo (Xo (R 12) (R 1)) 8);
  (11%nat, Ad (R 11) (R 12));
  (6%nat, RLo (Xo (R 6) (R 11)) 7);
  (2%nat, Ad (R 2) (R 7));
  (13%nat, RLo (Xo (R 13) (R 2)) 16);
  (8%nat, Ad (R 8) (R 13));
  (7%nat, RLo (Xo (R 7) (R 8)) 12);
  (2%nat, Ad (R 2) (R 7));
  (13%nat, RLo (Xo (R 13) (R 2)) 8);
  (8%nat, Ad (R 8) (R 13));
  (7%nat, RLo (Xo (R 7) (R 8)) 7);
  (3%nat, Ad (R 3) (R 4));
  (14%nat, RLo (Xo (R 14) (R 3)) 16);
  (9%nat, Ad (R 9) (R 14));
  (4%nat, RLo (Xo (R 4) (R 9)) 12);
  (3%nat, Ad (R 3) (R 4));
  (14%nat, RLo (Xo (R 14) (R 3)) 8);
  (9%nat, Ad (R 9) (R 14));
  (4%nat, RLo (Xo (R 4) (R 9)) 7);
  (0%nat, Ad (R 0) (R 4));
  (12%nat, RLo (Xo (R 12) (R 0)) 16);
  (8%nat, Ad (R 8) (R 12));
  (4%nat, RLo (Xo (R 4) (R 8)) 12);
  (0%nat, Ad (R 0) (R 4));
  (12%nat, RLo (Xo (R 12) (R 0)) 8);
  (8%nat, Ad (R 8) (R 12));
  (4%nat, RLo (Xo (R 4) (R 8)) 7);
  (1%nat, Ad (R 1) (R 5));
  (13%nat, RLo (Xo (R 13) (R 1)) 16);
  (9%nat, Ad (R 9) (R 13));
  (5%nat, RLo (Xo (R 5) (R 9)) 12);
  (1%nat, Ad (R 1) (R 5));
  (13%nat, RLo (Xo (R 13) (R 1)) 8);
  (9%nat, Ad (R 9) (R 13));
  (5%nat, RLo (Xo (R 5) (R 9)) 7);
  (2%nat, Ad (R 2) (R 6));
  (14%nat, RLo (Xo (R 14) (R 2)) 16);
  (10%nat, Ad (R 10) (R 14));
  (6%nat, RLo (Xo (R 6) (R 10)) 12);
  (2%nat, Ad (R 2) (R 6));
  (14%nat, RLo (Xo (R 14) (R 2)) 8);
  (10%nat, Ad (R 10) (R 14));
  (6%nat, RLo (Xo (R 6) (R 10)) 7);
  (3%nat, Ad (R 3) (R 7));
  (15%nat, RLo (Xo (R 15) (R 3)) 16);
  (11%nat, Ad (R 11) (R 15));
  (7%nat, RLo (Xo (R 7) (R 11)) 12);
  (3%nat, Ad (R 3) (R 7));
  (15%nat, RLo (Xo (R 15) (R 3)) 8);
  (11%nat, Ad (R 11) (R 15));
  (7%nat, RLo (Xo (R 7) (R 11)) 7);
  (0%nat, Ad (R 0) (R 5));
  (15%nat, RLo (Xo (R 15) (R 0)) 16);
  (10%nat, Ad (R 10) (R 15));
  (5%nat, RLo (Xo (R 5) (R 10)) 12);
  (0%nat, Ad (R 0) (R 5));
  (15%nat, RLo (Xo (R 15) (R 0)) 8);
  (10%nat, Ad (R 10) (R 15));
  (5%nat, RLo (Xo (R 5) (R 10)) 7);
  (1%nat, Ad (R 1) (R 6));
  (12%nat, RLo (Xo (R 12) (R 1)) 16);
  (11%nat, Ad (R 11) (R 12));
  (6%nat, RLo (Xo (R 6) (R 11)) 12);
  (1%nat, Ad (R 1) (R 6));
  (12%nat, RLo (Xo (R 12) (R 1)) 8);
  (11%nat, Ad (R 11) (R 12));
  (6%nat, RLo (Xo (R 6) (R 11)) 7);
  (2%nat, Ad (R 2) (R 7));
  (13%nat, RLo (Xo (R 13) (R 2)) 16);
  (8%nat, Ad (R 8) (R 13));
  (7%nat, RLo (Xo (R 7) (R 8)) 12);
  (2%nat, Ad (R 2) (R 7));
  (13%nat, RLo (Xo (R 13) (R 2)) 8);
  (8%nat, Ad (R 8) (R 13));
  (7%nat, RLo (Xo (R 7) (R 8)) 7);
  (3%nat, Ad (R 3) (R 4));
  (14%nat, RLo (Xo (R 14) (R 3)) 16);
  (9%nat, Ad (R 9) (R 14));
  (4%nat, RLo (Xo (R 4) (R 9)) 12);
  (3%nat, Ad (R 3) (R 4));
  (14%nat, RLo (Xo (R 14) (R 3)) 8);
  (9%nat, Ad (R 9) (R 14));
  (4%nat, RLo (Xo (R 4) (R 9)) 7);
  (0%nat, Ad (R 0) (R 4));
  (12%nat, RLo (Xo (R 12) (R 0)) 16);
  (8%nat, Ad (R 8) (R 12));
  (4%nat, RLo (Xo (R 4) (R 8)) 12);
  (0%nat, Ad (R 0) (R 4));
  (12%nat, RLo (Xo (R 12) (R 0)) 8);
  (8%nat, Ad (R 8) (R 12));
  (4%nat, RLo (Xo (R 4) (R 8)) 7);
  (1%nat, Ad (R 1) (R 5));
  (13%nat, RLo (Xo (R 13) (R 1)) 16);
  (9%nat, Ad (R 9) (R 13));
  (5%nat, RLo (Xo (R 5) (R 9)) 12);
  (1%nat, Ad (R 1) (R 5));
  (13%nat, RLo (Xo (R 13) (R 1)) 8);
  (9%nat, Ad (R 9) (R 13));
  (5%nat, RLo (Xo (R 5) (R 9)) 7);
  (2%nat, Ad (R 2) (R 6));
  (14%nat, RLo (Xo (R 14) (R 2)) 16);
  (10%nat, Ad (R 10) (R 14));
  (6%nat, RLo (Xo (R 6) (R 10)) 12);
  (2%nat, Ad (R 2) (R 6));
  (14%nat, RLo (Xo (R 14) (R 2)) 8);
  (10%nat, Ad (R 10) (R 14));
  (6%nat, RLo (Xo (R 6) (R 10)) 7);
  (3%nat, Ad (R 3) (R 7));
  (15%nat, RLo (Xo (R 15) (R 3)) 16);
  (11%nat, Ad (R 11) (R 15));
  (7%nat, RLo (Xo (R 7) (R 11)) 12);
  (3%nat, Ad (R 3) (R 7));
  (15%nat, RLo (Xo (R 15) (R 3)) 8);
  (11%nat, Ad (R 11) (R 15));
  (7%nat, RLo (Xo (R 7) (R 11)) 7);
  (0%nat, Ad (R 0) (R 5));
  (15%nat, RLo (Xo (R 15) (R 0)) 16);
  (10%nat, Ad (R 10) (R 15));
  (5%nat, RLo (Xo (R 5) (R 10)) 12);
  (0%nat, Ad (R 0) (R 5));
  (15%nat, RLo (Xo (R 15) (R 0)) 8);
  (10%nat, Ad (R 10) (R 15));
  (5%nat, RLo (Xo (R 5) (R 10)) 7);
  (1%nat, Ad (R 1) (R 6));
  (12%nat, RLo (Xo (R 12) (R 1)) 16);
  (11%nat, Ad (R 11) (R 12));
  (6%nat, RLo (Xo (R 6) (R 11)) 12);
  (1%nat, Ad (R 1) (R 6));
  (12%nat, RLo (Xo (R 12) (R 1)) 8);
  (11%nat, Ad (R 11) (R 12));
  (6%nat, RLo (Xo (R 6) (R 11)) 7);
  (2%nat, Ad (R 2) (R 7));
  (13%nat, RLo (Xo (R 13) (R 2)) 16);
  (8%nat, Ad (R 8) (R 13));
  (7%nat, RLo (Xo (R 7) (R 8)) 12);
  (2%nat, Ad (R 2) (R 7));
  (13%nat, RLo (Xo (R 13) (R 2)) 8);
  (8%nat, Ad (R 8) (R 13));
  (7%nat, RLo (Xo (R 7) (R 8)) 7);
  (3%nat, Ad (R 3) (R 4));
  (14%nat, RLo (Xo (R 14) (R 3)) 16);
  (9%nat, Ad (R 9) (R 14));
  (4%nat, RLo (Xo (R 4) (R 9)) 12);
  (3%nat, Ad (R 3) (R 4));
  (14%nat, RLo (Xo (R 14) (R 3)) 8);
  (9%nat, Ad (R 9) (R 14));
  (4%nat, RLo (Xo (R 4) (R 9)) 7)].

(** CEX/ChaCha.h:298-981 PermuteR20P512U: the stores *)
Definition chacha_U_out : list (sx * nat) := [
  (Ad (R 0) (R 16), 0%nat);
  (Ad (R 1) (R 17), 4%nat);
  (Ad (R 2) (R 18), 8%nat);
  (Ad (R 3) (R 19), 12%nat);
  (Ad (R 4) (R 20), 16%nat);
  (Ad (R 5) (R 21), 20%nat);
  (Ad (R 6) (R 22), 24%nat);
  (Ad (R 7) (R 23), 28%nat);
  (Ad (R 8) (R 24), 32%nat);
  (Ad (R 9) (R 25), 36%nat);
  (Ad (R 10) (R 26), 40%nat);
  (Ad (R 11) (R 27), 44%nat);
  (Ad (R 12) (R 30), 48%nat);
  (Ad (R 13) (R 31), 52%nat);
  (Ad (R 14) (R 28), 56%nat);
  (Ad (R 15) (R 29), 60%nat)].

(** CEX/ChaCha.h:191-282 PermuteP512C: the initialiser of X *)
Definition chacha_C_init : list sx := [
  R 16;
  R 17;
  R 18;
  R 19;
  R 20;
  R 21;
  R 22;
  R 23;
  R 24;
  R 25;
  R 26;
  R 27;
  R 30;
  R 31;
  R 28;
  R 29].

(** CEX/ChaCha.h:191-282 PermuteP512C: one pass of the loop on Rounds *)
Definition chacha_C : prog := [
  (0%nat, Ad (R 0) (R 4));
  (12%nat, RLo (Xo (R 12) (R 0)) 16);
  (8%nat, Ad (R 8) (R 12));
  (4%nat, RLo (Xo (R 4) (R 8)) 12);
  (0%nat, Ad (R 0) (R 4));
  (12%nat, RLo (Xo (R 12) (R 0)) 8);
  (8%nat, Ad (R 8) (R 12));
  (4%nat, RLo (Xo (R 4) (R 8)) 7);
  (1%nat, Ad (R 1) (R 5));
  (13%nat, RLo (Xo (R 13) (R 1)) 16);
  (9%nat, Ad (R 9) (R 13));
  (5%nat, RLo (Xo (R 5) (R 9)) 12);
  (1%nat, Ad (R 1) (R 5));
  (13%nat, RLo (Xo (R 13) (R 1)) 8);
  (9%nat, Ad (R 9) (R 13));
  (5%nat, RLo (Xo (R 5) (R 9)) 7);
  (2%nat, Ad (R 2) (R 6));
  (14%nat, RLo (Xo (R 14) (R 2)) 16);
  (10%nat, Ad (R 10) (R 14));
  (6%nat, RLo (Xo (R 6) (R 10)) 12);
  (2%nat, Ad (R 2) (R 6));
  (14%nat, RLo (Xo (R 14) (R 2)) 8);
  (10%nat, Ad (R 10) (R 14));
  (6%nat, RLo (Xo (R 6) (R 10)) 7);
  (3%nat, Ad (R 3) (R 7));
  (15%nat, RLo (Xo (R 15) (R 3)) 16);
  (11%nat, Ad (R 11) (R 15));
  (7%nat, RLo (Xo (R 7) (R 11)) 12);
  (3%nat, Ad (R 3) (R 7));
  (15%nat, RLo (Xo (R 15) (R 3)) 8);
  (11%nat, Ad (R 11) (R 15));
  (7%nat, RLo (Xo (R 7) (R 11)) 7);
  (0%nat, Ad (R 0) (R 5));
  (15%nat, RLo (Xo (R 15) (R 0)) 16);
  (10%nat, Ad (R 10) (R 15));
  (5%nat, RLo (Xo (R 5) (R 10)) 12);
  (0%nat, Ad (R 0) (R 5));
  (15%nat, RLo (Xo (R 15) (R 0)) 8);
  (10%nat, Ad (R 10) (R 15));
  (5%nat, RLo (Xo (R 5) (R 10)) 7);
  (1%nat, Ad (R 1) (R 6));
  (12%nat, RLo (Xo (R 12) (R 1)) 16);
  (11%nat, Ad (R 11) (R 12));
  (6%nat, RLo (Xo (R 6) (R 11)) 12);
  (1%nat, Ad (R 1) (R 6));
  (12%nat, RLo (Xo (R 12) (R 1)) 8);
  (11%nat, Ad (R 11) (R 12));
  (6%nat, RLo (Xo (R 6) (R 11)) 7);
  (2%nat, Ad (R 2) (R 7));
  (13%nat, RLo (Xo (R 13) (R 2)) 16);
  (8%nat, Ad (R 8) (R 13));
  (7%nat, RLo (Xo (R 7) (R 8)) 12);
  (2%nat, Ad (R 2) (R 7));
  (13%nat, RLo (Xo (R 13) (R 2)) 8);
  (8%nat, Ad (R 8) (R 13));
  (7%nat, RLo (Xo (R 7) (R 8)) 7);
  (3%nat, Ad (R 3) (R 4));
  (14%nat, RLo (Xo (R 14) (R 3)) 16);
  (9%nat, Ad (R 9) (R 14));
  (4%nat, RLo (Xo (R 4) (R 9)) 12);
  (3%nat, Ad (R 3) (R 4));
  (14%nat, RLo (Xo (R 14) (R 3)) 8);
  (9%nat, Ad (R 9) (R 14));
  (4%nat, RLo (Xo (R 4) (R 9)) 7)].

(** CEX/ChaCha.h:191-282 PermuteP512C: the stores *)
Definition chacha_C_out : list (sx * nat) := [
  (Ad (R 0) (R 16), 0%nat);
  (Ad (R 1) (R 17), 4%nat);
  (Ad (R 2) (R 18), 8%nat);
  (Ad (R 3) (R 19), 12%nat);
  (Ad (R 4) (R 20), 16%nat);
  (Ad (R 5) (R 21), 20%nat);
  (Ad (R 6) (R 22), 24%nat);
  (Ad (R 7) (R 23), 28%nat);
  (Ad (R 8) (R 24), 32%nat);
  (Ad (R 9) (R 25), 36%nat);
  (Ad (R 10) (R 26), 40%nat);
  (Ad (R 11) (R 27), 44%nat);
  (Ad (R 12) (R 30), 48%nat);
  (Ad (R 13) (R 31), 52%nat);
  (Ad (R 14) (R 28), 56%nat);
  (Ad (R 15) (R 29), 60%nat)].

(** CEX/ChaCha.h:997-1098 PermuteP1024C: the initialiser of X *)
Definition csx_C_init : list sx := [
  R 16;
  R 17;
  R 18;
  R 19;
  R 20;
  R 21;
  R 22;
  R 23;
  R 24;
  R 25;
  R 26;
  R 27;
  R 30;
  R 31;
  R 28;
  R 29].

(** CEX/ChaCha.h:997-1098 PermuteP1024C: one pass of the loop on Rounds *)
Definition csx_C : prog := [
  (0%nat, Ad (R 0) (R 4));
  (12%nat, RLo (Xo (R 12) (R 0)) 38);
  (8%nat, Ad (R 8) (R 12));
  (4%nat, RLo (Xo (R 4) (R 8)) 19);
  (0%nat, Ad (R 0) (R 4));
  (12%nat, RLo (Xo (R 12) (R 0)) 10);
  (8%nat, Ad (R 8) (R 12));
  (4%nat, RLo (Xo (R 4) (R 8)) 55);
  (1%nat, Ad (R 1) (R 5));
  (13%nat, RLo (Xo (R 13) (R 1)) 33);
  (9%nat, Ad (R 9) (R 13));
  (5%nat, RLo (Xo (R 5) (R 9)) 4);
  (1%nat, Ad (R 1) (R 5));
  (13%nat, RLo (Xo (R 13) (R 1)) 51);
  (9%nat, Ad (R 9) (R 13));
  (5%nat, RLo (Xo (R 5) (R 9)) 13);
  (2%nat, Ad (R 2) (R 6));
  (14%nat, RLo (Xo (R 14) (R 2)) 16);
  (10%nat, Ad (R 10) (R 14));
  (6%nat, RLo (Xo (R 6) (R 10)) 34);
  (2%nat, Ad (R 2) (R 6));
  (14%nat, RLo (Xo (R 14) (R 2)) 56);
  (10%nat, Ad (R 10) (R 14));
  (6%nat, RLo (Xo (R 6) (R 10)) 51);
  (3%nat, Ad (R 3) (R 7));
  (15%nat, RLo (Xo (R 15) (R 3)) 4);
  (11%nat, Ad (R 11) (R 15));
  (7%nat, RLo (Xo (R 7) (R 11)) 53);
  (3%nat, Ad (R 3) (R 7));
  (15%nat, RLo (Xo (R 15) (R 3)) 42);
  (11%nat, Ad (R 11) (R 15));
  (7%nat, RLo (Xo (R 7) (R 11)) 41);
  (0%nat, Ad (R 0) (R 5));
  (15%nat, RLo (Xo (R 15) (R 0)) 34);
  (10%nat, Ad (R 10) (R 15));
  (5%nat, RLo (Xo (R 5) (R 10)) 41);
  (0%nat, Ad (R 0) (R 5));
  (15%nat, RLo (Xo (R 15) (R 0)) 59);
  (10%nat, Ad (R 10) (R 15));
  (5%nat, RLo (Xo (R 5) (R 10)) 17);
  (1%nat, Ad (R 1) (R 6));
  (12%nat, RLo (Xo (R 12) (R 1)) 23);
  (11%nat, Ad (R 11) (R 12));
  (6%nat, RLo (Xo (R 6) (R 11)) 31);
  (1%nat, Ad (R 1) (R 6));
  (12%nat, RLo (Xo (R 12) (R 1)) 37);
  (11%nat, Ad (R 11) (R 12));
  (6%nat, RLo (Xo (R 6) (R 11)) 20);
  (2%nat, Ad (R 2) (R 7));
  (13%nat, RLo (Xo (R 13) (R 2)) 31);
  (8%nat, Ad (R 8) (R 13));
  (7%nat, RLo (Xo (R 7) (R 8)) 44);
  (2%nat, Ad (R 2) (R 7));
  (13%nat, RLo (Xo (R 13) (R 2)) 47);
  (8%nat, Ad (R 8) (R 13));
  (7%nat, RLo (Xo (R 7) (R 8)) 46);
  (3%nat, Ad (R 3) (R 4));
  (14%nat, RLo (Xo (R 14) (R 3)) 12);
  (9%nat, Ad (R 9) (R 14));
  (4%nat, RLo (Xo (R 4) (R 9)) 47);
  (3%nat, Ad (R 3) (R 4));
  (14%nat, RLo (Xo (R 14) (R 3)) 44);
  (9%nat, Ad (R 9) (R 14));
  (4%nat, RLo (Xo (R 4) (R 9)) 30)].

(** CEX/ChaCha.h:997-1098 PermuteP1024C: the stores *)
Definition csx_C_out : list (sx * nat) := [
  (Ad (R 0) (R 16), 0%nat);
  (Ad (R 1) (R 17), 8%nat);
  (Ad (R 2) (R 18), 16%nat);
  (Ad (R 3) (R 19), 24%nat);
  (Ad (R 4) (R 20), 32%nat);
  (Ad (R 5) (R 21), 40%nat);
  (Ad (R 6) (R 22), 48%nat);
  (Ad (R 7) (R 23), 56%nat);
  (Ad (R 8) (R 24), 64%nat);
  (Ad (R 9) (R 25), 72%nat);
  (Ad (R 10) (R 26), 80%nat);
  (Ad (R 11) (R 27), 88%nat);
  (Ad (R 12) (R 30), 96%nat);
  (Ad (R 13) (R 31), 104%nat);
  (Ad (R 14) (R 28), 112%nat);
  (Ad (R 15) (R 29), 120%nat)].
