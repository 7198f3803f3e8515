(** The Blake2 compression functions as statement lists (see Model_Straight.v).
    GENERATED by tools/gen_blake.py from CEX/Blake.h and CEX/Blake.cpp; do not edit.
    Registers of the unrolled form: 0-15 R, 16-31 M, 32-39 State, 40-47 IV, 48-63 the words of Input.
    Registers of the compact form: 0-15 R, 16-31 the words M[Sigma[(i * 16) + k]], k = 0 .. 15. *)
From Verif Require Import Base Model_Straight.
Open Scope Z_scope.

(** CEX/Blake.cpp:7-17 IV256 *)
Definition IV256 : list Z := [
  0x6A09E667; 0xBB67AE85; 0x3C6EF372; 0xA54FF53A;
  0x510E527F; 0x9B05688C; 0x1F83D9AB; 0x5BE0CD19].

(** CEX/Blake.cpp:19-29 IV512 *)
Definition IV512 : list Z := [
  0x6A09E667F3BCC908; 0xBB67AE8584CAA73B; 0x3C6EF372FE94F82B; 0xA54FF53A5F1D36F1;
  0x510E527FADE682D1; 0x9B05688C2B3E6C1F; 0x1F83D9ABFB41BD6B; 0x5BE0CD19137E2179].

(** CEX/Blake.cpp:31-45 Sigma256 *)
Definition Sigma256 : list nat := [
  0%nat; 1%nat; 2%nat; 3%nat; 4%nat; 5%nat; 6%nat; 7%nat; 8%nat; 9%nat; 10%nat; 11%nat; 12%nat; 13%nat; 14%nat; 15%nat;
  14%nat; 10%nat; 4%nat; 8%nat; 9%nat; 15%nat; 13%nat; 6%nat; 1%nat; 12%nat; 0%nat; 2%nat; 11%nat; 7%nat; 5%nat; 3%nat;
  11%nat; 8%nat; 12%nat; 0%nat; 5%nat; 2%nat; 15%nat; 13%nat; 10%nat; 14%nat; 3%nat; 6%nat; 7%nat; 1%nat; 9%nat; 4%nat;
  7%nat; 9%nat; 3%nat; 1%nat; 13%nat; 12%nat; 11%nat; 14%nat; 2%nat; 6%nat; 5%nat; 10%nat; 4%nat; 0%nat; 15%nat; 8%nat;
  9%nat; 0%nat; 5%nat; 7%nat; 2%nat; 4%nat; 10%nat; 15%nat; 14%nat; 1%nat; 11%nat; 12%nat; 6%nat; 8%nat; 3%nat; 13%nat;
  2%nat; 12%nat; 6%nat; 10%nat; 0%nat; 11%nat; 8%nat; 3%nat; 4%nat; 13%nat; 7%nat; 5%nat; 15%nat; 14%nat; 1%nat; 9%nat;
  12%nat; 5%nat; 1%nat; 15%nat; 14%nat; 13%nat; 4%nat; 10%nat; 0%nat; 7%nat; 6%nat; 3%nat; 9%nat; 2%nat; 8%nat; 11%nat;
  13%nat; 11%nat; 7%nat; 14%nat; 12%nat; 1%nat; 3%nat; 9%nat; 5%nat; 0%nat; 15%nat; 4%nat; 8%nat; 6%nat; 2%nat; 10%nat;
  6%nat; 15%nat; 14%nat; 9%nat; 11%nat; 3%nat; 0%nat; 8%nat; 12%nat; 2%nat; 13%nat; 7%nat; 1%nat; 4%nat; 10%nat; 5%nat;
  10%nat; 2%nat; 8%nat; 4%nat; 7%nat; 6%nat; 1%nat; 5%nat; 15%nat; 11%nat; 9%nat; 14%nat; 3%nat; 12%nat; 13%nat; 0%nat;
  0%nat; 1%nat; 2%nat; 3%nat; 4%nat; 5%nat; 6%nat; 7%nat; 8%nat; 9%nat; 10%nat; 11%nat; 12%nat; 13%nat; 14%nat; 15%nat;
  14%nat; 10%nat; 4%nat; 8%nat; 9%nat; 15%nat; 13%nat; 6%nat; 1%nat; 12%nat; 0%nat; 2%nat; 11%nat; 7%nat; 5%nat; 3%nat].

(** CEX/Blake.cpp:47-61 Sigma512 *)
Definition Sigma512 : list nat := [
  0%nat; 1%nat; 2%nat; 3%nat; 4%nat; 5%nat; 6%nat; 7%nat; 8%nat; 9%nat; 10%nat; 11%nat; 12%nat; 13%nat; 14%nat; 15%nat;
  14%nat; 10%nat; 4%nat; 8%nat; 9%nat; 15%nat; 13%nat; 6%nat; 1%nat; 12%nat; 0%nat; 2%nat; 11%nat; 7%nat; 5%nat; 3%nat;
  11%nat; 8%nat; 12%nat; 0%nat; 5%nat; 2%nat; 15%nat; 13%nat; 10%nat; 14%nat; 3%nat; 6%nat; 7%nat; 1%nat; 9%nat; 4%nat;
  7%nat; 9%nat; 3%nat; 1%nat; 13%nat; 12%nat; 11%nat; 14%nat; 2%nat; 6%nat; 5%nat; 10%nat; 4%nat; 0%nat; 15%nat; 8%nat;
  9%nat; 0%nat; 5%nat; 7%nat; 2%nat; 4%nat; 10%nat; 15%nat; 14%nat; 1%nat; 11%nat; 12%nat; 6%nat; 8%nat; 3%nat; 13%nat;
  2%nat; 12%nat; 6%nat; 10%nat; 0%nat; 11%nat; 8%nat; 3%nat; 4%nat; 13%nat; 7%nat; 5%nat; 15%nat; 14%nat; 1%nat; 9%nat;
  12%nat; 5%nat; 1%nat; 15%nat; 14%nat; 13%nat; 4%nat; 10%nat; 0%nat; 7%nat; 6%nat; 3%nat; 9%nat; 2%nat; 8%nat; 11%nat;
  13%nat; 11%nat; 7%nat; 14%nat; 12%nat; 1%nat; 3%nat; 9%nat; 5%nat; 0%nat; 15%nat; 4%nat; 8%nat; 6%nat; 2%nat; 10%nat;
  6%nat; 15%nat; 14%nat; 9%nat; 11%nat; 3%nat; 0%nat; 8%nat; 12%nat; 2%nat; 13%nat; 7%nat; 1%nat; 4%nat; 10%nat; 5%nat;
  10%nat; 2%nat; 8%nat; 4%nat; 7%nat; 6%nat; 1%nat; 5%nat; 15%nat; 11%nat; 9%nat; 14%nat; 3%nat; 12%nat; 13%nat; 0%nat;
  0%nat; 1%nat; 2%nat; 3%nat; 4%nat; 5%nat; 6%nat; 7%nat; 8%nat; 9%nat; 10%nat; 11%nat; 12%nat; 13%nat; 14%nat; 15%nat;
  14%nat; 10%nat; 4%nat; 8%nat; 9%nat; 15%nat; 13%nat; 6%nat; 1%nat; 12%nat; 0%nat; 2%nat; 11%nat; 7%nat; 5%nat; 3%nat].

(** CEX/Blake.h:292-1382 PermuteR10P512U *)
Definition blake256_U : prog := [
  (16%nat, R 48);
  (17%nat, R 49);
  (18%nat, R 50);
  (19%nat, R 51);
  (20%nat, R 52);
  (21%nat, R 53);
  (22%nat, R 54);
  (23%nat, R 55);
  (24%nat, R 56);
  (25%nat, R 57);
  (26%nat, R 58);
  (27%nat, R 59);
  (28%nat, R 60);
  (29%nat, R 61);
  (30%nat, R 62);
  (31%nat, R 63);
  (0%nat, R 32);
  (1%nat, R 33);
  (2%nat, R 34);
  (3%nat, R 35);
  (4%nat, R 36);
  (5%nat, R 37);
  (6%nat, R 38);
  (7%nat, R 39);
  (8%nat, R 40);
  (9%nat, R 41);
  (10%nat, R 42);
  (11%nat, R 43);
  (12%nat, R 44);
  (13%nat, R 45);
  (14%nat, R 46);
  (15%nat, R 47);
  (0%nat, Ad (R 0) (Ad (R 4) (R 16)));
  (12%nat, Xo (R 12) (R 0));
  (12%nat, Or (SR (R 12) 16) (SL (R 12) 16));
  (8%nat, Ad (R 8) (R 12));
  (4%nat, Xo (R 4) (R 8));
  (4%nat, Or (SR (R 4) 12) (SL (R 4) 20));
  (0%nat, Ad (R 0) (Ad (R 4) (R 17)));
  (12%nat, Xo (R 12) (R 0));
  (12%nat, Or (SR (R 12) 8) (SL (R 12) 24));
  (8%nat, Ad (R 8) (R 12));
  (4%nat, Xo (R 4) (R 8));
  (4%nat, Or (SR (R 4) 7) (SL (R 4) 25));
  (1%nat, Ad (R 1) (Ad (R 5) (R 18)));
  (13%nat, Xo (R 13) (R 1));
  (13%nat, Or (SR (R 13) 16) (SL (R 13) 16));
  (9%nat, Ad (R 9) (R 13));
  (5%nat, Xo (R 5) (R 9));
  (5%nat, Or (SR (R 5) 12) (SL (R 5) 20));
  (1%nat, Ad (R 1) (Ad (R 5) (R 19)));
  (13%nat, Xo (R 13) (R 1));
  (13%nat, Or (SR (R 13) 8) (SL (R 13) 24));
  (9%nat, Ad (R 9) (R 13));
  (5%nat, Xo (R 5) (R 9));
  (5%nat, Or (SR (R 5) 7) (SL (R 5) 25));
  (2%nat, Ad (R 2) (Ad (R 6) (R 20)));
  (14%nat, Xo (R 14) (R 2));
  (14%nat, Or (SR (R 14) 16) (SL (R 14) 16));
  (10%nat, Ad (R 10) (R 14));
  (6%nat, Xo (R 6) (R 10));
  (6%nat, Or (SR (R 6) 12) (SL (R 6) 20));
  (2%nat, Ad (R 2) (Ad (R 6) (R 21)));
  (14%nat, Xo (R 14) (R 2));
  (14%nat, Or (SR (R 14) 8) (SL (R 14) 24));
  (10%nat, Ad (R 10) (R 14));
  (6%nat, Xo (R 6) (R 10));
  (6%nat, Or (SR (R 6) 7) (SL (R 6) 25));
  (3%nat, Ad (R 3) (Ad (R 7) (R 22)));
  (15%nat, Xo (R 15) (R 3));
  (15%nat, Or (SR (R 15) 16) (SL (R 15) 16));
  (11%nat, Ad (R 11) (R 15));
  (7%nat, Xo (R 7) (R 11));
  (7%nat, Or (SR (R 7) 12) (SL (R 7) 20));
  (3%nat, Ad (R 3) (Ad (R 7) (R 23)));
  (15%nat, Xo (R 15) (R 3));
  (15%nat, Or (SR (R 15) 8) (SL (R 15) 24));
  (11%nat, Ad (R 11) (R 15));
  (7%nat, Xo (R 7) (R 11));
  (7%nat, Or (SR (R 7) 7) (SL (R 7) 25));
  (0%nat, Ad (R 0) (Ad (R 5) (R 24)));
  (15%nat, Xo (R 15) (R 0));
  (15%nat, Or (SR (R 15) 16) (SL (R 15) 16));
  (10%nat, Ad (R 10) (R 15));
  (5%nat, Xo (R 5) (R 10));
  (5%nat, Or (SR (R 5) 12) (SL (R 5) 20));
  (0%nat, Ad (R 0) (Ad (R 5) (R 25)));
  (15%nat, Xo (R 15) (R 0));
  (15%nat, Or (SR (R 15) 8) (SL (R 15) 24));
  (10%nat, Ad (R 10) (R 15));
  (5%nat, Xo (R 5) (R 10));
  (5%nat, Or (SR (R 5) 7) (SL (R 5) 25));
  (1%nat, Ad (R 1) (Ad (R 6) (R 26)));
  (12%nat, Xo (R 12) (R 1));
  (12%nat, Or (SR (R 12) 16) (SL (R 12) 16));
  (11%nat, Ad (R 11) (R 12));
  (6%nat, Xo (R 6) (R 11));
  (6%nat, Or (SR (R 6) 12) (SL (R 6) 20));
  (1%nat, Ad (R 1) (Ad (R 6) (R 27)));
  (12%nat, Xo (R 12) (R 1));
  (12%nat, Or (SR (R 12) 8) (SL (R 12) 24));
  (11%nat, Ad (R 11) (R 12));
  (6%nat, Xo (R 6) (R 11));
  (6%nat, Or (SR (R 6) 7) (SL (R 6) 25));
  (2%nat, Ad (R 2) (Ad (R 7) (R 28)));
  (13%nat, Xo (R 13) (R 2));
  (13%nat, Or (SR (R 13) 16) (SL (R 13) 16));
  (8%nat, Ad (R 8) (R 13));
  (7%nat, Xo (R 7) (R 8));
  (7%nat, Or (SR (R 7) 12) (SL (R 7) 20));
  (2%nat, Ad (R 2) (Ad (R 7) (R 29)));
  (13%nat, Xo (R 13) (R 2));
  (13%nat, Or (SR (R 13) 8) (SL (R 13) 24));
  (8%nat, Ad (R 8) (R 13));
  (7%nat, Xo (R 7) (R 8));
  (7%nat, Or (SR (R 7) 7) (SL (R 7) 25));
  (3%nat, Ad (R 3) (Ad (R 4) (R 30)));
  (14%nat, Xo (R 14) (R 3));
  (14%nat, Or (SR (R 14) 16) (SL (R 14) 16));
  (9%nat, Ad (R 9) (R 14));
  (4%nat, Xo (R 4) (R 9));
  (4%nat, Or (SR (R 4) 12) (SL (R 4) 20));
  (3%nat, Ad (R 3) (Ad (R 4) (R 31)));
  (14%nat, Xo (R 14) (R 3));
  (14%nat, Or (SR (R 14) 8) (SL (R 14) 24));
  (9%nat, Ad (R 9) (R 14));
  (4%nat, Xo (R 4) (R 9));
  (4%nat, Or (SR (R 4) 7) (SL (R 4) 25));
  (0%nat, Ad (R 0) (Ad (R 4) (R 30)));
  (12%nat, Xo (R 12) (R 0));
  (12%nat, Or (SR (R 12) 16) (SL (R 12) 16));
  (8%nat, Ad (R 8) (R 12));
  (4%nat, Xo (R 4) (R 8));
  (4%nat, Or (SR (R 4) 12) (SL (R 4) 20));
  (0%nat, Ad (R 0) (Ad (R 4) (R 26)));
  (12%nat, Xo (R 12) (R 0));
  (12%nat, Or (SR (R 12) 8) (SL (R 12) 24));
  (8%nat, Ad (R 8) (R 12));
  (4%nat, Xo (R 4) (R 8));
  (4%nat, Or (SR (R 4) 7) (SL (R 4) 25));
  (1%nat, Ad (R 1) (Ad (R 5) (R 20)));
  (13%nat, Xo (R 13) (R 1));
  (13%nat, Or (SR (R 13) 16) (SL (R 13) 16));
  (9%nat, Ad (R 9) (R 13));
  (5%nat, Xo (R 5) (R 9));
  (5%nat, Or (SR (R 5) 12) (SL (R 5) 20));
  (1%nat, Ad (R 1) (Ad (R 5) (R 24)));
  (13%nat, Xo (R 13) (R 1));
  (13%nat, Or (SR (R 13) 8) (SL (R 13) 24));
  (9%nat, Ad (R 9) (R 13));
  (5%nat, Xo (R 5) (R 9));
  (5%nat, Or (SR (R 5) 7) (SL (R 5) 25));
  (2%nat, Ad (R 2) (Ad (R 6) (R 25)));
  (14%nat, Xo (R 14) (R 2));
  (14%nat, Or (SR (R 14) 16) (SL (R 14) 16));
  (10%nat, Ad (R 10) (R 14));
  (6%nat, Xo (R 6) (R 10));
  (6%nat, Or (SR (R 6) 12) (SL (R 6) 20));
  (2%nat, Ad (R 2) (Ad (R 6) (R 31)));
  (14%nat, Xo (R 14) (R 2));
  (14%nat, Or (SR (R 14) 8) (SL (R 14) 24));
  (10%nat, Ad (R 10) (R 14));
  (6%nat, Xo (R 6) (R 10));
  (6%nat, Or (SR (R 6) 7) (SL (R 6) 25));
  (3%nat, Ad (R 3) (Ad (R 7) (R 29)));
  (15%nat, Xo (R 15) (R 3));
  (15%nat, Or (SR (R 15) 16) (SL (R 15) 16));
  (11%nat, Ad (R 11) (R 15));
  (7%nat, Xo (R 7) (R 11));
  (7%nat, Or (SR (R 7) 12) (SL (R 7) 20));
  (3%nat, Ad (R 3) (Ad (R 7) (R 22)));
  (15%nat, Xo (R 15) (R 3));
  (15%nat, Or (SR (R 15) 8) (SL (R 15) 24));
  (11%nat, Ad (R 11) (R 15));
  (7%nat, Xo (R 7) (R 11));
  (7%nat, Or (SR (R 7) 7) (SL (R 7) 25));
  (0%nat, Ad (R 0) (Ad (R 5) (R 17)));
  (15%nat, Xo (R 15) (R 0));
  (15%nat, Or (SR (R 15) 16) (SL (R 15) 16));
  (10%nat, Ad (R 10) (R 15));
  (5%nat, Xo (R 5) (R 10));
  (5%nat, Or (SR (R 5) 12) (SL (R 5) 20));
  (0%nat, Ad (R 0) (Ad (R 5) (R 28)));
  (15%nat, Xo (R 15) (R 0));
  (15%nat, Or (SR (R 15) 8) (SL (R 15) 24));
  (10%nat, Ad (R 10) (R 15));
  (5%nat, Xo (R 5) (R 10));
  (5%nat, Or (SR (R 5) 7) (SL (R 5) 25));
  (1%nat, Ad (R 1) (Ad (R 6) (R 16)));
  (12%nat, Xo (R 12) (R 1));
  (12%nat, Or (SR (R 12) 16) (SL (R 12) 16));
  (11%nat, Ad (R 11) (R 12));
  (6%nat, Xo (R 6) (R 11));
  (6%nat, Or (SR (R 6) 12) (SL (R 6) 20));
  (1%nat, Ad (R 1) (Ad (R 6) (R 18)));
  (12%nat, Xo (R 12) (R 1));
  (12%nat, Or (SR (R 12) 8) (SL (R 12) 24));
  (11%nat, Ad (R 11) (R 12));
  (6%nat, Xo (R 6) (R 11));
  (6%nat, Or (SR (R 6) 7) (SL (R 6) 25));
  (2%nat, Ad (R 2) (Ad (R 7) (R 27)));
  (13%nat, Xo (R 13) (R 2));
  (13%nat, Or (SR (R 13) 16) (SL (R 13) 16));
  (8%nat, Ad (R 8) (R 13));
  (7%nat, Xo (R 7) (R 8));
  (7%nat, Or (SR (R 7) 12) (SL (R 7) 20));
  (2%nat, Ad (R 2) (Ad (R 7) (R 23)));
  (13%nat, Xo (R 13) (R 2));
  (13%nat, Or (SR (R 13) 8) (SL (R 13) 24));
  (8%nat, Ad (R 8) (R 13));
  (7%nat, Xo (R 7) (R 8));
  (7%nat, Or (SR (R 7) 7) (SL (R 7) 25));
  (3%nat, Ad (R 3) (Ad (R 4) (R 21)));
  (14%nat, Xo (R 14) (R 3));
  (14%nat, Or (SR (R 14) 16) (SL (R 14) 16));
  (9%nat, Ad (R 9) (R 14));
  (4%nat, Xo (R 4) (R 9));
  (4%nat, Or (SR (R 4) 12) (SL (R 4) 20));
  (3%nat, Ad (R 3) (Ad (R 4) (R 19)));
  (14%nat, Xo (R 14) (R 3));
  (14%nat, Or (SR (R 14) 8) (SL (R 14) 24));
  (9%nat, Ad (R 9) (R 14));
  (4%nat, Xo (R 4) (R 9));
  (4%nat, Or (SR (R 4) 7) (SL (R 4) 25));
  (0%nat, Ad (R 0) (Ad (R 4) (R 27)));
  (12%nat, Xo (R 12) (R 0));
  (12%nat, Or (SR (R 12) 16) (SL (R 12) 16));
  (8%nat, Ad (R 8) (R 12));
  (4%nat, Xo (R 4) (R 8));
  (4%nat, Or (SR (R 4) 12) (SL (R 4) 20));
  (0%nat, Ad (R 0) (Ad (R 4) (R 24)));
  (12%nat, Xo (R 12) (R 0));
  (12%nat, Or (SR (R 12) 8) (SL (R 12) 24));
  (8%nat, Ad (R 8) (R 12));
  (4%nat, Xo (R 4) (R 8));
  (4%nat, Or (SR (R 4) 7) (SL (R 4) 25));
  (1%nat, Ad (R 1) (Ad (R 5) (R 28)));
  (13%nat, Xo (R 13) (R 1));
  (13%nat, Or (SR (R 13) 16) (SL (R 13) 16));
  (9%nat, Ad (R 9) (R 13));
  (5%nat, Xo (R 5) (R 9));
  (5%nat, Or (SR (R 5) 12) (SL (R 5) 20));
  (1%nat, Ad (R 1) (Ad (R 5) (R 16)));
  (13%nat, Xo (R 13) (R 1));
  (13%nat, Or (SR (R 13) 8) (SL (R 13) 24));
  (9%nat, Ad (R 9) (R 13));
  (5%nat, Xo (R 5) (R 9));
  (5%nat, Or (SR (R 5) 7) (SL (R 5) 25));
  (2%nat, Ad (R 2) (Ad (R 6) (R 21)));
  (14%nat, Xo (R 14) (R 2));
  (14%nat, Or (SR (R 14) 16) (SL (R 14) 16));
  (10%nat, Ad (R 10) (R 14));
  (6%nat, Xo (R 6) (R 10));
  (6%nat, Or (SR (R 6) 12) (SL (R 6) 20));
  (2%nat, Ad (R 2) (Ad (R 6) (R 18)));
  (14%nat, Xo (R 14) (R 2));
  (14%nat, Or (SR (R 14) 8) (SL (R 14) 24));
  (10%nat, Ad (R 10) (R 14));
  (6%nat, Xo (R 6) (R 10));
  (6%nat, Or (SR (R 6) 7) (SL (R 6) 25));
  (3%nat, Ad (R 3) (Ad (R 7) (R 31)));
  (15%nat, Xo (R 15) (R 3));
  (15%nat, Or (SR (R 15) 16) (SL (R 15) 16));
  (11%nat, Ad (R 11) (R 15));
  (7%nat, Xo (R 7) (R 11));
  (7%nat, Or (SR (R 7) 12) (SL (R 7) 20));
  (3%nat, Ad (R 3) (Ad (R 7) (R 29)));
  (15%nat, Xo (R 15) (R 3));
  (15%nat, Or (SR (R 15) 8) (SL (R 15) 24));
  (11%nat, Ad (R 11) (R 15));
  (7%nat, Xo (R 7) (R 11));
  (7%nat, Or (SR (R 7) 7) (SL (R 7) 25));
  (0%nat, Ad (R 0) (Ad (R 5) (R 26)));
  (15%nat, Xo (R 15) (R 0));
  (15%nat, Or (SR (R 15) 16) (SL (R 15) 16));
  (10%nat, Ad (R 10) (R 15));
  (5%nat, Xo (R 5) (R 10));
  (5%nat, Or (SR (R 5) 12) (SL (R 5) 20));
  (0%nat, Ad (R 0) (Ad (R 5) (R 30)));
  (15%nat, Xo (R 15) (R 0));
  (15%nat, Or (SR (R 15) 8) (SL (R 15) 24));
  (10%nat, Ad (R 10) (R 15));
  (5%nat, Xo (R 5) (R 10));
  (5%nat, Or (SR (R 5) 7) (SL (R 5) 25));
  (1%nat, Ad (R 1) (Ad (R 6) (R 19)));
  (12%nat, Xo (R 12) (R 1));
  (12%nat, Or (SR (R 12) 16) (SL (R 12) 16));
  (11%nat, Ad (R 11) (R 12));
  (6%nat, Xo (R 6) (R 11));
  (6%nat, Or (SR (R 6) 12) (SL (R 6) 20));
  (1%nat, Ad (R 1) (Ad (R 6) (R 22)));
  (12%nat, Xo (R 12) (R 1));
  (12%nat, Or (SR (R 12) 8) (SL (R 12) 24));
  (11%nat, Ad (R 11) (R 12));
  (6%nat, Xo (R 6) (R 11));
  (6%nat, Or (SR (R 6) 7) (SL (R 6) 25));
  (2%nat, Ad (R 2) (Ad (R 7) (R 23)));
  (13%nat, Xo (R 13) (R 2));
  (13%nat, Or (SR (R 13) 16) (SL (R 13) 16));
  (8%nat, Ad (R 8) (R 13));
  (7%nat, Xo (R 7) (R 8));
  (7%nat, Or (SR (R 7) 12) (SL (R 7) 20));
  (2%nat, Ad (R 2) (Ad (R 7) (R 17)));
  (13%nat, Xo (R 13) (R 2));
  (13%nat, Or (SR (R 13) 8) (SL (R 13) 24));
  (8%nat, Ad (R 8) (R 13));
  (7%nat, Xo (R 7) (R 8));
  (7%nat, Or (SR (R 7) 7) (SL (R 7) 25));
  (3%nat, Ad (R 3) (Ad (R 4) (R 25)));
  (14%nat, Xo (R 14) (R 3));
  (14%nat, Or (SR (R 14) 16) (SL (R 14) 16));
  (9%nat, Ad (R 9) (R 14));
  (4%nat, Xo (R 4) (R 9));
  (4%nat, Or (SR (R 4) 12) (SL (R 4) 20));
  (3%nat, Ad (R 3) (Ad (R 4) (R 20)));
  (14%nat, Xo (R 14) (R 3));
  (14%nat, Or (SR (R 14) 8) (SL (R 14) 24));
  (9%nat, Ad (R 9) (R 14));
  (4%nat, Xo (R 4) (R 9));
  (4%nat, Or (SR (R 4) 7) (SL (R 4) 25));
  (0%nat, Ad (R 0) (Ad (R 4) (R 23)));
  (12%nat, Xo (R 12) (R 0));
  (12%nat, Or (SR (R 12) 16) (SL (R 12) 16));
  (8%nat, Ad (R 8) (R 12));
  (4%nat, Xo (R 4) (R 8));
  (4%nat, Or (SR (R 4) 12) (SL (R 4) 20));
  (0%nat, Ad (R 0) (Ad (R 4) (R 25)));
  (12%nat, Xo (R 12) (R 0));
  (12%nat, Or (SR (R 12) 8) (SL (R 12) 24));
  (8%nat, Ad (R 8) (R 12));
  (4%nat, Xo (R 4) (R 8));
  (4%nat, Or (SR (R 4) 7) (SL (R 4) 25));
  (1%nat, Ad (R 1) (Ad (R 5) (R 19)));
  (13%nat, Xo (R 13) (R 1));
  (13%nat, Or (SR (R 13) 16) (SL (R 13) 16));
  (9%nat, Ad (R 9) (R 13));
  (5%nat, Xo (R 5) (R 9));
  (5%nat, Or (SR (R 5) 12) (SL (R 5) 20));
  (1%nat, Ad (R 1) (Ad (R 5) (R 17)));
  (13%nat, Xo (R 13) (R 1));
  (13%nat, Or (SR (R 13) 8) (SL (R 13) 24));
  (9%nat, Ad (R 9) (R 13));
  (5%nat, Xo (R 5) (R 9));
  (5%nat, Or (SR (R 5) 7) (SL (R 5) 25));
  (2%nat, Ad (R 2) (Ad (R 6) (R 29)));
  (14%nat, Xo (R 14) (R 2));
  (14%nat, Or (SR (R 14) 16) (SL (R 14) 16));
  (10%nat, Ad (R 10) (R 14));
  (6%nat, Xo (R 6) (R 10));
  (6%nat, Or (SR (R 6) 12) (SL (R 6) 20));
  (2%nat, Ad (R 2) (Ad (R 6) (R 28)));
  (14%nat, Xo (R 14) (R 2));
  (14%nat, Or (SR (R 14) 8) (SL (R 14) 24));
  (10%nat, Ad (R 10) (R 14));
  (6%nat, Xo (R 6) (R 10));
  (6%nat, Or (SR (R 6) 7) (SL (R 6) 25));
  (3%nat, Ad (R 3) (Ad (R 7) (R 27)));
  (15%nat, Xo (R 15) (R 3));
  (15%nat, Or (SR (R 15) 16) (SL (R 15) 16));
  (11%nat, Ad (R 11) (R 15));
  (7%nat, Xo (R 7) (R 11));
  (7%nat, Or (SR (R 7) 12) (SL (R 7) 20));
  (3%nat, Ad (R 3) (Ad (R 7) (R 30)));
  (15%nat, Xo (R 15) (R 3));
  (15%nat, Or (SR (R 15) 8) (SL (R 15) 24));
  (11%nat, Ad (R 11) (R 15));
  (7%nat, Xo (R 7) (R 11));
  (7%nat, Or (SR (R 7) 7) (SL (R 7) 25));
  (0%nat, Ad (R 0) (Ad (R 5) (R 18)));
  (15%nat, Xo (R 15) (R 0));
  (15%nat, Or (SR (R 15) 16) (SL (R 15) 16));
  (10%nat, Ad (R 10) (R 15));
  (5%nat, Xo (R 5) (R 10));
  (5%nat, Or (SR (R 5) 12) (SL (R 5) 20));
  (0%nat, Ad (R 0) (Ad (R 5) (R 22)));
  (15%nat, Xo (R 15) (R 0));
  (15%nat, Or (SR (R 15) 8) (SL (R 15) 24));
  (10%nat, Ad (R 10) (R 15));
  (5%nat, Xo (R 5) (R 10));
  (5%nat, Or (SR (R 5) 7) (SL (R 5) 25));
  (1%nat, Ad (R 1) (Ad (R 6) (R 21)));
  (12%nat, Xo (R 12) (R 1));
  (12%nat, Or (SR (R 12) 16) (SL (R 12) 16));
  (11%nat, Ad (R 11) (R 12));
  (6%nat, Xo (R 6) (R 11));
  (6%nat, Or (SR (R 6) 12) (SL (R 6) 20));
  (1%nat, Ad (R 1) (Ad (R 6) (R 26)));
  (12%nat, Xo (R 12) (R 1));
  (12%nat, Or (SR (R 12) 8) (SL (R 12) 24));
  (11%nat, Ad (R 11) (R 12));
  (6%nat, Xo (R 6) (R 11));
  (6%nat, Or (SR (R 6) 7) (SL (R 6) 25));
  (2%nat, Ad (R 2) (Ad (R 7) (R 20)));
  (13%nat, Xo (R 13) (R 2));
  (13%nat, Or (SR (R 13) 16) (SL (R 13) 16));
  (8%nat, Ad (R 8) (R 13));
  (7%nat, Xo (R 7) (R 8));
  (7%nat, Or (SR (R 7) 12) (SL (R 7) 20));
  (2%nat, Ad (R 2) (Ad (R 7) (R 16)));
  (13%nat, Xo (R 13) (R 2));
  (13%nat, Or (SR (R 13) 8) (SL (R 13) 24));
  (8%nat, Ad (R 8) (R 13));
  (7%nat, Xo (R 7) (R 8));
  (7%nat, Or (SR (R 7) 7) (SL (R 7) 25));
  (3%nat, Ad (R 3) (Ad (R 4) (R 31)));
  (14%nat, Xo (R 14) (R 3));
  (14%nat, Or (SR (R 14) 16) (SL (R 14) 16));
  (9%nat, Ad (R 9) (R 14));
  (4%nat, Xo (R 4) (R 9));
  (4%nat, Or (SR (R 4) 12) (SL (R 4) 20));
  (3%nat, Ad (R 3) (Ad (R 4) (R 24)));
  (14%nat, Xo (R 14) (R 3));
  (14%nat, Or (SR (R 14) 8) (SL (R 14) 24));
  (9%nat, Ad (R 9) (R 14));
  (4%nat, Xo (R 4) (R 9));
  (4%nat, Or (SR (R 4) 7) (SL (R 4) 25));
  (0%nat, Ad (R 0) (Ad (R 4) (R 25)));
  (12%nat, Xo (R 12) (R 0));
  (12%nat, Or (SR (R 12) 16) (SL (R 12) 16));
  (8%nat, Ad (R 8) (R 12));
  (4%nat, Xo (R 4) (R 8));
  (4%nat, Or (SR (R 4) 12) (SL (R 4) 20));
  (0%nat, Ad (R 0) (Ad (R 4) (R 16)));
  (12%nat, Xo (R 12) (R 0));
  (12%nat, Or (SR (R 12) 8) (SL (R 12) 24));
  (8%nat, Ad (R 8) (R 12));
  (4%nat, Xo (R 4) (R 8));
  (4%nat, Or (SR (R 4) 7) (SL (R 4) 25));
  (1%nat, Ad (R 1) (Ad (R 5) (R 21)));
  (13%nat, Xo (R 13) (R 1));
  (13%nat, Or (SR (R 13) 16) (SL (R 13) 16));
  (9%nat, Ad (R 9) (R 13));
  (5%nat, Xo (R 5) (R 9));
  (5%nat, Or (SR (R 5) 12) (SL (R 5) 20));
  (1%nat, Ad (R 1) (Ad (R 5) (R 23)));
  (13%nat, Xo (R 13) (R 1));
  (13%nat, Or (SR (R 13) 8) (SL (R 13) 24));
  (9%nat, Ad (R 9) (R 13));
  (5%nat, Xo (R 5) (R 9));
  (5%nat, Or (SR (R 5) 7) (SL (R 5) 25));
  (2%nat, Ad (R 2) (Ad (R 6) (R 18)));
  (14%nat, Xo (R 14) (R 2));
  (14%nat, Or (SR (R 14) 16) (SL (R 14) 16));
  (10%nat, Ad (R 10) (R 14));
  (6%nat, Xo (R 6) (R 10));
  (6%nat, Or (SR (R 6) 12) (SL (R 6) 20));
  (2%nat, Ad (R 2) (Ad (R 6) (R 20)));
  (14%nat, Xo (R 14) (R 2));
  (14%nat, Or (SR (R 14) 8) (SL (R 14) 24));
  (10%nat, Ad (R 10) (R 14));
  (6%nat, Xo (R 6) (R 10));
  (6%nat, Or (SR (R 6) 7) (SL (R 6) 25));
  (3%nat, Ad (R 3) (Ad (R 7) (R 26)));
  (15%nat, Xo (R 15) (R 3));
  (15%nat, Or (SR (R 15) 16) (SL (R 15) 16));
  (11%nat, Ad (R 11) (R 15));
  (7%nat, Xo (R 7) (R 11));
  (7%nat, Or (SR (R 7) 12) (SL (R 7) 20));
  (3%nat, Ad (R 3) (Ad (R 7) (R 31)));
  (15%nat, Xo (R 15) (R 3));
  (15%nat, Or (SR (R 15) 8) (SL (R 15) 24));
  (11%nat, Ad (R 11) (R 15));
  (7%nat, Xo (R 7) (R 11));
  (7%nat, Or (SR (R 7) 7) (SL (R 7) 25));
  (0%nat, Ad (R 0) (Ad (R 5) (R 30)));
  (15%nat, Xo (R 15) (R 0));
  (15%nat, Or (SR (R 15) 16) (SL (R 15) 16));
  (10%nat, Ad (R 10) (R 15));
  (5%nat, Xo (R 5) (R 10));
  (5%nat, Or (SR (R 5) 12) (SL (R 5) 20));
  (0%nat, Ad (R 0) (Ad (R 5) (R 17)));
  (15%nat, Xo (R 15) (R 0));
  (15%nat, Or (SR (R 15) 8) (SL (R 15) 24));
  (10%nat, Ad (R 10) (R 15));
  (5%nat, Xo (R 5) (R 10));
  (5%nat, Or (SR (R 5) 7) (SL (R 5) 25));
  (1%nat, Ad (R 1) (Ad (R 6) (R 27)));
  (12%nat, Xo (R 12) (R 1));
  (12%nat, Or (SR (R 12) 16) (SL (R 12) 16));
  (11%nat, Ad (R 11) (R 12));
  (6%nat, Xo (R 6) (R 11));
  (6%nat, Or (SR (R 6) 12) (SL (R 6) 20));
  (1%nat, Ad (R 1) (Ad (R 6) (R 28)));
  (12%nat, Xo (R 12) (R 1));
  (12%nat, Or (SR (R 12) 8) (SL (R 12) 24));
  (11%nat, Ad (R 11) (R 12));
  (6%nat, Xo (R 6) (R 11));
  (6%nat, Or (SR (R 6) 7) (SL (R 6) 25));
  (2%nat, Ad (R 2) (Ad (R 7) (R 22)));
  (13%nat, Xo (R 13) (R 2));
  (13%nat, Or (SR (R 13) 16) (SL (R 13) 16));
  (8%nat, Ad (R 8) (R 13));
  (7%nat, Xo (R 7) (R 8));
  (7%nat, Or (SR (R 7) 12) (SL (R 7) 20));
  (2%nat, Ad (R 2) (Ad (R 7) (R 24)));
  (13%nat, Xo (R 13) (R 2));
  (13%nat, Or (SR (R 13) 8) (SL (R 13) 24));
  (8%nat, Ad (R 8) (R 13));
  (7%nat, Xo (R 7) (R 8));
  (7%nat, Or (SR (R 7) 7) (SL (R 7) 25));
  (3%nat, Ad (R 3) (Ad (R 4) (R 19)));
  (14%nat, Xo (R 14) (R 3));
  (14%nat, Or (SR (R 14) 16) (SL (R 14) 16));
  (9%nat, Ad (R 9) (R 14));
  (4%nat, Xo (R 4) (R 9));
  (4%nat, Or (SR (R 4) 12) (SL (R 4) 20));
  (3%nat, Ad (R 3) (Ad (R 4) (R 29)));
  (14%nat, Xo (R 14) (R 3));
  (14%nat, Or (SR (R 14) 8) (SL (R 14) 24));
  (9%nat, Ad (R 9) (R 14));
  (4%nat, Xo (R 4) (R 9));
  (4%nat, Or (SR (R 4) 7) (SL (R 4) 25));
  (0%nat, Ad (R 0) (Ad (R 4) (R 18)));
  (12%nat, Xo (R 12) (R 0));
  (12%nat, Or (SR (R 12) 16) (SL (R 12) 16));
  (8%nat, Ad (R 8) (R 12));
  (4%nat, Xo (R 4) (R 8));
  (4%nat, Or (SR (R 4) 12) (SL (R 4) 20));
  (0%nat, Ad (R 0) (Ad (R 4) (R 28)));
  (12%nat, Xo (R 12) (R 0));
  (12%nat, Or (SR (R 12) 8) (SL (R 12) 24));
  (8%nat, Ad (R 8) (R 12));
  (4%nat, Xo (R 4) (R 8));
  (4%nat, Or (SR (R 4) 7) (SL (R 4) 25));
  (1%nat, Ad (R 1) (Ad (R 5) (R 22)));
  (13%nat, Xo (R 13) (R 1));
  (13%nat, Or (SR (R 13) 16) (SL (R 13) 16));
  (9%nat, Ad (R 9) (R 13));
  (5%nat, Xo (R 5) (R 9));
  (5%nat, Or (SR (R 5) 12) (SL (R 5) 20));
  (1%nat, Ad (R 1) (Ad (R 5) (R 26)));
  (13%nat, Xo (R 13) (R 1));
  (13%nat, Or (SR (R 13) 8) (SL (R 13) 24));
  (9%nat, Ad (R 9) (R 13));
  (5%nat, Xo (R 5) (R 9));
  (5%nat, Or (SR (R 5) 7) (SL (R 5) 25));
  (2%nat, Ad (R 2) (Ad (R 6) (R 16)));
  (14%nat, Xo (R 14) (R 2));
  (14%nat, Or (SR (R 14) 16) (SL (R 14) 16));
  (10%nat, Ad (R 10) (R 14));
  (6%nat, Xo (R 6) (R 10));
  (6%nat, Or (SR (R 6) 12) (SL (R 6) 20));
  (2%nat, Ad (R 2) (Ad (R 6) (R 27)));
  (14%nat, Xo (R 14) (R 2));
  (14%nat, Or (SR (R 14) 8) (SL (R 14) 24));
  (10%nat, Ad (R 10) (R 14));
  (6%nat, Xo (R 6) (R 10));
  (6%nat, Or (SR (R 6) 7) (SL (R 6) 25));
  (3%nat, Ad (R 3) (Ad (R 7) (R 24)));
  (15%nat, Xo (R 15) (R 3));
  (15%nat, Or (SR (R 15) 16) (SL (R 15) 16));
  (11%nat, Ad (R 11) (R 15));
  (7%nat, Xo (R 7) (R 11));
  (7%nat, Or (SR (R 7) 12) (SL (R 7) 20));
  (3%nat, Ad (R 3) (Ad (R 7) (R 19)));
  (15%nat, Xo (R 15) (R 3));
  (15%nat, Or (SR (R 15) 8) (SL (R 15) 24));
  (11%nat, Ad (R 11) (R 15));
  (7%nat, Xo (R 7) (R 11));
  (7%nat, Or (SR (R 7) 7) (SL (R 7) 25));
  (0%nat, Ad (R 0) (Ad (R 5) (R 20)));
  (15%nat, Xo (R 15) (R 0));
  (15%nat, Or (SR (R 15) 16) (SL (R 15) 16));
  (10%nat, Ad (R 10) (R 15));
  (5%nat, Xo (R 5) (R 10));
  (5%nat, Or (SR (R 5) 12) (SL (R 5) 20));
  (0%nat, Ad (R 0) (Ad (R 5) (R 29)));
  (15%nat, Xo (R 15) (R 0));
  (15%nat, Or (SR (R 15) 8) (SL (R 15) 24));
  (10%nat, Ad (R 10) (R 15));
  (5%nat, Xo (R 5) (R 10));
  (5%nat, Or (SR (R 5) 7) (SL (R 5) 25));
  (1%nat, Ad (R 1) (Ad (R 6) (R 23)));
  (12%nat, Xo (R 12) (R 1));
  (12%nat, Or (SR (R 12) 16) (SL (R 12) 16));
  (11%nat, Ad (R 11) (R 12));
  (6%nat, Xo (R 6) (R 11));
  (6%nat, Or (SR (R 6) 12) (SL (R 6) 20));
  (1%nat, Ad (R 1) (Ad (R 6) (R 21)));
  (12%nat, Xo (R 12) (R 1));
  (12%nat, Or (SR (R 12) 8) (SL (R 12) 24));
  (11%nat, Ad (R 11) (R 12));
  (6%nat, Xo (R 6) (R 11));
  (6%nat, Or (SR (R 6) 7) (SL (R 6) 25));
  (2%nat, Ad (R 2) (Ad (R 7) (R 31)));
  (13%nat, Xo (R 13) (R 2));
  (13%nat, Or (SR (R 13) 16) (SL (R 13) 16));
  (8%nat, Ad (R 8) (R 13));
  (7%nat, Xo (R 7) (R 8));
  (7%nat, Or (SR (R 7) 12) (SL (R 7) 20));
  (2%nat, Ad (R 2) (Ad (R 7) (R 30)));
  (13%nat, Xo (R 13) (R 2));
  (13%nat, Or (SR (R 13) 8) (SL (R 13) 24));
  (8%nat, Ad (R 8) (R 13));
  (7%nat, Xo (R 7) (R 8));
  (7%nat, Or (SR (R 7) 7) (SL (R 7) 25));
  (3%nat, Ad (R 3) (Ad (R 4) (R 17)));
  (14%nat, Xo (R 14) (R 3));
  (14%nat, Or (SR (R 14) 16) (SL (R 14) 16));
  (9%nat, Ad (R 9) (R 14));
  (4%nat, Xo (R 4) (R 9));
  (4%nat, Or (SR (R 4) 12) (SL (R 4) 20));
  (3%nat, Ad (R 3) (Ad (R 4) (R 25)));
  (14%nat, Xo (R 14) (R 3));
  (14%nat, Or (SR (R 14) 8) (SL (R 14) 24));
  (9%nat, Ad (R 9) (R 14));
  (4%nat, Xo (R 4) (R 9));
  (4%nat, Or (SR (R 4) 7) (SL (R 4) 25));
  (0%nat, Ad (R 0) (Ad (R 4) (R 28)));
  (12%nat, Xo (R 12) (R 0));
  (12%nat, Or (SR (R 12) 16) (SL (R 12) 16));
  (8%nat, Ad (R 8) (R 12));
  (4%nat, Xo (R 4) (R 8));
  (4%nat, Or (SR (R 4) 12) (SL (R 4) 20));
  (0%nat, Ad (R 0) (Ad (R 4) (R 21)));
  (12%nat, Xo (R 12) (R 0));
  (12%nat, Or (SR (R 12) 8) (SL (R 12) 24));
  (8%nat, Ad (R 8) (R 12));
  (4%nat, Xo (R 4) (R 8));
  (4%nat, Or (SR (R 4) 7) (SL (R 4) 25));
  (1%nat, Ad (R 1) (Ad (R 5) (R 17)));
  (13%nat, Xo (R 13) (R 1));
  (13%nat, Or (SR (R 13) 16) (SL (R 13) 16));
  (9%nat, Ad (R 9) (R 13));
  (5%nat, Xo (R 5) (R 9));
  (5%nat, Or (SR (R 5) 12) (SL (R 5) 20));
  (1%nat, Ad (R 1) (Ad (R 5) (R 31)));
  (13%nat, Xo (R 13) (R 1));
  (13%nat, Or (SR (R 13) 8) (SL (R 13) 24));
  (9%nat, Ad (R 9) (R 13));
  (5%nat, Xo (R 5) (R 9));
  (5%nat, Or (SR (R 5) 7) (SL (R 5) 25));
  (2%nat, Ad (R 2) (Ad (R 6) (R 30)));
  (14%nat, Xo (R 14) (R 2));
  (14%nat, Or (SR (R 14) 16) (SL (R 14) 16));
  (10%nat, Ad (R 10) (R 14));
  (6%nat, Xo (R 6) (R 10));
  (6%nat, Or (SR (R 6) 12) (SL (R 6) 20));
  (2%nat, Ad (R 2) (Ad (R 6) (R 29)));
  (14%nat, Xo (R 14) (R 2));
  (14%nat, Or (SR (R 14) 8) (SL (R 14) 24));
  (10%nat, Ad (R 10) (R 14));
  (6%nat, Xo (R 6) (R 10));
  (6%nat, Or (SR (R 6) 7) (SL (R 6) 25));
  (3%nat, Ad (R 3) (Ad (R 7) (R 20)));
  (15%nat, Xo (R 15) (R 3));
  (15%nat, Or (SR (R 15) 16) (SL (R 15) 16));
  (11%nat, Ad (R 11) (R 15));
  (7%nat, Xo (R 7) (R 11));
  (7%nat, Or (SR (R 7) 12) (SL (R 7) 20));
  (3%nat, Ad (R 3) (Ad (R 7) (R 26)));
  (15%nat, Xo (R 15) (R 3));
  (15%nat, Or (SR (R 15) 8) (SL (R 15) 24));
  (11%nat, Ad (R 11) (R 15));
  (7%nat, Xo (R 7) (R 11));
  (7%nat, Or (SR (R 7) 7) (SL (R 7) 25));
  (0%nat, Ad (R 0) (Ad (R 5) (R 16)));
  (15%nat, Xo (R 15) (R 0));
  (15%nat, Or (SR (R 15) 16) (SL (R 15) 16));
  (10%nat, Ad (R 10) (R 15));
  (5%nat, Xo (R 5) (R 10));
  (5%nat, Or (SR (R 5) 12) (SL (R 5) 20));
  (0%nat, Ad (R 0) (Ad (R 5) (R 23)));
  (15%nat, Xo (R 15) (R 0));
  (15%nat, Or (SR (R 15) 8) (SL (R 15) 24));
  (10%nat, Ad (R 10) (R 15));
  (5%nat, Xo (R 5) (R 10));
  (5%nat, Or (SR (R 5) 7) (SL (R 5) 25));
  (1%nat, Ad (R 1) (Ad (R 6) (R 22)));
  (12%nat, Xo (R 12) (R 1));
  (12%nat, Or (SR (R 12) 16) (SL (R 12) 16));
  (11%nat, Ad (R 11) (R 12));
  (6%nat, Xo (R 6) (R 11));
  (6%nat, Or (SR (R 6) 12) (SL (R 6) 20));
  (1%nat, Ad (R 1) (Ad (R 6) (R 19)));
  (12%nat, Xo (R 12) (R 1));
  (12%nat, Or (SR (R 12) 8) (SL (R 12) 24));
  (11%nat, Ad (R 11) (R 12));
  (6%nat, Xo (R 6) (R 11));
  (6%nat, Or (SR (R 6) 7) (SL (R 6) 25));
  (2%nat, Ad (R 2) (Ad (R 7) (R 25)));
  (13%nat, Xo (R 13) (R 2));
  (13%nat, Or (SR (R 13) 16) (SL (R 13) 16));
  (8%nat, Ad (R 8) (R 13));
  (7%nat, Xo (R 7) (R 8));
  (7%nat, Or (SR (R 7) 12) (SL (R 7) 20));
  (2%nat, Ad (R 2) (Ad (R 7) (R 18)));
  (13%nat, Xo (R 13) (R 2));
  (13%nat, Or (SR (R 13) 8) (SL (R 13) 24));
  (8%nat, Ad (R 8) (R 13));
  (7%nat, Xo (R 7) (R 8));
  (7%nat, Or (SR (R 7) 7) (SL (R 7) 25));
  (3%nat, Ad (R 3) (Ad (R 4) (R 24)));
  (14%nat, Xo (R 14) (R 3));
  (14%nat, Or (SR (R 14) 16) (SL (R 14) 16));
  (9%nat, Ad (R 9) (R 14));
  (4%nat, Xo (R 4) (R 9));
  (4%nat, Or (SR (R 4) 12) (SL (R 4) 20));
  (3%nat, Ad (R 3) (Ad (R 4) (R 27)));
  (14%nat, Xo (R 14) (R 3));
  (14%nat, Or (SR (R 14) 8) (SL (R 14) 24));
  (9%nat, Ad (R 9) (R 14));
  (4%nat, Xo (R 4) (R 9));
  (4%nat, Or (SR (R 4) 7) (SL (R 4) 25));
  (0%nat, Ad (R 0) (Ad (R 4) (R 29)));
  (12%nat, Xo (R 12) (R 0));
  (12%nat, Or (SR (R 12) 16) (SL (R 12) 16));
  (8%nat, Ad (R 8) (R 12));
  (4%nat, Xo (R 4) (R 8));
  (4%nat, Or (SR (R 4) 12) (SL (R 4) 20));
  (0%nat, Ad (R 0) (Ad (R 4) (R 27)));
  (12%nat, Xo (R 12) (R 0));
  (12%nat, Or (SR (R 12) 8) (SL (R 12) 24));
  (8%nat, Ad (R 8) (R 12));
  (4%nat, Xo (R 4) (R 8));
  (4%nat, Or (SR (R 4) 7) (SL (R 4) 25));
  (1%nat, Ad (R 1) (Ad (R 5) (R 23)));
  (13%nat, Xo (R 13) (R 1));
  (13%nat, Or (SR (R 13) 16) (SL (R 13) 16));
  (9%nat, Ad (R 9) (R 13));
  (5%nat, Xo (R 5) (R 9));
  (5%nat, Or (SR (R 5) 12) (SL (R 5) 20));
  (1%nat, Ad (R 1) (Ad (R 5) (R 30)));
  (13%nat, Xo (R 13) (R 1));
  (13%nat, Or (SR (R 13) 8) (SL (R 13) 24));
  (9%nat, Ad (R 9) (R 13));
  (5%nat, Xo (R 5) (R 9));
  (5%nat, Or (SR (R 5) 7) (SL (R 5) 25));
  (2%nat, Ad (R 2) (Ad (R 6) (R 28)));
  (14%nat, Xo (R 14) (R 2));
  (14%nat, Or (SR (R 14) 16) (SL (R 14) 16));
  (10%nat, Ad (R 10) (R 14));
  (6%nat, Xo (R 6) (R 10));
  (6%nat, Or (SR (R 6) 12) (SL (R 6) 20));
  (2%nat, Ad (R 2) (Ad (R 6) (R 17)));
  (14%nat, Xo (R 14) (R 2));
  (14%nat, Or (SR (R 14) 8) (SL (R 14) 24));
  (10%nat, Ad (R 10) (R 14));
  (6%nat, Xo (R 6) (R 10));
  (6%nat, Or (SR (R 6) 7) (SL (R 6) 25));
  (3%nat, Ad (R 3) (Ad (R 7) (R 19)));
  (15%nat, Xo (R 15) (R 3));
  (15%nat, Or (SR (R 15) 16) (SL (R 15) 16));
  (11%nat, Ad (R 11) (R 15));
  (7%nat, Xo (R 7) (R 11));
  (7%nat, Or (SR (R 7) 12) (SL (R 7) 20));
  (3%nat, Ad (R 3) (Ad (R 7) (R 25)));
  (15%nat, Xo (R 15) (R 3));
  (15%nat, Or (SR (R 15) 8) (SL (R 15) 24));
  (11%nat, Ad (R 11) (R 15));
  (7%nat, Xo (R 7) (R 11));
  (7%nat, Or (SR (R 7) 7) (SL (R 7) 25));
  (0%nat, Ad (R 0) (Ad (R 5) (R 21)));
  (15%nat, Xo (R 15) (R 0));
  (15%nat, Or (SR (R 15) 16) (SL (R 15) 16));
  (10%nat, Ad (R 10) (R 15));
  (5%nat, Xo (R 5) (R 10));
  (5%nat, Or (SR (R 5) 12) (SL (R 5) 20));
  (0%nat, Ad (R 0) (Ad (R 5) (R 16)));
  (15%nat, Xo (R 15) (R 0));
  (15%nat, Or (SR (R 15) 8) (SL (R 15) 24));
  (10%nat, Ad (R 10) (R 15));
  (5%nat, Xo (R 5) (R 10));
  (5%nat, Or (SR (R 5) 7) (SL (R 5) 25));
  (1%nat, Ad (R 1) (Ad (R 6) (R 31)));
  (12%nat, Xo (R 12) (R 1));
  (12%nat, Or (SR (R 12) 16) (SL (R 12) 16));
  (11%nat, Ad (R 11) (R 12));
  (6%nat, Xo (R 6) (R 11));
  (6%nat, Or (SR (R 6) 12) (SL (R 6) 20));
  (1%nat, Ad (R 1) (Ad (R 6) (R 20)));
  (12%nat, Xo (R 12) (R 1));
  (12%nat, Or (SR (R 12) 8) (SL (R 12) 24));
  (11%nat, Ad (R 11) (R 12));
  (6%nat, Xo (R 6) (R 11));
  (6%nat, Or (SR (R 6) 7) (SL (R 6) 25));
  (2%nat, Ad (R 2) (Ad (R 7) (R 24)));
  (13%nat, Xo (R 13) (R 2));
  (13%nat, Or (SR (R 13) 16) (SL (R 13) 16));
  (8%nat, Ad (R 8) (R 13));
  (7%nat, Xo (R 7) (R 8));
  (7%nat, Or (SR (R 7) 12) (SL (R 7) 20));
  (2%nat, Ad (R 2) (Ad (R 7) (R 22)));
  (13%nat, Xo (R 13) (R 2));
  (13%nat, Or (SR (R 13) 8) (SL (R 13) 24));
  (8%nat, Ad (R 8) (R 13));
  (7%nat, Xo (R 7) (R 8));
  (7%nat, Or (SR (R 7) 7) (SL (R 7) 25));
  (3%nat, Ad (R 3) (Ad (R 4) (R 18)));
  (14%nat, Xo (R 14) (R 3));
  (14%nat, Or (SR (R 14) 16) (SL (R 14) 16));
  (9%nat, Ad (R 9) (R 14));
  (4%nat, Xo (R 4) (R 9));
  (4%nat, Or (SR (R 4) 12) (SL (R 4) 20));
  (3%nat, Ad (R 3) (Ad (R 4) (R 26)));
  (14%nat, Xo (R 14) (R 3));
  (14%nat, Or (SR (R 14) 8) (SL (R 14) 24));
  (9%nat, Ad (R 9) (R 14));
  (4%nat, Xo (R 4) (R 9));
  (4%nat, Or (SR (R 4) 7) (SL (R 4) 25));
  (0%nat, Ad (R 0) (Ad (R 4) (R 22)));
  (12%nat, Xo (R 12) (R 0));
  (12%nat, Or (SR (R 12) 16) (SL (R 12) 16));
  (8%nat, Ad (R 8) (R 12));
  (4%nat, Xo (R 4) (R 8));
  (4%nat, Or (SR (R 4) 12) (SL (R 4) 20));
  (0%nat, Ad (R 0) (Ad (R 4) (R 31)));
  (12%nat, Xo (R 12) (R 0));
  (12%nat, Or (SR (R 12) 8) (SL (R 12) 24));
  (8%nat, Ad (R 8) (R 12));
  (4%nat, Xo (R 4) (R 8));
  (4%nat, Or (SR (R 4) 7) (SL (R 4) 25));
  (1%nat, Ad (R 1) (Ad (R 5) (R 30)));
  (13%nat, Xo (R 13) (R 1));
  (13%nat, Or (SR (R 13) 16) (SL (R 13) 16));
  (9%nat, Ad (R 9) (R 13));
  (5%nat, Xo (R 5) (R 9));
  (5%nat, Or (SR (R 5) 12) (SL (R 5) 20));
  (1%nat, Ad (R 1) (Ad (R 5) (R 25)));
  (13%nat, Xo (R 13) (R 1));
  (13%nat, Or (SR (R 13) 8) (SL (R 13) 24));
  (9%nat, Ad (R 9) (R 13));
  (5%nat, Xo (R 5) (R 9));
  (5%nat, Or (SR (R 5) 7) (SL (R 5) 25));
  (2%nat, Ad (R 2) (Ad (R 6) (R 27)));
  (14%nat, Xo (R 14) (R 2));
  (14%nat, Or (SR (R 14) 16) (SL (R 14) 16));
  (10%nat, Ad (R 10) (R 14));
  (6%nat, Xo (R 6) (R 10));
  (6%nat, Or (SR (R 6) 12) (SL (R 6) 20));
  (2%nat, Ad (R 2) (Ad (R 6) (R 19)));
  (14%nat, Xo (R 14) (R 2));
  (14%nat, Or (SR (R 14) 8) (SL (R 14) 24));
  (10%nat, Ad (R 10) (R 14));
  (6%nat, Xo (R 6) (R 10));
  (6%nat, Or (SR (R 6) 7) (SL (R 6) 25));
  (3%nat, Ad (R 3) (Ad (R 7) (R 16)));
  (15%nat, Xo (R 15) (R 3));
  (15%nat, Or (SR (R 15) 16) (SL (R 15) 16));
  (11%nat, Ad (R 11) (R 15));
  (7%nat, Xo (R 7) (R 11));
  (7%nat, Or (SR (R 7) 12) (SL (R 7) 20));
  (3%nat, Ad (R 3) (Ad (R 7) (R 24)));
  (15%nat, Xo (R 15) (R 3));
  (15%nat, Or (SR (R 15) 8) (SL (R 15) 24));
  (11%nat, Ad (R 11) (R 15));
  (7%nat, Xo (R 7) (R 11));
  (7%nat, Or (SR (R 7) 7) (SL (R 7) 25));
  (0%nat, Ad (R 0) (Ad (R 5) (R 28)));
  (15%nat, Xo (R 15) (R 0));
  (15%nat, Or (SR (R 15) 16) (SL (R 15) 16));
  (10%nat, Ad (R 10) (R 15));
  (5%nat, Xo (R 5) (R 10));
  (5%nat, Or (SR (R 5) 12) (SL (R 5) 20));
  (0%nat, Ad (R 0) (Ad (R 5) (R 18)));
  (15%nat, Xo (R 15) (R 0));
  (15%nat, Or (SR (R 15) 8) (SL (R 15) 24));
  (10%nat, Ad (R 10) (R 15));
  (5%nat, Xo (R 5) (R 10));
  (5%nat, Or (SR (R 5) 7) (SL (R 5) 25));
  (1%nat, Ad (R 1) (Ad (R 6) (R 29)));
  (12%nat, Xo (R 12) (R 1));
  (12%nat, Or (SR (R 12) 16) (SL (R 12) 16));
  (11%nat, Ad (R 11) (R 12));
  (6%nat, Xo (R 6) (R 11));
  (6%nat, Or (SR (R 6) 12) (SL (R 6) 20));
  (1%nat, Ad (R 1) (Ad (R 6) (R 23)));
  (12%nat, Xo (R 12) (R 1));
  (12%nat, Or (SR (R 12) 8) (SL (R 12) 24));
  (11%nat, Ad (R 11) (R 12));
  (6%nat, Xo (R 6) (R 11));
  (6%nat, Or (SR (R 6) 7) (SL (R 6) 25));
  (2%nat, Ad (R 2) (Ad (R 7) (R 17)));
  (13%nat, Xo (R 13) (R 2));
  (13%nat, Or (SR (R 13) 16) (SL (R 13) 16));
  (8%nat, Ad (R 8) (R 13));
  (7%nat, Xo (R 7) (R 8));
  (7%nat, Or (SR (R 7) 12) (SL (R 7) 20));
  (2%nat, Ad (R 2) (Ad (R 7) (R 20)));
  (13%nat, Xo (R 13) (R 2));
  (13%nat, Or (SR (R 13) 8) (SL (R 13) 24));
  (8%nat, Ad (R 8) (R 13));
  (7%nat, Xo (R 7) (R 8));
  (7%nat, Or (SR (R 7) 7) (SL (R 7) 25));
  (3%nat, Ad (R 3) (Ad (R 4) (R 26)));
  (14%nat, Xo (R 14) (R 3));
  (14%nat, Or (SR (R 14) 16) (SL (R 14) 16));
  (9%nat, Ad (R 9) (R 14));
  (4%nat, Xo (R 4) (R 9));
  (4%nat, Or (SR (R 4) 12) (SL (R 4) 20));
  (3%nat, Ad (R 3) (Ad (R 4) (R 21)));
  (14%nat, Xo (R 14) (R 3));
  (14%nat, Or (SR (R 14) 8) (SL (R 14) 24));
  (9%nat, Ad (R 9) (R 14));
  (4%nat, Xo (R 4) (R 9));
  (4%nat, Or (SR (R 4) 7) (SL (R 4) 25));
  (0%nat, Ad (R 0) (Ad (R 4) (R 26)));
  (12%nat, Xo (R 12) (R 0));
  (12%nat, Or (SR (R 12) 16) (SL (R 12) 16));
  (8%nat, Ad (R 8) (R 12));
  (4%nat, Xo (R 4) (R 8));
  (4%nat, Or (SR (R 4) 12) (SL (R 4) 20));
  (0%nat, Ad (R 0) (Ad (R 4) (R 18)));
  (12%nat, Xo (R 12) (R 0));
  (12%nat, Or (SR (R 12) 8) (SL (R 12) 24));
  (8%nat, Ad (R 8) (R 12));
  (4%nat, Xo (R 4) (R 8));
  (4%nat, Or (SR (R 4) 7) (SL (R 4) 25));
  (1%nat, Ad (R 1) (Ad (R 5) (R 24)));
  (13%nat, Xo (R 13) (R 1));
  (13%nat, Or (SR (R 13) 16) (SL (R 13) 16));
  (9%nat, Ad (R 9) (R 13));
  (5%nat, Xo (R 5) (R 9));
  (5%nat, Or (SR (R 5) 12) (SL (R 5) 20));
  (1%nat, Ad (R 1) (Ad (R 5) (R 20)));
  (13%nat, Xo (R 13) (R 1));
  (13%nat, Or (SR (R 13) 8) (SL (R 13) 24));
  (9%nat, Ad (R 9) (R 13));
  (5%nat, Xo (R 5) (R 9));
  (5%nat, Or (SR (R 5) 7) (SL (R 5) 25));
  (2%nat, Ad (R 2) (Ad (R 6) (R 23)));
  (14%nat, Xo (R 14) (R 2));
  (14%nat, Or (SR (R 14) 16) (SL (R 14) 16));
  (10%nat, Ad (R 10) (R 14));
  (6%nat, Xo (R 6) (R 10));
  (6%nat, Or (SR (R 6) 12) (SL (R 6) 20));
  (2%nat, Ad (R 2) (Ad (R 6) (R 22)));
  (14%nat, Xo (R 14) (R 2));
  (14%nat, Or (SR (R 14) 8) (SL (R 14) 24));
  (10%nat, Ad (R 10) (R 14));
  (6%nat, Xo (R 6) (R 10));
  (6%nat, Or (SR (R 6) 7) (SL (R 6) 25));
  (3%nat, Ad (R 3) (Ad (R 7) (R 17)));
  (15%nat, Xo (R 15) (R 3));
  (15%nat, Or (SR (R 15) 16) (SL (R 15) 16));
  (11%nat, Ad (R 11) (R 15));
  (7%nat, Xo (R 7) (R 11));
  (7%nat, Or (SR (R 7) 12) (SL (R 7) 20));
  (3%nat, Ad (R 3) (Ad (R 7) (R 21)));
  (15%nat, Xo (R 15) (R 3));
  (15%nat, Or (SR (R 15) 8) (SL (R 15) 24));
  (11%nat, Ad (R 11) (R 15));
  (7%nat, Xo (R 7) (R 11));
  (7%nat, Or (SR (R 7) 7) (SL (R 7) 25));
  (0%nat, Ad (R 0) (Ad (R 5) (R 31)));
  (15%nat, Xo (R 15) (R 0));
  (15%nat, Or (SR (R 15) 16) (SL (R 15) 16));
  (10%nat, Ad (R 10) (R 15));
  (5%nat, Xo (R 5) (R 10));
  (5%nat, Or (SR (R 5) 12) (SL (R 5) 20));
  (0%nat, Ad (R 0) (Ad (R 5) (R 27)));
  (15%nat, Xo (R 15) (R 0));
  (15%nat, Or (SR (R 15) 8) (SL (R 15) 24));
  (10%nat, Ad (R 10) (R 15));
  (5%nat, Xo (R 5) (R 10));
  (5%nat, Or (SR (R 5) 7) (SL (R 5) 25));
  (1%nat, Ad (R 1) (Ad (R 6) (R 25)));
  (12%nat, Xo (R 12) (R 1));
  (12%nat, Or (SR (R 12) 16) (SL (R 12) 16));
  (11%nat, Ad (R 11) (R 12));
  (6%nat, Xo (R 6) (R 11));
  (6%nat, Or (SR (R 6) 12) (SL (R 6) 20));
  (1%nat, Ad (R 1) (Ad (R 6) (R 30)));
  (12%nat, Xo (R 12) (R 1));
  (12%nat, Or (SR (R 12) 8) (SL (R 12) 24));
  (11%nat, Ad (R 11) (R 12));
  (6%nat, Xo (R 6) (R 11));
  (6%nat, Or (SR (R 6) 7) (SL (R 6) 25));
  (2%nat, Ad (R 2) (Ad (R 7) (R 19)));
  (13%nat, Xo (R 13) (R 2));
  (13%nat, Or (SR (R 13) 16) (SL (R 13) 16));
  (8%nat, Ad (R 8) (R 13));
  (7%nat, Xo (R 7) (R 8));
  (7%nat, Or (SR (R 7) 12) (SL (R 7) 20));
  (2%nat, Ad (R 2) (Ad (R 7) (R 28)));
  (13%nat, Xo (R 13) (R 2));
  (13%nat, Or (SR (R 13) 8) (SL (R 13) 24));
  (8%nat, Ad (R 8) (R 13));
  (7%nat, Xo (R 7) (R 8));
  (7%nat, Or (SR (R 7) 7) (SL (R 7) 25));
  (3%nat, Ad (R 3) (Ad (R 4) (R 29)));
  (14%nat, Xo (R 14) (R 3));
  (14%nat, Or (SR (R 14) 16) (SL (R 14) 16));
  (9%nat, Ad (R 9) (R 14));
  (4%nat, Xo (R 4) (R 9));
  (4%nat, Or (SR (R 4) 12) (SL (R 4) 20));
  (3%nat, Ad (R 3) (Ad (R 4) (R 16)));
  (14%nat, Xo (R 14) (R 3));
  (14%nat, Or (SR (R 14) 8) (SL (R 14) 24));
  (9%nat, Ad (R 9) (R 14));
  (4%nat, Xo (R 4) (R 9));
  (4%nat, Or (SR (R 4) 7) (SL (R 4) 25));
  (32%nat, Xo (R 32) (Xo (R 0) (R 8)));
  (33%nat, Xo (R 33) (Xo (R 1) (R 9)));
  (34%nat, Xo (R 34) (Xo (R 2) (R 10)));
  (35%nat, Xo (R 35) (Xo (R 3) (R 11)));
  (36%nat, Xo (R 36) (Xo (R 4) (R 12)));
  (37%nat, Xo (R 37) (Xo (R 5) (R 13)));
  (38%nat, Xo (R 38) (Xo (R 6) (R 14)));
  (39%nat, Xo (R 39) (Xo (R 7) (R 15)))].

(** CEX/Blake.h:2465-3765 PermuteR12P1024U *)
Definition blake512_U : prog := [
  (16%nat, R 48);
  (17%nat, R 49);
  (18%nat, R 50);
  (19%nat, R 51);
  (20%nat, R 52);
  (21%nat, R 53);
  (22%nat, R 54);
  (23%nat, R 55);
  (24%nat, R 56);
  (25%nat, R 57);
  (26%nat, R 58);
  (27%nat, R 59);
  (28%nat, R 60);
  (29%nat, R 61);
  (30%nat, R 62);
  (31%nat, R 63);
  (0%nat, R 32);
  (1%nat, R 33);
  (2%nat, R 34);
  (3%nat, R 35);
  (4%nat, R 36);
  (5%nat, R 37);
  (6%nat, R 38);
  (7%nat, R 39);
  (8%nat, R 40);
  (9%nat, R 41);
  (10%nat, R 42);
  (11%nat, R 43);
  (12%nat, R 44);
  (13%nat, R 45);
  (14%nat, R 46);
  (15%nat, R 47);
  (0%nat, Ad (R 0) (Ad (R 4) (R 16)));
  (12%nat, Xo (R 12) (R 0));
  (12%nat, Or (SR (R 12) 32) (SL (R 12) 32));
  (8%nat, Ad (R 8) (R 12));
  (4%nat, Xo (R 4) (R 8));
  (4%nat, Or (SR (R 4) 24) (SL (R 4) 40));
  (0%nat, Ad (R 0) (Ad (R 4) (R 17)));
  (12%nat, Xo (R 12) (R 0));
  (12%nat, Or (SR (R 12) 16) (SL (R 12) 48));
  (8%nat, Ad (R 8) (R 12));
  (4%nat, Xo (R 4) (R 8));
  (4%nat, Or (SR (R 4) 63) (SL (R 4) 1));
  (1%nat, Ad (R 1) (Ad (R 5) (R 18)));
  (13%nat, Xo (R 13) (R 1));
  (13%nat, Or (SR (R 13) 32) (SL (R 13) 32));
  (9%nat, Ad (R 9) (R 13));
  (5%nat, Xo (R 5) (R 9));
  (5%nat, Or (SR (R 5) 24) (SL (R 5) 40));
  (1%nat, Ad (R 1) (Ad (R 5) (R 19)));
  (13%nat, Xo (R 13) (R 1));
  (13%nat, Or (SR (R 13) 16) (SL (R 13) 48));
  (9%nat, Ad (R 9) (R 13));
  (5%nat, Xo (R 5) (R 9));
  (5%nat, Or (SR (R 5) 63) (SL (R 5) 1));
  (2%nat, Ad (R 2) (Ad (R 6) (R 20)));
  (14%nat, Xo (R 14) (R 2));
  (14%nat, Or (SR (R 14) 32) (SL (R 14) 32));
  (10%nat, Ad (R 10) (R 14));
  (6%nat, Xo (R 6) (R 10));
  (6%nat, Or (SR (R 6) 24) (SL (R 6) 40));
  (2%nat, Ad (R 2) (Ad (R 6) (R 21)));
  (14%nat, Xo (R 14) (R 2));
  (14%nat, Or (SR (R 14) 16) (SL (R 14) 48));
  (10%nat, Ad (R 10) (R 14));
  (6%nat, Xo (R 6) (R 10));
  (6%nat, Or (SR (R 6) 63) (SL (R 6) 1));
  (3%nat, Ad (R 3) (Ad (R 7) (R 22)));
  (15%nat, Xo (R 15) (R 3));
  (15%nat, Or (SR (R 15) 32) (SL (R 15) 32));
  (11%nat, Ad (R 11) (R 15));
  (7%nat, Xo (R 7) (R 11));
  (7%nat, Or (SR (R 7) 24) (SL (R 7) 40));
  (3%nat, Ad (R 3) (Ad (R 7) (R 23)));
  (15%nat, Xo (R 15) (R 3));
  (15%nat, Or (SR (R 15) 16) (SL (R 15) 48));
  (11%nat, Ad (R 11) (R 15));
  (7%nat, Xo (R 7) (R 11));
  (7%nat, Or (SR (R 7) 63) (SL (R 7) 1));
  (0%nat, Ad (R 0) (Ad (R 5) (R 24)));
  (15%nat, Xo (R 15) (R 0));
  (15%nat, Or (SR (R 15) 32) (SL (R 15) 32));
  (10%nat, Ad (R 10) (R 15));
  (5%nat, Xo (R 5) (R 10));
  (5%nat, Or (SR (R 5) 24) (SL (R 5) 40));
  (0%nat, Ad (R 0) (Ad (R 5) (R 25)));
  (15%nat, Xo (R 15) (R 0));
  (15%nat, Or (SR (R 15) 16) (SL (R 15) 48));
  (10%nat, Ad (R 10) (R 15));
  (5%nat, Xo (R 5) (R 10));
  (5%nat, Or (SR (R 5) 63) (SL (R 5) 1));
  (1%nat, Ad (R 1) (Ad (R 6) (R 26)));
  (12%nat, Xo (R 12) (R 1));
  (12%nat, Or (SR (R 12) 32) (SL (R 12) 32));
  (11%nat, Ad (R 11) (R 12));
  (6%nat, Xo (R 6) (R 11));
  (6%nat, Or (SR (R 6) 24) (SL (R 6) 40));
  (1%nat, Ad (R 1) (Ad (R 6) (R 27)));
  (12%nat, Xo (R 12) (R 1));
  (12%nat, Or (SR (R 12) 16) (SL (R 12) 48));
  (11%nat, Ad (R 11) (R 12));
  (6%nat, Xo (R 6) (R 11));
  (6%nat, Or (SR (R 6) 63) (SL (R 6) 1));
  (2%nat, Ad (R 2) (Ad (R 7) (R 28)));
  (13%nat, Xo (R 13) (R 2));
  (13%nat, Or (SR (R 13) 32) (SL (R 13) 32));
  (8%nat, Ad (R 8) (R 13));
  (7%nat, Xo (R 7) (R 8));
  (7%nat, Or (SR (R 7) 24) (SL (R 7) 40));
  (2%nat, Ad (R 2) (Ad (R 7) (R 29)));
  (13%nat, Xo (R 13) (R 2));
  (13%nat, Or (SR (R 13) 16) (SL (R 13) 48));
  (8%nat, Ad (R 8) (R 13));
  (7%nat, Xo (R 7) (R 8));
  (7%nat, Or (SR (R 7) 63) (SL (R 7) 1));
  (3%nat, Ad (R 3) (Ad (R 4) (R 30)));
  (14%nat, Xo (R 14) (R 3));
  (14%nat, Or (SR (R 14) 32) (SL (R 14) 32));
  (9%nat, Ad (R 9) (R 14));
  (4%nat, Xo (R 4) (R 9));
  (4%nat, Or (SR (R 4) 24) (SL (R 4) 40));
  (3%nat, Ad (R 3) (Ad (R 4) (R 31)));
  (14%nat, Xo (R 14) (R 3));
  (14%nat, Or (SR (R 14) 16) (SL (R 14) 48));
  (9%nat, Ad (R 9) (R 14));
  (4%nat, Xo (R 4) (R 9));
  (4%nat, Or (SR (R 4) 63) (SL (R 4) 1));
  (0%nat, Ad (R 0) (Ad (R 4) (R 30)));
  (12%nat, Xo (R 12) (R 0));
  (12%nat, Or (SR (R 12) 32) (SL (R 12) 32));
  (8%nat, Ad (R 8) (R 12));
  (4%nat, Xo (R 4) (R 8));
  (4%nat, Or (SR (R 4) 24) (SL (R 4) 40));
  (0%nat, Ad (R 0) (Ad (R 4) (R 26)));
  (12%nat, Xo (R 12) (R 0));
  (12%nat, Or (SR (R 12) 16) (SL (R 12) 48));
  (8%nat, Ad (R 8) (R 12));
  (4%nat, Xo (R 4) (R 8));
  (4%nat, Or (SR (R 4) 63) (SL (R 4) 1));
  (1%nat, Ad (R 1) (Ad (R 5) (R 20)));
  (13%nat, Xo (R 13) (R 1));
  (13%nat, Or (SR (R 13) 32) (SL (R 13) 32));
  (9%nat, Ad (R 9) (R 13));
  (5%nat, Xo (R 5) (R 9));
  (5%nat, Or (SR (R 5) 24) (SL (R 5) 40));
  (1%nat, Ad (R 1) (Ad (R 5) (R 24)));
  (13%nat, Xo (R 13) (R 1));
  (13%nat, Or (SR (R 13) 16) (SL (R 13) 48));
  (9%nat, Ad (R 9) (R 13));
  (5%nat, Xo (R 5) (R 9));
  (5%nat, Or (SR (R 5) 63) (SL (R 5) 1));
  (2%nat, Ad (R 2) (Ad (R 6) (R 25)));
  (14%nat, Xo (R 14) (R 2));
  (14%nat, Or (SR (R 14) 32) (SL (R 14) 32));
  (10%nat, Ad (R 10) (R 14));
  (6%nat, Xo (R 6) (R 10));
  (6%nat, Or (SR (R 6) 24) (SL (R 6) 40));
  (2%nat, Ad (R 2) (Ad (R 6) (R 31)));
  (14%nat, Xo (R 14) (R 2));
  (14%nat, Or (SR (R 14) 16) (SL (R 14) 48));
  (10%nat, Ad (R 10) (R 14));
  (6%nat, Xo (R 6) (R 10));
  (6%nat, Or (SR (R 6) 63) (SL (R 6) 1));
  (3%nat, Ad (R 3) (Ad (R 7) (R 29)));
  (15%nat, Xo (R 15) (R 3));
  (15%nat, Or (SR (R 15) 32) (SL (R 15) 32));
  (11%nat, Ad (R 11) (R 15));
  (7%nat, Xo (R 7) (R 11));
  (7%nat, Or (SR (R 7) 24) (SL (R 7) 40));
  (3%nat, Ad (R 3) (Ad (R 7) (R 22)));
  (15%nat, Xo (R 15) (R 3));
  (15%nat, Or (SR (R 15) 16) (SL (R 15) 48));
  (11%nat, Ad (R 11) (R 15));
  (7%nat, Xo (R 7) (R 11));
  (7%nat, Or (SR (R 7) 63) (SL (R 7) 1));
  (0%nat, Ad (R 0) (Ad (R 5) (R 17)));
  (15%nat, Xo (R 15) (R 0));
  (15%nat, Or (SR (R 15) 32) (SL (R 15) 32));
  (10%nat, Ad (R 10) (R 15));
  (5%nat, Xo (R 5) (R 10));
  (5%nat, Or (SR (R 5) 24) (SL (R 5) 40));
  (0%nat, Ad (R 0) (Ad (R 5) (R 28)));
  (15%nat, Xo (R 15) (R 0));
  (15%nat, Or (SR (R 15) 16) (SL (R 15) 48));
  (10%nat, Ad (R 10) (R 15));
  (5%nat, Xo (R 5) (R 10));
  (5%nat, Or (SR (R 5) 63) (SL (R 5) 1));
  (1%nat, Ad (R 1) (Ad (R 6) (R 16)));
  (12%nat, Xo (R 12) (R 1));
  (12%nat, Or (SR (R 12) 32) (SL (R 12) 32));
  (11%nat, Ad (R 11) (R 12));
  (6%nat, Xo (R 6) (R 11));
  (6%nat, Or (SR (R 6) 24) (SL (R 6) 40));
  (1%nat, Ad (R 1) (Ad (R 6) (R 18)));
  (12%nat, Xo (R 12) (R 1));
  (12%nat, Or (SR (R 12) 16) (SL (R 12) 48));
  (11%nat, Ad (R 11) (R 12));
  (6%nat, Xo (R 6) (R 11));
  (6%nat, Or (SR (R 6) 63) (SL (R 6) 1));
  (2%nat, Ad (R 2) (Ad (R 7) (R 27)));
  (13%nat, Xo (R 13) (R 2));
  (13%nat, Or (SR (R 13) 32) (SL (R 13) 32));
  (8%nat, Ad (R 8) (R 13));
  (7%nat, Xo (R 7) (R 8));
  (7%nat, Or (SR (R 7) 24) (SL (R 7) 40));
  (2%nat, Ad (R 2) (Ad (R 7) (R 23)));
  (13%nat, Xo (R 13) (R 2));
  (13%nat, Or (SR (R 13) 16) (SL (R 13) 48));
  (8%nat, Ad (R 8) (R 13));
  (7%nat, Xo (R 7) (R 8));
  (7%nat, Or (SR (R 7) 63) (SL (R 7) 1));
  (3%nat, Ad (R 3) (Ad (R 4) (R 21)));
  (14%nat, Xo (R 14) (R 3));
  (14%nat, Or (SR (R 14) 32) (SL (R 14) 32));
  (9%nat, Ad (R 9) (R 14));
  (4%nat, Xo (R 4) (R 9));
  (4%nat, Or (SR (R 4) 24) (SL (R 4) 40));
  (3%nat, Ad (R 3) (Ad (R 4) (R 19)));
  (14%nat, Xo (R 14) (R 3));
  (14%nat, Or (SR (R 14) 16) (SL (R 14) 48));
  (9%nat, Ad (R 9) (R 14));
  (4%nat, Xo (R 4) (R 9));
  (4%nat, Or (SR (R 4) 63) (SL (R 4) 1));
  (0%nat, Ad (R 0) (Ad (R 4) (R 27)));
  (12%nat, Xo (R 12) (R 0));
  (12%nat, Or (SR (R 12) 32) (SL (R 12) 32));
  (8%nat, Ad (R 8) (R 12));
  (4%nat, Xo (R 4) (R 8));
  (4%nat, Or (SR (R 4) 24) (SL (R 4) 40));
  (0%nat, Ad (R 0) (Ad (R 4) (R 24)));
  (12%nat, Xo (R 12) (R 0));
  (12%nat, Or (SR (R 12) 16) (SL (R 12) 48));
  (8%nat, Ad (R 8) (R 12));
  (4%nat, Xo (R 4) (R 8));
  (4%nat, Or (SR (R 4) 63) (SL (R 4) 1));
  (1%nat, Ad (R 1) (Ad (R 5) (R 28)));
  (13%nat, Xo (R 13) (R 1));
  (13%nat, Or (SR (R 13) 32) (SL (R 13) 32));
  (9%nat, Ad (R 9) (R 13));
  (5%nat, Xo (R 5) (R 9));
  (5%nat, Or (SR (R 5) 24) (SL (R 5) 40));
  (1%nat, Ad (R 1) (Ad (R 5) (R 16)));
  (13%nat, Xo (R 13) (R 1));
  (13%nat, Or (SR (R 13) 16) (SL (R 13) 48));
  (9%nat, Ad (R 9) (R 13));
  (5%nat, Xo (R 5) (R 9));
  (5%nat, Or (SR (R 5) 63) (SL (R 5) 1));
  (2%nat, Ad (R 2) (Ad (R 6) (R 21)));
  (14%nat, Xo (R 14) (R 2));
  (14%nat, Or (SR (R 14) 32) (SL (R 14) 32));
  (10%nat, Ad (R 10) (R 14));
  (6%nat, Xo (R 6) (R 10));
  (6%nat, Or (SR (R 6) 24) (SL (R 6) 40));
  (2%nat, Ad (R 2) (Ad (R 6) (R 18)));
  (14%nat, Xo (R 14) (R 2));
  (14%nat, Or (SR (R 14) 16) (SL (R 14) 48));
  (10%nat, Ad (R 10) (R 14));
  (6%nat, Xo (R 6) (R 10));
  (6%nat, Or (SR (R 6) 63) (SL (R 6) 1));
  (3%nat, Ad (R 3) (Ad (R 7) (R 31)));
  (15%nat, Xo (R 15) (R 3));
  (15%nat, Or (SR (R 15) 32) (SL (R 15) 32));
  (11%nat, Ad (R 11) (R 15));
  (7%nat, Xo (R 7) (R 11));
  (7%nat, Or (SR (R 7) 24) (SL (R 7) 40));
  (3%nat, Ad (R 3) (Ad (R 7) (R 29)));
  (15%nat, Xo (R 15) (R 3));
  (15%nat, Or (SR (R 15) 16) (SL (R 15) 48));
  (11%nat, Ad (R 11) (R 15));
  (7%nat, Xo (R 7) (R 11));
  (7%nat, Or (SR (R 7) 63) (SL (R 7) 1));
  (0%nat, Ad (R 0) (Ad (R 5) (R 26)));
  (15%nat, Xo (R 15) (R 0));
  (15%nat, Or (SR (R 15) 32) (SL (R 15) 32));
  (10%nat, Ad (R 10) (R 15));
  (5%nat, Xo (R 5) (R 10));
  (5%nat, Or (SR (R 5) 24) (SL (R 5) 40));
  (0%nat, Ad (R 0) (Ad (R 5) (R 30)));
  (15%nat, Xo (R 15) (R 0));
  (15%nat, Or (SR (R 15) 16) (SL (R 15) 48));
  (10%nat, Ad (R 10) (R 15));
  (5%nat, Xo (R 5) (R 10));
  (5%nat, Or (SR (R 5) 63) (SL (R 5) 1));
  (1%nat, Ad (R 1) (Ad (R 6) (R 19)));
  (12%nat, Xo (R 12) (R 1));
  (12%nat, Or (SR (R 12) 32) (SL (R 12) 32));
  (11%nat, Ad (R 11) (R 12));
  (6%nat, Xo (R 6) (R 11));
  (6%nat, Or (SR (R 6) 24) (SL (R 6) 40));
  (1%nat, Ad (R 1) (Ad (R 6) (R 22)));
  (12%nat, Xo (R 12) (R 1));
  (12%nat, Or (SR (R 12) 16) (SL (R 12) 48));
  (11%nat, Ad (R 11) (R 12));
  (6%nat, Xo (R 6) (R 11));
  (6%nat, Or (SR (R 6) 63) (SL (R 6) 1));
  (2%nat, Ad (R 2) (Ad (R 7) (R 23)));
  (13%nat, Xo (R 13) (R 2));
  (13%nat, Or (SR (R 13) 32) (SL (R 13) 32));
  (8%nat, Ad (R 8) (R 13));
  (7%nat, Xo (R 7) (R 8));
  (7%nat, Or (SR (R 7) 24) (SL (R 7) 40));
  (2%nat, Ad (R 2) (Ad (R 7) (R 17)));
  (13%nat, Xo (R 13) (R 2));
  (13%nat, Or (SR (R 13) 16) (SL (R 13) 48));
  (8%nat, Ad (R 8) (R 13));
  (7%nat, Xo (R 7) (R 8));
  (7%nat, Or (SR (R 7) 63) (SL (R 7) 1));
  (3%nat, Ad (R 3) (Ad (R 4) (R 25)));
  (14%nat, Xo (R 14) (R 3));
  (14%nat, Or (SR (R 14) 32) (SL (R 14) 32));
  (9%nat, Ad (R 9) (R 14));
  (4%nat, Xo (R 4) (R 9));
  (4%nat, Or (SR (R 4) 24) (SL (R 4) 40));
  (3%nat, Ad (R 3) (Ad (R 4) (R 20)));
  (14%nat, Xo (R 14) (R 3));
  (14%nat, Or (SR (R 14) 16) (SL (R 14) 48));
  (9%nat, Ad (R 9) (R 14));
  (4%nat, Xo (R 4) (R 9));
  (4%nat, Or (SR (R 4) 63) (SL (R 4) 1));
  (0%nat, Ad (R 0) (Ad (R 4) (R 23)));
  (12%nat, Xo (R 12) (R 0));
  (12%nat, Or (SR (R 12) 32) (SL (R 12) 32));
  (8%nat, Ad (R 8) (R 12));
  (4%nat, Xo (R 4) (R 8));
  (4%nat, Or (SR (R 4) 24) (SL (R 4) 40));
  (0%nat, Ad (R 0) (Ad (R 4) (R 25)));
  (12%nat, Xo (R 12) (R 0));
  (12%nat, Or (SR (R 12) 16) (SL (R 12) 48));
  (8%nat, Ad (R 8) (R 12));
  (4%nat, Xo (R 4) (R 8));
  (4%nat, Or (SR (R 4) 63) (SL (R 4) 1));
  (1%nat, Ad (R 1) (Ad (R 5) (R 19)));
  (13%nat, Xo (R 13) (R 1));
  (13%nat, Or (SR (R 13) 32) (SL (R 13) 32));
  (9%nat, Ad (R 9) (R 13));
  (5%nat, Xo (R 5) (R 9));
  (5%nat, Or (SR (R 5) 24) (SL (R 5) 40));
  (1%nat, Ad (R 1) (Ad (R 5) (R 17)));
  (13%nat, Xo (R 13) (R 1));
  (13%nat, Or (SR (R 13) 16) (SL (R 13) 48));
  (9%nat, Ad (R 9) (R 13));
  (5%nat, Xo (R 5) (R 9));
  (5%nat, Or (SR (R 5) 63) (SL (R 5) 1));
  (2%nat, Ad (R 2) (Ad (R 6) (R 29)));
  (14%nat, Xo (R 14) (R 2));
  (14%nat, Or (SR (R 14) 32) (SL (R 14) 32));
  (10%nat, Ad (R 10) (R 14));
  (6%nat, Xo (R 6) (R 10));
  (6%nat, Or (SR (R 6) 24) (SL (R 6) 40));
  (2%nat, Ad (R 2) (Ad (R 6) (R 28)));
  (14%nat, Xo (R 14) (R 2));
  (14%nat, Or (SR (R 14) 16) (SL (R 14) 48));
  (10%nat, Ad (R 10) (R 14));
  (6%nat, Xo (R 6) (R 10));
  (6%nat, Or (SR (R 6) 63) (SL (R 6) 1));
  (3%nat, Ad (R 3) (Ad (R 7) (R 27)));
  (15%nat, Xo (R 15) (R 3));
  (15%nat, Or (SR (R 15) 32) (SL (R 15) 32));
  (11%nat, Ad (R 11) (R 15));
  (7%nat, Xo (R 7) (R 11));
  (7%nat, Or (SR (R 7) 24) (SL (R 7) 40));
  (3%nat, Ad (R 3) (Ad (R 7) (R 30)));
  (15%nat, Xo (R 15) (R 3));
  (15%nat, Or (SR (R 15) 16) (SL (R 15) 48));
  (11%nat, Ad (R 11) (R 15));
  (7%nat, Xo (R 7) (R 11));
  (7%nat, Or (SR (R 7) 63) (SL (R 7) 1));
  (0%nat, Ad (R 0) (Ad (R 5) (R 18)));
  (15%nat, Xo (R 15) (R 0));
  (15%nat, Or (SR (R 15) 32) (SL (R 15) 32));
  (10%nat, Ad (R 10) (R 15));
  (5%nat, Xo (R 5) (R 10));
  (5%nat, Or (SR (R 5) 24) (SL (R 5) 40));
  (0%nat, Ad (R 0) (Ad (R 5) (R 22)));
  (15%nat, Xo (R 15) (R 0));
  (15%nat, Or (SR (R 15) 16) (SL (R 15) 48));
  (10%nat, Ad (R 10) (R 15));
  (5%nat, Xo (R 5) (R 10));
  (5%nat, Or (SR (R 5) 63) (SL (R 5) 1));
  (1%nat, Ad (R 1) (Ad (R 6) (R 21)));
  (12%nat, Xo (R 12) (R 1));
  (12%nat, Or (SR (R 12) 32) (SL (R 12) 32));
  (11%nat, Ad (R 11) (R 12));
  (6%nat, Xo (R 6) (R 11));
  (6%nat, Or (SR (R 6) 24) (SL (R 6) 40));
  (1%nat, Ad (R 1) (Ad (R 6) (R 26)));
  (12%nat, Xo (R 12) (R 1));
  (12%nat, Or (SR (R 12) 16) (SL (R 12) 48));
  (11%nat, Ad (R 11) (R 12));
  (6%nat, Xo (R 6) (R 11));
  (6%nat, Or (SR (R 6) 63) (SL (R 6) 1));
  (2%nat, Ad (R 2) (Ad (R 7) (R 20)));
  (13%nat, Xo (R 13) (R 2));
  (13%nat, Or (SR (R 13) 32) (SL (R 13) 32));
  (8%nat, Ad (R 8) (R 13));
  (7%nat, Xo (R 7) (R 8));
  (7%nat, Or (SR (R 7) 24) (SL (R 7) 40));
  (2%nat, Ad (R 2) (Ad (R 7) (R 16)));
  (13%nat, Xo (R 13) (R 2));
  (13%nat, Or (SR (R 13) 16) (SL (R 13) 48));
  (8%nat, Ad (R 8) (R 13));
  (7%nat, Xo (R 7) (R 8));
  (7%nat, Or (SR (R 7) 63) (SL (R 7) 1));
  (3%nat, Ad (R 3) (Ad (R 4) (R 31)));
  (14%nat, Xo (R 14) (R 3));
  (14%nat, Or (SR (R 14) 32) (SL (R 14) 32));
  (9%nat, Ad (R 9) (R 14));
  (4%nat, Xo (R 4) (R 9));
  (4%nat, Or (SR (R 4) 24) (SL (R 4) 40));
  (3%nat, Ad (R 3) (Ad (R 4) (R 24)));
  (14%nat, Xo (R 14) (R 3));
  (14%nat, Or (SR (R 14) 16) (SL (R 14) 48));
  (9%nat, Ad (R 9) (R 14));
  (4%nat, Xo (R 4) (R 9));
  (4%nat, Or (SR (R 4) 63) (SL (R 4) 1));
  (0%nat, Ad (R 0) (Ad (R 4) (R 25)));
  (12%nat, Xo (R 12) (R 0));
  (12%nat, Or (SR (R 12) 32) (SL (R 12) 32));
  (8%nat, Ad (R 8) (R 12));
  (4%nat, Xo (R 4) (R 8));
  (4%nat, Or (SR (R 4) 24) (SL (R 4) 40));
  (0%nat, Ad (R 0) (Ad (R 4) (R 16)));
  (12%nat, Xo (R 12) (R 0));
  (12%nat, Or (SR (R 12) 16) (SL (R 12) 48));
  (8%nat, Ad (R 8) (R 12));
  (4%nat, Xo (R 4) (R 8));
  (4%nat, Or (SR (R 4) 63) (SL (R 4) 1));
  (1%nat, Ad (R 1) (Ad (R 5) (R 21)));
  (13%nat, Xo (R 13) (R 1));
  (13%nat, Or (SR (R 13) 32) (SL (R 13) 32));
  (9%nat, Ad (R 9) (R 13));
  (5%nat, Xo (R 5) (R 9));
  (5%nat, Or (SR (R 5) 24) (SL (R 5) 40));
  (1%nat, Ad (R 1) (Ad (R 5) (R 23)));
  (13%nat, Xo (R 13) (R 1));
  (13%nat, Or (SR (R 13) 16) (SL (R 13) 48));
  (9%nat, Ad (R 9) (R 13));
  (5%nat, Xo (R 5) (R 9));
  (5%nat, Or (SR (R 5) 63) (SL (R 5) 1));
  (2%nat, Ad (R 2) (Ad (R 6) (R 18)));
  (14%nat, Xo (R 14) (R 2));
  (14%nat, Or (SR (R 14) 32) (SL (R 14) 32));
  (10%nat, Ad (R 10) (R 14));
  (6%nat, Xo (R 6) (R 10));
  (6%nat, Or (SR (R 6) 24) (SL (R 6) 40));
  (2%nat, Ad (R 2) (Ad (R 6) (R 20)));
  (14%nat, Xo (R 14) (R 2));
  (14%nat, Or (SR (R 14) 16) (SL (R 14) 48));
  (10%nat, Ad (R 10) (R 14));
  (6%nat, Xo (R 6) (R 10));
  (6%nat, Or (SR (R 6) 63) (SL (R 6) 1));
  (3%nat, Ad (R 3) (Ad (R 7) (R 26)));
  (15%nat, Xo (R 15) (R 3));
  (15%nat, Or (SR (R 15) 32) (SL (R 15) 32));
  (11%nat, Ad (R 11) (R 15));
  (7%nat, Xo (R 7) (R 11));
  (7%nat, Or (SR (R 7) 24) (SL (R 7) 40));
  (3%nat, Ad (R 3) (Ad (R 7) (R 31)));
  (15%nat, Xo (R 15) (R 3));
  (15%nat, Or (SR (R 15) 16) (SL (R 15) 48));
  (11%nat, Ad (R 11) (R 15));
  (7%nat, Xo (R 7) (R 11));
  (7%nat, Or (SR (R 7) 63) (SL (R 7) 1));
  (0%nat, Ad (R 0) (Ad (R 5) (R 30)));
  (15%nat, Xo (R 15) (R 0));
  (15%nat, Or (SR (R 15) 32) (SL (R 15) 32));
  (10%nat, Ad (R 10) (R 15));
  (5%nat, Xo (R 5) (R 10));
  (5%nat, Or (SR (R 5) 24) (SL (R 5) 40));
  (0%nat, Ad (R 0) (Ad (R 5) (R 17)));
  (15%nat, Xo (R 15) (R 0));
  (15%nat, Or (SR (R 15) 16) (SL (R 15) 48));
  (10%nat, Ad (R 10) (R 15));
  (5%nat, Xo (R 5) (R 10));
  (5%nat, Or (SR (R 5) 63) (SL (R 5) 1));
  (1%nat, Ad (R 1) (Ad (R 6) (R 27)));
  (12%nat, Xo (R 12) (R 1));
  (12%nat, Or (SR (R 12) 32) (SL (R 12) 32));
  (11%nat, Ad (R 11) (R 12));
  (6%nat, Xo (R 6) (R 11));
  (6%nat, Or (SR (R 6) 24) (SL (R 6) 40));
  (1%nat, Ad (R 1) (Ad (R 6) (R 28)));
  (12%nat, Xo (R 12) (R 1));
  (12%nat, Or (SR (R 12) 16) (SL (R 12) 48));
  (11%nat, Ad (R 11) (R 12));
  (6%nat, Xo (R 6) (R 11));
  (6%nat, Or (SR (R 6) 63) (SL (R 6) 1));
  (2%nat, Ad (R 2) (Ad (R 7) (R 22)));
  (13%nat, Xo (R 13) (R 2));
  (13%nat, Or (SR (R 13) 32) (SL (R 13) 32));
  (8%nat, Ad (R 8) (R 13));
  (7%nat, Xo (R 7) (R 8));
  (7%nat, Or (SR (R 7) 24) (SL (R 7) 40));
  (2%nat, Ad (R 2) (Ad (R 7) (R 24)));
  (13%nat, Xo (R 13) (R 2));
  (13%nat, Or (SR (R 13) 16) (SL (R 13) 48));
  (8%nat, Ad (R 8) (R 13));
  (7%nat, Xo (R 7) (R 8));
  (7%nat, Or (SR (R 7) 63) (SL (R 7) 1));
  (3%nat, Ad (R 3) (Ad (R 4) (R 19)));
  (14%nat, Xo (R 14) (R 3));
  (14%nat, Or (SR (R 14) 32) (SL (R 14) 32));
  (9%nat, Ad (R 9) (R 14));
  (4%nat, Xo (R 4) (R 9));
  (4%nat, Or (SR (R 4) 24) (SL (R 4) 40));
  (3%nat, Ad (R 3) (Ad (R 4) (R 29)));
  (14%nat, Xo (R 14) (R 3));
  (14%nat, Or (SR (R 14) 16) (SL (R 14) 48));
  (9%nat, Ad (R 9) (R 14));
  (4%nat, Xo (R 4) (R 9));
  (4%nat, Or (SR (R 4) 63) (SL (R 4) 1));
  (0%nat, Ad (R 0) (Ad (R 4) (R 18)));
  (12%nat, Xo (R 12) (R 0));
  (12%nat, Or (SR (R 12) 32) (SL (R 12) 32));
  (8%nat, Ad (R 8) (R 12));
  (4%nat, Xo (R 4) (R 8));
  (4%nat, Or (SR (R 4) 24) (SL (R 4) 40));
  (0%nat, Ad (R 0) (Ad (R 4) (R 28)));
  (12%nat, Xo (R 12) (R 0));
  (12%nat, Or (SR (R 12) 16) (SL (R 12) 48));
  (8%nat, Ad (R 8) (R 12));
  (4%nat, Xo (R 4) (R 8));
  (4%nat, Or (SR (R 4) 63) (SL (R 4) 1));
  (1%nat, Ad (R 1) (Ad (R 5) (R 22)));
  (13%nat, Xo (R 13) (R 1));
  (13%nat, Or (SR (R 13) 32) (SL (R 13) 32));
  (9%nat, Ad (R 9) (R 13));
  (5%nat, Xo (R 5) (R 9));
  (5%nat, Or (SR (R 5) 24) (SL (R 5) 40));
  (1%nat, Ad (R 1) (Ad (R 5) (R 26)));
  (13%nat, Xo (R 13) (R 1));
  (13%nat, Or (SR (R 13) 16) (SL (R 13) 48));
  (9%nat, Ad (R 9) (R 13));
  (5%nat, Xo (R 5) (R 9));
  (5%nat, Or (SR (R 5) 63) (SL (R 5) 1));
  (2%nat, Ad (R 2) (Ad (R 6) (R 16)));
  (14%nat, Xo (R 14) (R 2));
  (14%nat, Or (SR (R 14) 32) (SL (R 14) 32));
  (10%nat, Ad (R 10) (R 14));
  (6%nat, Xo (R 6) (R 10));
  (6%nat, Or (SR (R 6) 24) (SL (R 6) 40));
  (2%nat, Ad (R 2) (Ad (R 6) (R 27)));
  (14%nat, Xo (R 14) (R 2));
  (14%nat, Or (SR (R 14) 16) (SL (R 14) 48));
  (10%nat, Ad (R 10) (R 14));
  (6%nat, Xo (R 6) (R 10));
  (6%nat, Or (SR (R 6) 63) (SL (R 6) 1));
  (3%nat, Ad (R 3) (Ad (R 7) (R 24)));
  (15%nat, Xo (R 15) (R 3));
  (15%nat, Or (SR (R 15) 32) (SL (R 15) 32));
  (11%nat, Ad (R 11) (R 15));
  (7%nat, Xo (R 7) (R 11));
  (7%nat, Or (SR (R 7) 24) (SL (R 7) 40));
  (3%nat, Ad (R 3) (Ad (R 7) (R 19)));
  (15%nat, Xo (R 15) (R 3));
  (15%nat, Or (SR (R 15) 16) (SL (R 15) 48));
  (11%nat, Ad (R 11) (R 15));
  (7%nat, Xo (R 7) (R 11));
  (7%nat, Or (SR (R 7) 63) (SL (R 7) 1));
  (0%nat, Ad (R 0) (Ad (R 5) (R 20)));
  (15%nat, Xo (R 15) (R 0));
  (15%nat, Or (SR (R 15) 32) (SL (R 15) 32));
  (10%nat, Ad (R 10) (R 15));
  (5%nat, Xo (R 5) (R 10));
  (5%nat, Or (SR (R 5) 24) (SL (R 5) 40));
  (0%nat, Ad (R 0) (Ad (R 5) (R 29)));
  (15%nat, Xo (R 15) (R 0));
  (15%nat, Or (SR (R 15) 16) (SL (R 15) 48));
  (10%nat, Ad (R 10) (R 15));
  (5%nat, Xo (R 5) (R 10));
  (5%nat, Or (SR (R 5) 63) (SL (R 5) 1));
  (1%nat, Ad (R 1) (Ad (R 6) (R 23)));
  (12%nat, Xo (R 12) (R 1));
  (12%nat, Or (SR (R 12) 32) (SL (R 12) 32));
  (11%nat, Ad (R 11) (R 12));
  (6%nat, Xo (R 6) (R 11));
  (6%nat, Or (SR (R 6) 24) (SL (R 6) 40));
  (1%nat, Ad (R 1) (Ad (R 6) (R 21)));
  (12%nat, Xo (R 12) (R 1));
  (12%nat, Or (SR (R 12) 16) (SL (R 12) 48));
  (11%nat, Ad (R 11) (R 12));
  (6%nat, Xo (R 6) (R 11));
  (6%nat, Or (SR (R 6) 63) (SL (R 6) 1));
  (2%nat, Ad (R 2) (Ad (R 7) (R 31)));
  (13%nat, Xo (R 13) (R 2));
  (13%nat, Or (SR (R 13) 32) (SL (R 13) 32));
  (8%nat, Ad (R 8) (R 13));
  (7%nat, Xo (R 7) (R 8));
  (7%nat, Or (SR (R 7) 24) (SL (R 7) 40));
  (2%nat, Ad (R 2) (Ad (R 7) (R 30)));
  (13%nat, Xo (R 13) (R 2));
  (13%nat, Or (SR (R 13) 16) (SL (R 13) 48));
  (8%nat, Ad (R 8) (R 13));
  (7%nat, Xo (R 7) (R 8));
  (7%nat, Or (SR (R 7) 63) (SL (R 7) 1));
  (3%nat, Ad (R 3) (Ad (R 4) (R 17)));
  (14%nat, Xo (R 14) (R 3));
  (14%nat, Or (SR (R 14) 32) (SL (R 14) 32));
  (9%nat, Ad (R 9) (R 14));
  (4%nat, Xo (R 4) (R 9));
  (4%nat, Or (SR (R 4) 24) (SL (R 4) 40));
  (3%nat, Ad (R 3) (Ad (R 4) (R 25)));
  (14%nat, Xo (R 14) (R 3));
  (14%nat, Or (SR (R 14) 16) (SL (R 14) 48));
  (9%nat, Ad (R 9) (R 14));
  (4%nat, Xo (R 4) (R 9));
  (4%nat, Or (SR (R 4) 63) (SL (R 4) 1));
  (0%nat, Ad (R 0) (Ad (R 4) (R 28)));
  (12%nat, Xo (R 12) (R 0));
  (12%nat, Or (SR (R 12) 32) (SL (R 12) 32));
  (8%nat, Ad (R 8) (R 12));
  (4%nat, Xo (R 4) (R 8));
  (4%nat, Or (SR (R 4) 24) (SL (R 4) 40));
  (0%nat, Ad (R 0) (Ad (R 4) (R 21)));
  (12%nat, Xo (R 12) (R 0));
  (12%nat, Or (SR (R 12) 16) (SL (R 12) 48));
  (8%nat, Ad (R 8) (R 12));
  (4%nat, Xo (R 4) (R 8));
  (4%nat, Or (SR (R 4) 63) (SL (R 4) 1));
  (1%nat, Ad (R 1) (Ad (R 5) (R 17)));
  (13%nat, Xo (R 13) (R 1));
  (13%nat, Or (SR (R 13) 32) (SL (R 13) 32));
  (9%nat, Ad (R 9) (R 13));
  (5%nat, Xo (R 5) (R 9));
  (5%nat, Or (SR (R 5) 24) (SL (R 5) 40));
  (1%nat, Ad (R 1) (Ad (R 5) (R 31)));
  (13%nat, Xo (R 13) (R 1));
  (13%nat, Or (SR (R 13) 16) (SL (R 13) 48));
  (9%nat, Ad (R 9) (R 13));
  (5%nat, Xo (R 5) (R 9));
  (5%nat, Or (SR (R 5) 63) (SL (R 5) 1));
  (2%nat, Ad (R 2) (Ad (R 6) (R 30)));
  (14%nat, Xo (R 14) (R 2));
  (14%nat, Or (SR (R 14) 32) (SL (R 14) 32));
  (10%nat, Ad (R 10) (R 14));
  (6%nat, Xo (R 6) (R 10));
  (6%nat, Or (SR (R 6) 24) (SL (R 6) 40));
  (2%nat, Ad (R 2) (Ad (R 6) (R 29)));
  (14%nat, Xo (R 14) (R 2));
  (14%nat, Or (SR (R 14) 16) (SL (R 14) 48));
  (10%nat, Ad (R 10) (R 14));
  (6%nat, Xo (R 6) (R 10));
  (6%nat, Or (SR (R 6) 63) (SL (R 6) 1));
  (3%nat, Ad (R 3) (Ad (R 7) (R 20)));
  (15%nat, Xo (R 15) (R 3));
  (15%nat, Or (SR (R 15) 32) (SL (R 15) 32));
  (11%nat, Ad (R 11) (R 15));
  (7%nat, Xo (R 7) (R 11));
  (7%nat, Or (SR (R 7) 24) (SL (R 7) 40));
  (3%nat, Ad (R 3) (Ad (R 7) (R 26)));
  (15%nat, Xo (R 15) (R 3));
  (15%nat, Or (SR (R 15) 16) (SL (R 15) 48));
  (11%nat, Ad (R 11) (R 15));
  (7%nat, Xo (R 7) (R 11));
  (7%nat, Or (SR (R 7) 63) (SL (R 7) 1));
  (0%nat, Ad (R 0) (Ad (R 5) (R 16)));
  (15%nat, Xo (R 15) (R 0));
  (15%nat, Or (SR (R 15) 32) (SL (R 15) 32));
  (10%nat, Ad (R 10) (R 15));
  (5%nat, Xo (R 5) (R 10));
  (5%nat, Or (SR (R 5) 24) (SL (R 5) 40));
  (0%nat, Ad (R 0) (Ad (R 5) (R 23)));
  (15%nat, Xo (R 15) (R 0));
  (15%nat, Or (SR (R 15) 16) (SL (R 15) 48));
  (10%nat, Ad (R 10) (R 15));
  (5%nat, Xo (R 5) (R 10));
  (5%nat, Or (SR (R 5) 63) (SL (R 5) 1));
  (1%nat, Ad (R 1) (Ad (R 6) (R 22)));
  (12%nat, Xo (R 12) (R 1));
  (12%nat, Or (SR (R 12) 32) (SL (R 12) 32));
  (11%nat, Ad (R 11) (R 12));
  (6%nat, Xo (R 6) (R 11));
  (6%nat, Or (SR (R 6) 24) (SL (R 6) 40));
  (1%nat, Ad (R 1) (Ad (R 6) (R 19)));
  (12%nat, Xo (R 12) (R 1));
  (12%nat, Or (SR (R 12) 16) (SL (R 12) 48));
  (11%nat, Ad (R 11) (R 12));
  (6%nat, Xo (R 6) (R 11));
  (6%nat, Or (SR (R 6) 63) (SL (R 6) 1));
  (2%nat, Ad (R 2) (Ad (R 7) (R 25)));
  (13%nat, Xo (R 13) (R 2));
  (13%nat, Or (SR (R 13) 32) (SL (R 13) 32));
  (8%nat, Ad (R 8) (R 13));
  (7%nat, Xo (R 7) (R 8));
  (7%nat, Or (SR (R 7) 24) (SL (R 7) 40));
  (2%nat, Ad (R 2) (Ad (R 7) (R 18)));
  (13%nat, Xo (R 13) (R 2));
  (13%nat, Or (SR (R 13) 16) (SL (R 13) 48));
  (8%nat, Ad (R 8) (R 13));
  (7%nat, Xo (R 7) (R 8));
  (7%nat, Or (SR (R 7) 63) (SL (R 7) 1));
  (3%nat, Ad (R 3) (Ad (R 4) (R 24)));
  (14%nat, Xo (R 14) (R 3));
  (14%nat, Or (SR (R 14) 32) (SL (R 14) 32));
  (9%nat, Ad (R 9) (R 14));
  (4%nat, Xo (R 4) (R 9));
  (4%nat, Or (SR (R 4) 24) (SL (R 4) 40));
  (3%nat, Ad (R 3) (Ad (R 4) (R 27)));
  (14%nat, Xo (R 14) (R 3));
  (14%nat, Or (SR (R 14) 16) (SL (R 14) 48));
  (9%nat, Ad (R 9) (R 14));
  (4%nat, Xo (R 4) (R 9));
  (4%nat, Or (SR (R 4) 63) (SL (R 4) 1));
  (0%nat, Ad (R 0) (Ad (R 4) (R 29)));
  (12%nat, Xo (R 12) (R 0));
  (12%nat, Or (SR (R 12) 32) (SL (R 12) 32));
  (8%nat, Ad (R 8) (R 12));
  (4%nat, Xo (R 4) (R 8));
  (4%nat, Or (SR (R 4) 24) (SL (R 4) 40));
  (0%nat, Ad (R 0) (Ad (R 4) (R 27)));
  (12%nat, Xo (R 12) (R 0));
  (12%nat, Or (SR (R 12) 16) (SL (R 12) 48));
  (8%nat, Ad (R 8) (R 12));
  (4%nat, Xo (R 4) (R 8));
  (4%nat, Or (SR (R 4) 63) (SL (R 4) 1));
  (1%nat, Ad (R 1) (Ad (R 5) (R 23)));
  (13%nat, Xo (R 13) (R 1));
  (13%nat, Or (SR (R 13) 32) (SL (R 13) 32));
  (9%nat, Ad (R 9) (R 13));
  (5%nat, Xo (R 5) (R 9));
  (5%nat, Or (SR (R 5) 24) (SL (R 5) 40));
  (1%nat, Ad (R 1) (Ad (R 5) (R 30)));
  (13%nat, Xo (R 13) (R 1));
  (13%nat, Or (SR (R 13) 16) (SL (R 13) 48));
  (9%nat, Ad (R 9) (R 13));
  (5%nat, Xo (R 5) (R 9));
  (5%nat, Or (SR (R 5) 63) (SL (R 5) 1));
  (2%nat, Ad (R 2) (Ad (R 6) (R 28)));
  (14%nat, Xo (R 14) (R 2));
  (14%nat, Or (SR (R 14) 32) (SL (R 14) 32));
  (10%nat, Ad (R 10) (R 14));
  (6%nat, Xo (R 6) (R 10));
  (6%nat, Or (SR (R 6) 24) (SL (R 6) 40));
  (2%nat, Ad (R 2) (Ad (R 6) (R 17)));
  (14%nat, Xo (R 14) (R 2));
  (14%nat, Or (SR (R 14) 16) (SL (R 14) 48));
  (10%nat, Ad (R 10) (R 14));
  (6%nat, Xo (R 6) (R 10));
  (6%nat, Or (SR (R 6) 63) (SL (R 6) 1));
  (3%nat, Ad (R 3) (Ad (R 7) (R 19)));
  (15%nat, Xo (R 15) (R 3));
  (15%nat, Or (SR (R 15) 32) (SL (R 15) 32));
  (11%nat, Ad (R 11) (R 15));
  (7%nat, Xo (R 7) (R 11));
  (7%nat, Or (SR (R 7) 24) (SL (R 7) 40));
  (3%nat, Ad (R 3) (Ad (R 7) (R 25)));
  (15%nat, Xo (R 15) (R 3));
  (15%nat, Or (SR (R 15) 16) (SL (R 15) 48));
  (11%nat, Ad (R 11) (R 15));
  (7%nat, Xo (R 7) (R 11));
  (7%nat, Or (SR (R 7) 63) (SL (R 7) 1));
  (0%nat, Ad (R 0) (Ad (R 5) (R 21)));
  (15%nat, Xo (R 15) (R 0));
  (15%nat, Or (SR (R 15) 32) (SL (R 15) 32));
  (10%nat, Ad (R 10) (R 15));
  (5%nat, Xo (R 5) (R 10));
  (5%nat, Or (SR (R 5) 24) (SL (R 5) 40));
  (0%nat, Ad (R 0) (Ad (R 5) (R 16)));
  (15%nat, Xo (R 15) (R 0));
  (15%nat, Or (SR (R 15) 16) (SL (R 15) 48));
  (10%nat, Ad (R 10) (R 15));
  (5%nat, Xo (R 5) (R 10));
  (5%nat, Or (SR (R 5) 63) (SL (R 5) 1));
  (1%nat, Ad (R 1) (Ad (R 6) (R 31)));
  (12%nat, Xo (R 12) (R 1));
  (12%nat, Or (SR (R 12) 32) (SL (R 12) 32));
  (11%nat, Ad (R 11) (R 12));
  (6%nat, Xo (R 6) (R 11));
  (6%nat, Or (SR (R 6) 24) (SL (R 6) 40));
  (1%nat, Ad (R 1) (Ad (R 6) (R 20)));
  (12%nat, Xo (R 12) (R 1));
  (12%nat, Or (SR (R 12) 16) (SL (R 12) 48));
  (11%nat, Ad (R 11) (R 12));
  (6%nat, Xo (R 6) (R 11));
  (6%nat, Or (SR (R 6) 63) (SL (R 6) 1));
  (2%nat, Ad (R 2) (Ad (R 7) (R 24)));
  (13%nat, Xo (R 13) (R 2));
  (13%nat, Or (SR (R 13) 32) (SL (R 13) 32));
  (8%nat, Ad (R 8) (R 13));
  (7%nat, Xo (R 7) (R 8));
  (7%nat, Or (SR (R 7) 24) (SL (R 7) 40));
  (2%nat, Ad (R 2) (Ad (R 7) (R 22)));
  (13%nat, Xo (R 13) (R 2));
  (13%nat, Or (SR (R 13) 16) (SL (R 13) 48));
  (8%nat, Ad (R 8) (R 13));
  (7%nat, Xo (R 7) (R 8));
  (7%nat, Or (SR (R 7) 63) (SL (R 7) 1));
  (3%nat, Ad (R 3) (Ad (R 4) (R 18)));
  (14%nat, Xo (R 14) (R 3));
  (14%nat, Or (SR (R 14) 32) (SL (R 14) 32));
  (9%nat, Ad (R 9) (R 14));
  (4%nat, Xo (R 4) (R 9));
  (4%nat, Or (SR (R 4) 24) (SL (R 4) 40));
  (3%nat, Ad (R 3) (Ad (R 4) (R 26)));
  (14%nat, Xo (R 14) (R 3));
  (14%nat, Or (SR (R 14) 16) (SL (R 14) 48));
  (9%nat, Ad (R 9) (R 14));
  (4%nat, Xo (R 4) (R 9));
  (4%nat, Or (SR (R 4) 63) (SL (R 4) 1));
  (0%nat, Ad (R 0) (Ad (R 4) (R 22)));
  (12%nat, Xo (R 12) (R 0));
  (12%nat, Or (SR (R 12) 32) (SL (R 12) 32));
  (8%nat, Ad (R 8) (R 12));
  (4%nat, Xo (R 4) (R 8));
  (4%nat, Or (SR (R 4) 24) (SL (R 4) 40));
  (0%nat, Ad (R 0) (Ad (R 4) (R 31)));
  (12%nat, Xo (R 12) (R 0));
  (12%nat, Or (SR (R 12) 16) (SL (R 12) 48));
  (8%nat, Ad (R 8) (R 12));
  (4%nat, Xo (R 4) (R 8));
  (4%nat, Or (SR (R 4) 63) (SL (R 4) 1));
  (1%nat, Ad (R 1) (Ad (R 5) (R 30)));
  (13%nat, Xo (R 13) (R 1));
  (13%nat, Or (SR (R 13) 32) (SL (R 13) 32));
  (9%nat, Ad (R 9) (R 13));
  (5%nat, Xo (R 5) (R 9));
  (5%nat, Or (SR (R 5) 24) (SL (R 5) 40));
  (1%nat, Ad (R 1) (Ad (R 5) (R 25)));
  (13%nat, Xo (R 13) (R 1));
  (13%nat, Or (SR (R 13) 16) (SL (R 13) 48));
  (9%nat, Ad (R 9) (R 13));
  (5%nat, Xo (R 5) (R 9));
  (5%nat, Or (SR (R 5) 63) (SL (R 5) 1));
  (2%nat, Ad (R 2) (Ad (R 6) (R 27)));
  (14%nat, Xo (R 14) (R 2));
  (14%nat, Or (SR (R 14) 32) (SL (R 14) 32));
  (10%nat, Ad (R 10) (R 14));
  (6%nat, Xo (R 6) (R 10));
  (6%nat, Or (SR (R 6) 24) (SL (R 6) 40));
  (2%nat, Ad (R 2) (Ad (R 6) (R 19)));
  (14%nat, Xo (R 14) (R 2));
  (14%nat, Or (SR (R 14) 16) (SL (R 14) 48));
  (10%nat, Ad (R 10) (R 14));
  (6%nat, Xo (R 6) (R 10));
  (6%nat, Or (SR (R 6) 63) (SL (R 6) 1));
  (3%nat, Ad (R 3) (Ad (R 7) (R 16)));
  (15%nat, Xo (R 15) (R 3));
  (15%nat, Or (SR (R 15) 32) (SL (R 15) 32));
  (11%nat, Ad (R 11) (R 15));
  (7%nat, Xo (R 7) (R 11));
  (7%nat, Or (SR (R 7) 24) (SL (R 7) 40));
  (3%nat, Ad (R 3) (Ad (R 7) (R 24)));
  (15%nat, Xo (R 15) (R 3));
  (15%nat, Or (SR (R 15) 16) (SL (R 15) 48));
  (11%nat, Ad (R 11) (R 15));
  (7%nat, Xo (R 7) (R 11));
  (7%nat, Or (SR (R 7) 63) (SL (R 7) 1));
  (0%nat, Ad (R 0) (Ad (R 5) (R 28)));
  (15%nat, Xo (R 15) (R 0));
  (15%nat, Or (SR (R 15) 32) (SL (R 15) 32));
  (10%nat, Ad (R 10) (R 15));
  (5%nat, Xo (R 5) (R 10));
  (5%nat, Or (SR (R 5) 24) (SL (R 5) 40));
  (0%nat, Ad (R 0) (Ad (R 5) (R 18)));
  (15%nat, Xo (R 15) (R 0));
  (15%nat, Or (SR (R 15) 16) (SL (R 15) 48));
  (10%nat, Ad (R 10) (R 15));
  (5%nat, Xo (R 5) (R 10));
  (5%nat, Or (SR (R 5) 63) (SL (R 5) 1));
  (1%nat, Ad (R 1) (Ad (R 6) (R 29)));
  (12%nat, Xo (R 12) (R 1));
  (12%nat, Or (SR (R 12) 32) (SL (R 12) 32));
  (11%nat, Ad (R 11) (R 12));
  (6%nat, Xo (R 6) (R 11));
  (6%nat, Or (SR (R 6) 24) (SL (R 6) 40));
  (1%nat, Ad (R 1) (Ad (R 6) (R 23)));
  (12%nat, Xo (R 12) (R 1));
  (12%nat, Or (SR (R 12) 16) (SL (R 12) 48));
  (11%nat, Ad (R 11) (R 12));
  (6%nat, Xo (R 6) (R 11));
  (6%nat, Or (SR (R 6) 63) (SL (R 6) 1));
  (2%nat, Ad (R 2) (Ad (R 7) (R 17)));
  (13%nat, Xo (R 13) (R 2));
  (13%nat, Or (SR (R 13) 32) (SL (R 13) 32));
  (8%nat, Ad (R 8) (R 13));
  (7%nat, Xo (R 7) (R 8));
  (7%nat, Or (SR (R 7) 24) (SL (R 7) 40));
  (2%nat, Ad (R 2) (Ad (R 7) (R 20)));
  (13%nat, Xo (R 13) (R 2));
  (13%nat, Or (SR (R 13) 16) (SL (R 13) 48));
  (8%nat, Ad (R 8) (R 13));
  (7%nat, Xo (R 7) (R 8));
  (7%nat, Or (SR (R 7) 63) (SL (R 7) 1));
  (3%nat, Ad (R 3) (Ad (R 4) (R 26)));
  (14%nat, Xo (R 14) (R 3));
  (14%nat, Or (SR (R 14) 32) (SL (R 14) 32));
  (9%nat, Ad (R 9) (R 14));
  (4%nat, Xo (R 4) (R 9));
  (4%nat, Or (SR (R 4) 24) (SL (R 4) 40));
  (3%nat, Ad (R 3) (Ad (R 4) (R 21)));
  (14%nat, Xo (R 14) (R 3));
  (14%nat, Or (SR (R 14) 16) (SL (R 14) 48));
  (9%nat, Ad (R 9) (R 14));
  (4%nat, Xo (R 4) (R 9));
  (4%nat, Or (SR (R 4) 63) (SL (R 4) 1));
  (0%nat, Ad (R 0) (Ad (R 4) (R 26)));
  (12%nat, Xo (R 12) (R 0));
  (12%nat, Or (SR (R 12) 32) (SL (R 12) 32));
  (8%nat, Ad (R 8) (R 12));
  (4%nat, Xo (R 4) (R 8));
  (4%nat, Or (SR (R 4) 24) (SL (R 4) 40));
  (0%nat, Ad (R 0) (Ad (R 4) (R 18)));
  (12%nat, Xo (R 12) (R 0));
  (12%nat, Or (SR (R 12) 16) (SL (R 12) 48));
  (8%nat, Ad (R 8) (R 12));
  (4%nat, Xo (R 4) (R 8));
  (4%nat, Or (SR (R 4) 63) (SL (R 4) 1));
  (1%nat, Ad (R 1) (Ad (R 5) (R 24)));
  (13%nat, Xo (R 13) (R 1));
  (13%nat, Or (SR (R 13) 32) (SL (R 13) 32));
  (9%nat, Ad (R 9) (R 13));
  (5%nat, Xo (R 5) (R 9));
  (5%nat, Or (SR (R 5) 24) (SL (R 5) 40));
  (1%nat, Ad (R 1) (Ad (R 5) (R 20)));
  (13%nat, Xo (R 13) (R 1));
  (13%nat, Or (SR (R 13) 16) (SL (R 13) 48));
  (9%nat, Ad (R 9) (R 13));
  (5%nat, Xo (R 5) (R 9));
  (5%nat, Or (SR (R 5) 63) (SL (R 5) 1));
  (2%nat, Ad (R 2) (Ad (R 6) (R 23)));
  (14%nat, Xo (R 14) (R 2));
  (14%nat, Or (SR (R 14) 32) (SL (R 14) 32));
  (10%nat, Ad (R 10) (R 14));
  (6%nat, Xo (R 6) (R 10));
  (6%nat, Or (SR (R 6) 24) (SL (R 6) 40));
  (2%nat, Ad (R 2) (Ad (R 6) (R 22)));
  (14%nat, Xo (R 14) (R 2));
  (14%nat, Or (SR (R 14) 16) (SL (R 14) 48));
  (10%nat, Ad (R 10) (R 14));
  (6%nat, Xo (R 6) (R 10));
  (6%nat, Or (SR (R 6) 63) (SL (R 6) 1));
  (3%nat, Ad (R 3) (Ad (R 7) (R 17)));
  (15%nat, Xo (R 15) (R 3));
  (15%nat, Or (SR (R 15) 32) (SL (R 15) 32));
  (11%nat, Ad (R 11) (R 15));
  (7%nat, Xo (R 7) (R 11));
  (7%nat, Or (SR (R 7) 24) (SL (R 7) 40));
  (3%nat, Ad (R 3) (Ad (R 7) (R 21)));
  (15%nat, Xo (R 15) (R 3));
  (15%nat, Or (SR (R 15) 16) (SL (R 15) 48));
  (11%nat, Ad (R 11) (R 15));
  (7%nat, Xo (R 7) (R 11));
  (7%nat, Or (SR (R 7) 63) (SL (R 7) 1));
  (0%nat, Ad (R 0) (Ad (R 5) (R 31)));
  (15%nat, Xo (R 15) (R 0));
  (15%nat, Or (SR (R 15) 32) (SL (R 15) 32));
  (10%nat, Ad (R 10) (R 15));
  (5%nat, Xo (R 5) (R 10));
  (5%nat, Or (SR (R 5) 24) (SL (R 5) 40));
  (0%nat, Ad (R 0) (Ad (R 5) (R 27)));
  (15%nat, Xo (R 15) (R 0));
  (15%nat, Or (SR (R 15) 16) (SL (R 15) 48));
  (10%nat, Ad (R 10) (R 15));
  (5%nat, Xo (R 5) (R 10));
  (5%nat, Or (SR (R 5) 63) (SL (R 5) 1));
  (1%nat, Ad (R 1) (Ad (R 6) (R 25)));
  (12%nat, Xo (R 12) (R 1));
  (12%nat, Or (SR (R 12) 32) (SL (R 12) 32));
  (11%nat, Ad (R 11) (R 12));
  (6%nat, Xo (R 6) (R 11));
  (6%nat, Or (SR (R 6) 24) (SL (R 6) 40));
  (1%nat, Ad (R 1) (Ad (R 6) (R 30)));
  (12%nat, Xo (R 12) (R 1));
  (12%nat, Or (SR (R 12) 16) (SL (R 12) 48));
  (11%nat, Ad (R 11) (R 12));
  (6%nat, Xo (R 6) (R 11));
  (6%nat, Or (SR (R 6) 63) (SL (R 6) 1));
  (2%nat, Ad (R 2) (Ad (R 7) (R 19)));
  (13%nat, Xo (R 13) (R 2));
  (13%nat, Or (SR (R 13) 32) (SL (R 13) 32));
  (8%nat, Ad (R 8) (R 13));
  (7%nat, Xo (R 7) (R 8));
  (7%nat, Or (SR (R 7) 24) (SL (R 7) 40));
  (2%nat, Ad (R 2) (Ad (R 7) (R 28)));
  (13%nat, Xo (R 13) (R 2));
  (13%nat, Or (SR (R 13) 16) (SL (R 13) 48));
  (8%nat, Ad (R 8) (R 13));
  (7%nat, Xo (R 7) (R 8));
  (7%nat, Or (SR (R 7) 63) (SL (R 7) 1));
  (3%nat, Ad (R 3) (Ad (R 4) (R 29)));
  (14%nat, Xo (R 14) (R 3));
  (14%nat, Or (SR (R 14) 32) (SL (R 14) 32));
  (9%nat, Ad (R 9) (R 14));
  (4%nat, Xo (R 4) (R 9));
  (4%nat, Or (SR (R 4) 24) (SL (R 4) 40));
  (3%nat, Ad (R 3) (Ad (R 4) (R 16)));
  (14%nat, Xo (R 14) (R 3));
  (14%nat, Or (SR (R 14) 16) (SL (R 14) 48));
  (9%nat, Ad (R 9) (R 14));
  (4%nat, Xo (R 4) (R 9));
  (4%nat, Or (SR (R 4) 63) (SL (R 4) 1));
  (0%nat, Ad (R 0) (Ad (R 4) (R 16)));
  (12%nat, Xo (R 12) (R 0));
  (12%nat, Or (SR (R 12) 32) (SL (R 12) 32));
  (8%nat, Ad (R 8) (R 12));
  (4%nat, Xo (R 4) (R 8));
  (4%nat, Or (SR (R 4) 24) (SL (R 4) 40));
  (0%nat, Ad (R 0) (Ad (R 4) (R 17)));
  (12%nat, Xo (R 12) (R 0));
  (12%nat, Or (SR (R 12) 16) (SL (R 12) 48));
  (8%nat, Ad (R 8) (R 12));
  (4%nat, Xo (R 4) (R 8));
  (4%nat, Or (SR (R 4) 63) (SL (R 4) 1));
  (1%nat, Ad (R 1) (Ad (R 5) (R 18)));
  (13%nat, Xo (R 13) (R 1));
  (13%nat, Or (SR (R 13) 32) (SL (R 13) 32));
  (9%nat, Ad (R 9) (R 13));
  (5%nat, Xo (R 5) (R 9));
  (5%nat, Or (SR (R 5) 24) (SL (R 5) 40));
  (1%nat, Ad (R 1) (Ad (R 5) (R 19)));
  (13%nat, Xo (R 13) (R 1));
  (13%nat, Or (SR (R 13) 16) (SL (R 13) 48));
  (9%nat, Ad (R 9) (R 13));
  (5%nat, Xo (R 5) (R 9));
  (5%nat, Or (SR (R 5) 63) (SL (R 5) 1));
  (2%nat, Ad (R 2) (Ad (R 6) (R 20)));
  (14%nat, Xo (R 14) (R 2));
  (14%nat, Or (SR (R 14) 32) (SL (R 14) 32));
  (10%nat, Ad (R 10) (R 14));
  (6%nat, Xo (R 6) (R 10));
  (6%nat, Or (SR (R 6) 24) (SL (R 6) 40));
  (2%nat, Ad (R 2) (Ad (R 6) (R 21)));
  (14%nat, Xo (R 14) (R 2));
  (14%nat, Or (SR (R 14) 16) (SL (R 14) 48));
  (10%nat, Ad (R 10) (R 14));
  (6%nat, Xo (R 6) (R 10));
  (6%nat, Or (SR (R 6) 63) (SL (R 6) 1));
  (3%nat, Ad (R 3) (Ad (R 7) (R 22)));
  (15%nat, Xo (R 15) (R 3));
  (15%nat, Or (SR (R 15) 32) (SL (R 15) 32));
  (11%nat, Ad (R 11) (R 15));
  (7%nat, Xo (R 7) (R 11));
  (7%nat, Or (SR (R 7) 24) (SL (R 7) 40));
  (3%nat, Ad (R 3) (Ad (R 7) (R 23)));
  (15%nat, Xo (R 15) (R 3));
  (15%nat, Or (SR (R 15) 16) (SL (R 15) 48));
  (11%nat, Ad (R 11) (R 15));
  (7%nat, Xo (R 7) (R 11));
  (7%nat, Or (SR (R 7) 63) (SL (R 7) 1));
  (0%nat, Ad (R 0) (Ad (R 5) (R 24)));
  (15%nat, Xo (R 15) (R 0));
  (15%nat, Or (SR (R 15) 32) (SL (R 15) 32));
  (10%nat, Ad (R 10) (R 15));
  (5%nat, Xo (R 5) (R 10));
  (5%nat, Or (SR (R 5) 24) (SL (R 5) 40));
  (0%nat, Ad (R 0) (Ad (R 5) (R 25)));
  (15%nat, Xo (R 15) (R 0));
  (15%nat, Or (SR (R 15) 16) (SL (R 15) 48));
  (10%nat, Ad (R 10) (R 15));
  (5%nat, Xo (R 5) (R 10));
  (5%nat, Or (SR (R 5) 63) (SL (R 5) 1));
  (1%nat, Ad (R 1) (Ad (R 6) (R 26)));
  (12%nat, Xo (R 12) (R 1));
  (12%nat, Or (SR (R 12) 32) (SL (R 12) 32));
  (11%nat, Ad (R 11) (R 12));
  (6%nat, Xo (R 6) (R 11));
  (6%nat, Or (SR (R 6) 24) (SL (R 6) 40));
  (1%nat, Ad (R 1) (Ad (R 6) (R 27)));
  (12%nat, Xo (R 12) (R 1));
  (12%nat, Or (SR (R 12) 16) (SL (R 12) 48));
  (11%nat, Ad (R 11) (R 12));
  (6%nat, Xo (R 6) (R 11));
  (6%nat, Or (SR (R 6) 63) (SL (R 6) 1));
  (2%nat, Ad (R 2) (Ad (R 7) (R 28)));
  (13%nat, Xo (R 13) (R 2));
  (13%nat, Or (SR (R 13) 32) (SL (R 13) 32));
  (8%nat, Ad (R 8) (R 13));
  (7%nat, Xo (R 7) (R 8));
  (7%nat, Or (SR (R 7) 24) (SL (R 7) 40));
  (2%nat, Ad (R 2) (Ad (R 7) (R 29)));
  (13%nat, Xo (R 13) (R 2));
  (13%nat, Or (SR (R 13) 16) (SL (R 13) 48));
  (8%nat, Ad (R 8) (R 13));
  (7%nat, Xo (R 7) (R 8));
  (7%nat, Or (SR (R 7) 63) (SL (R 7) 1));
  (3%nat, Ad (R 3) (Ad (R 4) (R 30)));
  (14%nat, Xo (R 14) (R 3));
  (14%nat, Or (SR (R 14) 32) (SL (R 14) 32));
  (9%nat, Ad (R 9) (R 14));
  (4%nat, Xo (R 4) (R 9));
  (4%nat, Or (SR (R 4) 24) (SL (R 4) 40));
  (3%nat, Ad (R 3) (Ad (R 4) (R 31)));
  (14%nat, Xo (R 14) (R 3));
  (14%nat, Or (SR (R 14) 16) (SL (R 14) 48));
  (9%nat, Ad (R 9) (R 14));
  (4%nat, Xo (R 4) (R 9));
  (4%nat, Or (SR (R 4) 63) (SL (R 4) 1));
  (0%nat, Ad (R 0) (Ad (R 4) (R 30)));
  (12%nat, Xo (R 12) (R 0));
  (12%nat, Or (SR (R 12) 32) (SL (R 12) 32));
  (8%nat, Ad (R 8) (R 12));
  (4%nat, Xo (R 4) (R 8));
  (4%nat, Or (SR (R 4) 24) (SL (R 4) 40));
  (0%nat, Ad (R 0) (Ad (R 4) (R 26)));
  (12%nat, Xo (R 12) (R 0));
  (12%nat, Or (SR (R 12) 16) (SL (R 12) 48));
  (8%nat, Ad (R 8) (R 12));
  (4%nat, Xo (R 4) (R 8));
  (4%nat, Or (SR (R 4) 63) (SL (R 4) 1));
  (1%nat, Ad (R 1) (Ad (R 5) (R 20)));
  (13%nat, Xo (R 13) (R 1));
  (13%nat, Or (SR (R 13) 32) (SL (R 13) 32));
  (9%nat, Ad (R 9) (R 13));
  (5%nat, Xo (R 5) (R 9));
  (5%nat, Or (SR (R 5) 24) (SL (R 5) 40));
  (1%nat, Ad (R 1) (Ad (R 5) (R 24)));
  (13%nat, Xo (R 13) (R 1));
  (13%nat, Or (SR (R 13) 16) (SL (R 13) 48));
  (9%nat, Ad (R 9) (R 13));
  (5%nat, Xo (R 5) (R 9));
  (5%nat, Or (SR (R 5) 63) (SL (R 5) 1));
  (2%nat, Ad (R 2) (Ad (R 6) (R 25)));
  (14%nat, Xo (R 14) (R 2));
  (14%nat, Or (SR (R 14) 32) (SL (R 14) 32));
  (10%nat, Ad (R 10) (R 14));
  (6%nat, Xo (R 6) (R 10));
  (6%nat, Or (SR (R 6) 24) (SL (R 6) 40));
  (2%nat, Ad (R 2) (Ad (R 6) (R 31)));
  (14%nat, Xo (R 14) (R 2));
  (14%nat, Or (SR (R 14) 16) (SL (R 14) 48));
  (10%nat, Ad (R 10) (R 14));
  (6%nat, Xo (R 6) (R 10));
  (6%nat, Or (SR (R 6) 63) (SL (R 6) 1));
  (3%nat, Ad (R 3) (Ad (R 7) (R 29)));
  (15%nat, Xo (R 15) (R 3));
  (15%nat, Or (SR (R 15) 32) (SL (R 15) 32));
  (11%nat, Ad (R 11) (R 15));
  (7%nat, Xo (R 7) (R 11));
  (7%nat, Or (SR (R 7) 24) (SL (R 7) 40));
  (3%nat, Ad (R 3) (Ad (R 7) (R 22)));
  (15%nat, Xo (R 15) (R 3));
  (15%nat, Or (SR (R 15) 16) (SL (R 15) 48));
  (11%nat, Ad (R 11) (R 15));
  (7%nat, Xo (R 7) (R 11));
  (7%nat, Or (SR (R 7) 63) (SL (R 7) 1));
  (0%nat, Ad (R 0) (Ad (R 5) (R 17)));
  (15%nat, Xo (R 15) (R 0));
  (15%nat, Or (SR (R 15) 32) (SL (R 15) 32));
  (10%nat, Ad (R 10) (R 15));
  (5%nat, Xo (R 5) (R 10));
  (5%nat, Or (SR (R 5) 24) (SL (R 5) 40));
  (0%nat, Ad (R 0) (Ad (R 5) (R 28)));
  (15%nat, Xo (R 15) (R 0));
  (15%nat, Or (SR (R 15) 16) (SL (R 15) 48));
  (10%nat, Ad (R 10) (R 15));
  (5%nat, Xo (R 5) (R 10));
  (5%nat, Or (SR (R 5) 63) (SL (R 5) 1));
  (1%nat, Ad (R 1) (Ad (R 6) (R 16)));
  (12%nat, Xo (R 12) (R 1));
  (12%nat, Or (SR (R 12) 32) (SL (R 12) 32));
  (11%nat, Ad (R 11) (R 12));
  (6%nat, Xo (R 6) (R 11));
  (6%nat, Or (SR (R 6) 24) (SL (R 6) 40));
  (1%nat, Ad (R 1) (Ad (R 6) (R 18)));
  (12%nat, Xo (R 12) (R 1));
  (12%nat, Or (SR (R 12) 16) (SL (R 12) 48));
  (11%nat, Ad (R 11) (R 12));
  (6%nat, Xo (R 6) (R 11));
  (6%nat, Or (SR (R 6) 63) (SL (R 6) 1));
  (2%nat, Ad (R 2) (Ad (R 7) (R 27)));
  (13%nat, Xo (R 13) (R 2));
  (13%nat, Or (SR (R 13) 32) (SL (R 13) 32));
  (8%nat, Ad (R 8) (R 13));
  (7%nat, Xo (R 7) (R 8));
  (7%nat, Or (SR (R 7) 24) (SL (R 7) 40));
  (2%nat, Ad (R 2) (Ad (R 7) (R 23)));
  (13%nat, Xo (R 13) (R 2));
  (13%nat, Or (SR (R 13) 16) (SL (R 13) 48));
  (8%nat, Ad (R 8) (R 13));
  (7%nat, Xo (R 7) (R 8));
  (7%nat, Or (SR (R 7) 63) (SL (R 7) 1));
  (3%nat, Ad (R 3) (Ad (R 4) (R 21)));
  (14%nat, Xo (R 14) (R 3));
  (14%nat, Or (SR (R 14) 32) (SL (R 14) 32));
  (9%nat, Ad (R 9) (R 14));
  (4%nat, Xo (R 4) (R 9));
  (4%nat, Or (SR (R 4) 24) (SL (R 4) 40));
  (3%nat, Ad (R 3) (Ad (R 4) (R 19)));
  (14%nat, Xo (R 14) (R 3));
  (14%nat, Or (SR (R 14) 16) (SL (R 14) 48));
  (9%nat, Ad (R 9) (R 14));
  (4%nat, Xo (R 4) (R 9));
  (4%nat, Or (SR (R 4) 63) (SL (R 4) 1));
  (32%nat, Xo (R 32) (Xo (R 0) (R 8)));
  (33%nat, Xo (R 33) (Xo (R 1) (R 9)));
  (34%nat, Xo (R 34) (Xo (R 2) (R 10)));
  (35%nat, Xo (R 35) (Xo (R 3) (R 11)));
  (36%nat, Xo (R 36) (Xo (R 4) (R 12)));
  (37%nat, Xo (R 37) (Xo (R 5) (R 13)));
  (38%nat, Xo (R 38) (Xo (R 6) (R 14)));
  (39%nat, Xo (R 39) (Xo (R 7) (R 15)))].

(** CEX/Blake.h:139-276 PermuteR10P512C: one pass of the loop (i < 10) *)
Definition blake256_C : prog := [
  (0%nat, Ad (R 0) (Ad (R 4) (R 16)));
  (12%nat, Xo (R 12) (R 0));
  (12%nat, Or (SR (R 12) 16) (SL (R 12) 16));
  (8%nat, Ad (R 8) (R 12));
  (4%nat, Xo (R 4) (R 8));
  (4%nat, Or (SR (R 4) 12) (SL (R 4) 20));
  (0%nat, Ad (R 0) (Ad (R 4) (R 17)));
  (12%nat, Xo (R 12) (R 0));
  (12%nat, Or (SR (R 12) 8) (SL (R 12) 24));
  (8%nat, Ad (R 8) (R 12));
  (4%nat, Xo (R 4) (R 8));
  (4%nat, Or (SR (R 4) 7) (SL (R 4) 25));
  (1%nat, Ad (R 1) (Ad (R 5) (R 18)));
  (13%nat, Xo (R 13) (R 1));
  (13%nat, Or (SR (R 13) 16) (SL (R 13) 16));
  (9%nat, Ad (R 9) (R 13));
  (5%nat, Xo (R 5) (R 9));
  (5%nat, Or (SR (R 5) 12) (SL (R 5) 20));
  (1%nat, Ad (R 1) (Ad (R 5) (R 19)));
  (13%nat, Xo (R 13) (R 1));
  (13%nat, Or (SR (R 13) 8) (SL (R 13) 24));
  (9%nat, Ad (R 9) (R 13));
  (5%nat, Xo (R 5) (R 9));
  (5%nat, Or (SR (R 5) 7) (SL (R 5) 25));
  (2%nat, Ad (R 2) (Ad (R 6) (R 20)));
  (14%nat, Xo (R 14) (R 2));
  (14%nat, Or (SR (R 14) 16) (SL (R 14) 16));
  (10%nat, Ad (R 10) (R 14));
  (6%nat, Xo (R 6) (R 10));
  (6%nat, Or (SR (R 6) 12) (SL (R 6) 20));
  (2%nat, Ad (R 2) (Ad (R 6) (R 21)));
  (14%nat, Xo (R 14) (R 2));
  (14%nat, Or (SR (R 14) 8) (SL (R 14) 24));
  (10%nat, Ad (R 10) (R 14));
  (6%nat, Xo (R 6) (R 10));
  (6%nat, Or (SR (R 6) 7) (SL (R 6) 25));
  (3%nat, Ad (R 3) (Ad (R 7) (R 22)));
  (15%nat, Xo (R 15) (R 3));
  (15%nat, Or (SR (R 15) 16) (SL (R 15) 16));
  (11%nat, Ad (R 11) (R 15));
  (7%nat, Xo (R 7) (R 11));
  (7%nat, Or (SR (R 7) 12) (SL (R 7) 20));
  (3%nat, Ad (R 3) (Ad (R 7) (R 23)));
  (15%nat, Xo (R 15) (R 3));
  (15%nat, Or (SR (R 15) 8) (SL (R 15) 24));
  (11%nat, Ad (R 11) (R 15));
  (7%nat, Xo (R 7) (R 11));
  (7%nat, Or (SR (R 7) 7) (SL (R 7) 25));
  (0%nat, Ad (R 0) (Ad (R 5) (R 24)));
  (15%nat, Xo (R 15) (R 0));
  (15%nat, Or (SR (R 15) 16) (SL (R 15) 16));
  (10%nat, Ad (R 10) (R 15));
  (5%nat, Xo (R 5) (R 10));
  (5%nat, Or (SR (R 5) 12) (SL (R 5) 20));
  (0%nat, Ad (R 0) (Ad (R 5) (R 25)));
  (15%nat, Xo (R 15) (R 0));
  (15%nat, Or (SR (R 15) 8) (SL (R 15) 24));
  (10%nat, Ad (R 10) (R 15));
  (5%nat, Xo (R 5) (R 10));
  (5%nat, Or (SR (R 5) 7) (SL (R 5) 25));
  (1%nat, Ad (R 1) (Ad (R 6) (R 26)));
  (12%nat, Xo (R 12) (R 1));
  (12%nat, Or (SR (R 12) 16) (SL (R 12) 16));
  (11%nat, Ad (R 11) (R 12));
  (6%nat, Xo (R 6) (R 11));
  (6%nat, Or (SR (R 6) 12) (SL (R 6) 20));
  (1%nat, Ad (R 1) (Ad (R 6) (R 27)));
  (12%nat, Xo (R 12) (R 1));
  (12%nat, Or (SR (R 12) 8) (SL (R 12) 24));
  (11%nat, Ad (R 11) (R 12));
  (6%nat, Xo (R 6) (R 11));
  (6%nat, Or (SR (R 6) 7) (SL (R 6) 25));
  (2%nat, Ad (R 2) (Ad (R 7) (R 28)));
  (13%nat, Xo (R 13) (R 2));
  (13%nat, Or (SR (R 13) 16) (SL (R 13) 16));
  (8%nat, Ad (R 8) (R 13));
  (7%nat, Xo (R 7) (R 8));
  (7%nat, Or (SR (R 7) 12) (SL (R 7) 20));
  (2%nat, Ad (R 2) (Ad (R 7) (R 29)));
  (13%nat, Xo (R 13) (R 2));
  (13%nat, Or (SR (R 13) 8) (SL (R 13) 24));
  (8%nat, Ad (R 8) (R 13));
  (7%nat, Xo (R 7) (R 8));
  (7%nat, Or (SR (R 7) 7) (SL (R 7) 25));
  (3%nat, Ad (R 3) (Ad (R 4) (R 30)));
  (14%nat, Xo (R 14) (R 3));
  (14%nat, Or (SR (R 14) 16) (SL (R 14) 16));
  (9%nat, Ad (R 9) (R 14));
  (4%nat, Xo (R 4) (R 9));
  (4%nat, Or (SR (R 4) 12) (SL (R 4) 20));
  (3%nat, Ad (R 3) (Ad (R 4) (R 31)));
  (14%nat, Xo (R 14) (R 3));
  (14%nat, Or (SR (R 14) 8) (SL (R 14) 24));
  (9%nat, Ad (R 9) (R 14));
  (4%nat, Xo (R 4) (R 9));
  (4%nat, Or (SR (R 4) 7) (SL (R 4) 25))].

(** CEX/Blake.h:139-276 PermuteR10P512C: after the loop; registers 0-15 R, 32-39 State *)
Definition blake256_C_fin : prog := [
  (32%nat, Xo (R 32) (Xo (R 0) (R 8)));
  (33%nat, Xo (R 33) (Xo (R 1) (R 9)));
  (34%nat, Xo (R 34) (Xo (R 2) (R 10)));
  (35%nat, Xo (R 35) (Xo (R 3) (R 11)));
  (36%nat, Xo (R 36) (Xo (R 4) (R 12)));
  (37%nat, Xo (R 37) (Xo (R 5) (R 13)));
  (38%nat, Xo (R 38) (Xo (R 6) (R 14)));
  (39%nat, Xo (R 39) (Xo (R 7) (R 15)))].

(** CEX/Blake.h:2312-2449 PermuteR12P1024C: one pass of the loop (i < 12) *)
Definition blake512_C : prog := [
  (0%nat, Ad (R 0) (Ad (R 4) (R 16)));
  (12%nat, Xo (R 12) (R 0));
  (12%nat, Or (SR (R 12) 32) (SL (R 12) 32));
  (8%nat, Ad (R 8) (R 12));
  (4%nat, Xo (R 4) (R 8));
  (4%nat, Or (SR (R 4) 24) (SL (R 4) 40));
  (0%nat, Ad (R 0) (Ad (R 4) (R 17)));
  (12%nat, Xo (R 12) (R 0));
  (12%nat, Or (SR (R 12) 16) (SL (R 12) 48));
  (8%nat, Ad (R 8) (R 12));
  (4%nat, Xo (R 4) (R 8));
  (4%nat, Or (SR (R 4) 63) (SL (R 4) 1));
  (1%nat, Ad (R 1) (Ad (R 5) (R 18)));
  (13%nat, Xo (R 13) (R 1));
  (13%nat, Or (SR (R 13) 32) (SL (R 13) 32));
  (9%nat, Ad (R 9) (R 13));
  (5%nat, Xo (R 5) (R 9));
  (5%nat, Or (SR (R 5) 24) (SL (R 5) 40));
  (1%nat, Ad (R 1) (Ad (R 5) (R 19)));
  (13%nat, Xo (R 13) (R 1));
  (13%nat, Or (SR (R 13) 16) (SL (R 13) 48));
  (9%nat, Ad (R 9) (R 13));
  (5%nat, Xo (R 5) (R 9));
  (5%nat, Or (SR (R 5) 63) (SL (R 5) 1));
  (2%nat, Ad (R 2) (Ad (R 6) (R 20)));
  (14%nat, Xo (R 14) (R 2));
  (14%nat, Or (SR (R 14) 32) (SL (R 14) 32));
  (10%nat, Ad (R 10) (R 14));
  (6%nat, Xo (R 6) (R 10));
  (6%nat, Or (SR (R 6) 24) (SL (R 6) 40));
  (2%nat, Ad (R 2) (Ad (R 6) (R 21)));
  (14%nat, Xo (R 14) (R 2));
  (14%nat, Or (SR (R 14) 16) (SL (R 14) 48));
  (10%nat, Ad (R 10) (R 14));
  (6%nat, Xo (R 6) (R 10));
  (6%nat, Or (SR (R 6) 63) (SL (R 6) 1));
  (3%nat, Ad (R 3) (Ad (R 7) (R 22)));
  (15%nat, Xo (R 15) (R 3));
  (15%nat, Or (SR (R 15) 32) (SL (R 15) 32));
  (11%nat, Ad (R 11) (R 15));
  (7%nat, Xo (R 7) (R 11));
  (7%nat, Or (SR (R 7) 24) (SL (R 7) 40));
  (3%nat, Ad (R 3) (Ad (R 7) (R 23)));
  (15%nat, Xo (R 15) (R 3));
  (15%nat, Or (SR (R 15) 16) (SL (R 15) 48));
  (11%nat, Ad (R 11) (R 15));
  (7%nat, Xo (R 7) (R 11));
  (7%nat, Or (SR (R 7) 63) (SL (R 7) 1));
  (0%nat, Ad (R 0) (Ad (R 5) (R 24)));
  (15%nat, Xo (R 15) (R 0));
  (15%nat, Or (SR (R 15) 32) (SL (R 15) 32));
  (10%nat, Ad (R 10) (R 15));
  (5%nat, Xo (R 5) (R 10));
  (5%nat, Or (SR (R 5) 24) (SL (R 5) 40));
  (0%nat, Ad (R 0) (Ad (R 5) (R 25)));
  (15%nat, Xo (R 15) (R 0));
  (15%nat, Or (SR (R 15) 16) (SL (R 15) 48));
  (10%nat, Ad (R 10) (R 15));
  (5%nat, Xo (R 5) (R 10));
  (5%nat, Or (SR (R 5) 63) (SL (R 5) 1));
  (1%nat, Ad (R 1) (Ad (R 6) (R 26)));
  (12%nat, Xo (R 12) (R 1));
  (12%nat, Or (SR (R 12) 32) (SL (R 12) 32));
  (11%nat, Ad (R 11) (R 12));
  (6%nat, Xo (R 6) (R 11));
  (6%nat, Or (SR (R 6) 24) (SL (R 6) 40));
  (1%nat, Ad (R 1) (Ad (R 6) (R 27)));
  (12%nat, Xo (R 12) (R 1));
  (12%nat, Or (SR (R 12) 16) (SL (R 12) 48));
  (11%nat, Ad (R 11) (R 12));
  (6%nat, Xo (R 6) (R 11));
  (6%nat, Or (SR (R 6) 63) (SL (R 6) 1));
  (2%nat, Ad (R 2) (Ad (R 7) (R 28)));
  (13%nat, Xo (R 13) (R 2));
  (13%nat, Or (SR (R 13) 32) (SL (R 13) 32));
  (8%nat, Ad (R 8) (R 13));
  (7%nat, Xo (R 7) (R 8));
  (7%nat, Or (SR (R 7) 24) (SL (R 7) 40));
  (2%nat, Ad (R 2) (Ad (R 7) (R 29)));
  (13%nat, Xo (R 13) (R 2));
  (13%nat, Or (SR (R 13) 16) (SL (R 13) 48));
  (8%nat, Ad (R 8) (R 13));
  (7%nat, Xo (R 7) (R 8));
  (7%nat, Or (SR (R 7) 63) (SL (R 7) 1));
  (3%nat, Ad (R 3) (Ad (R 4) (R 30)));
  (14%nat, Xo (R 14) (R 3));
  (14%nat, Or (SR (R 14) 32) (SL (R 14) 32));
  (9%nat, Ad (R 9) (R 14));
  (4%nat, Xo (R 4) (R 9));
  (4%nat, Or (SR (R 4) 24) (SL (R 4) 40));
  (3%nat, Ad (R 3) (Ad (R 4) (R 31)));
  (14%nat, Xo (R 14) (R 3));
  (14%nat, Or (SR (R 14) 16) (SL (R 14) 48));
  (9%nat, Ad (R 9) (R 14));
  (4%nat, Xo (R 4) (R 9));
  (4%nat, Or (SR (R 4) 63) (SL (R 4) 1))].

(** CEX/Blake.h:2312-2449 PermuteR12P1024C: after the loop; registers 0-15 R, 32-39 State *)
Definition blake512_C_fin : prog := [
  (32%nat, Xo (R 32) (Xo (R 0) (R 8)));
  (33%nat, Xo (R 33) (Xo (R 1) (R 9)));
  (34%nat, Xo (R 34) (Xo (R 2) (R 10)));
  (35%nat, Xo (R 35) (Xo (R 3) (R 11)));
  (36%nat, Xo (R 36) (Xo (R 4) (R 12)));
  (37%nat, Xo (R 37) (Xo (R 5) (R 13)));
  (38%nat, Xo (R 38) (Xo (R 6) (R 14)));
  (39%nat, Xo (R 39) (Xo (R 7) (R 15)))].
