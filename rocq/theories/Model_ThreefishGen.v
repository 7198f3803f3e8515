(** The unrolled Threefish permutations as statement lists (see Model_Straight.v).
    GENERATED by tools/gen_threefish.py from CEX/Threefish.h and CEX/Skein.h; do not edit. *)
From Verif Require Import Base Model_Straight.
Open Scope Z_scope.

(** CEX/Threefish.h:283-649, body of PemuteR72P256U: generated by tools/straight.py, one entry per statement.
    Registers: 0=C0, 1=C1, 2=C2, 3=C3, 4=K0, 5=K1, 6=K2, 7=K3, 8=K4, 9=T0, 10=T1, 11=T2, 12=Counter[0], 13=Counter[1], 14=Key[0], 15=Key[1], 16=Key[2], 17=Key[3], 18=Tweak[0], 19=Tweak[1], 20=State[0], 21=State[1], 22=State[2], 23=State[3]. *)
Definition tsx256_U : prog := [
  (0%nat, R 12);
  (1%nat, R 13);
  (2%nat, K 0xFFFFFFFFFFFFFFFF);
  (3%nat, K 0xFFFFFFFFFFFFFFFF);
  (4%nat, R 14);
  (5%nat, R 15);
  (6%nat, R 16);
  (7%nat, R 17);
  (8%nat, Xo (Xo (Xo (Xo (R 4) (R 5)) (R 6)) (R 7)) (K 0x1BD11BDAA9FC1A22));
  (9%nat, R 18);
  (10%nat, R 19);
  (11%nat, Xo (R 18) (R 19));
  (1%nat, Ad (R 1) (Ad (R 5) (R 9)));
  (0%nat, Ad (R 0) (Ad (R 1) (R 4)));
  (1%nat, Xo (RLo (R 1) 14) (R 0));
  (3%nat, Ad (R 3) (R 7));
  (2%nat, Ad (R 2) (Ad (Ad (R 3) (R 6)) (R 10)));
  (3%nat, Xo (RLo (R 3) 16) (R 2));
  (0%nat, Ad (R 0) (R 3));
  (3%nat, Xo (RLo (R 3) 52) (R 0));
  (2%nat, Ad (R 2) (R 1));
  (1%nat, Xo (RLo (R 1) 57) (R 2));
  (0%nat, Ad (R 0) (R 1));
  (1%nat, Xo (RLo (R 1) 23) (R 0));
  (2%nat, Ad (R 2) (R 3));
  (3%nat, Xo (RLo (R 3) 40) (R 2));
  (0%nat, Ad (R 0) (R 3));
  (3%nat, Xo (RLo (R 3) 5) (R 0));
  (2%nat, Ad (R 2) (R 1));
  (1%nat, Xo (RLo (R 1) 37) (R 2));
  (1%nat, Ad (R 1) (Ad (R 6) (R 10)));
  (0%nat, Ad (R 0) (Ad (R 1) (R 5)));
  (1%nat, Xo (RLo (R 1) 25) (R 0));
  (3%nat, Ad (R 3) (Ad (R 8) (K 0x1)));
  (2%nat, Ad (R 2) (Ad (Ad (R 3) (R 7)) (R 11)));
  (3%nat, Xo (RLo (R 3) 33) (R 2));
  (0%nat, Ad (R 0) (R 3));
  (3%nat, Xo (RLo (R 3) 46) (R 0));
  (2%nat, Ad (R 2) (R 1));
  (1%nat, Xo (RLo (R 1) 12) (R 2));
  (0%nat, Ad (R 0) (R 1));
  (1%nat, Xo (RLo (R 1) 58) (R 0));
  (2%nat, Ad (R 2) (R 3));
  (3%nat, Xo (RLo (R 3) 22) (R 2));
  (0%nat, Ad (R 0) (R 3));
  (3%nat, Xo (RLo (R 3) 32) (R 0));
  (2%nat, Ad (R 2) (R 1));
  (1%nat, Xo (RLo (R 1) 32) (R 2));
  (1%nat, Ad (R 1) (Ad (R 7) (R 11)));
  (0%nat, Ad (R 0) (Ad (R 1) (R 6)));
  (1%nat, Xo (RLo (R 1) 14) (R 0));
  (3%nat, Ad (R 3) (Ad (R 4) (K 0x2)));
  (2%nat, Ad (R 2) (Ad (Ad (R 3) (R 8)) (R 9)));
  (3%nat, Xo (RLo (R 3) 16) (R 2));
  (0%nat, Ad (R 0) (R 3));
  (3%nat, Xo (RLo (R 3) 52) (R 0));
  (2%nat, Ad (R 2) (R 1));
  (1%nat, Xo (RLo (R 1) 57) (R 2));
  (0%nat, Ad (R 0) (R 1));
  (1%nat, Xo (RLo (R 1) 23) (R 0));
  (2%nat, Ad (R 2) (R 3));
  (3%nat, Xo (RLo (R 3) 40) (R 2));
  (0%nat, Ad (R 0) (R 3));
  (3%nat, Xo (RLo (R 3) 5) (R 0));
  (2%nat, Ad (R 2) (R 1));
  (1%nat, Xo (RLo (R 1) 37) (R 2));
  (1%nat, Ad (R 1) (Ad (R 8) (R 9)));
  (0%nat, Ad (R 0) (Ad (R 1) (R 7)));
  (1%nat, Xo (RLo (R 1) 25) (R 0));
  (3%nat, Ad (R 3) (Ad (R 5) (K 0x3)));
  (2%nat, Ad (R 2) (Ad (Ad (R 3) (R 4)) (R 10)));
  (3%nat, Xo (RLo (R 3) 33) (R 2));
  (0%nat, Ad (R 0) (R 3));
  (3%nat, Xo (RLo (R 3) 46) (R 0));
  (2%nat, Ad (R 2) (R 1));
  (1%nat, Xo (RLo (R 1) 12) (R 2));
  (0%nat, Ad (R 0) (R 1));
  (1%nat, Xo (RLo (R 1) 58) (R 0));
  (2%nat, Ad (R 2) (R 3));
  (3%nat, Xo (RLo (R 3) 22) (R 2));
  (0%nat, Ad (R 0) (R 3));
  (3%nat, Xo (RLo (R 3) 32) (R 0));
  (2%nat, Ad (R 2) (R 1));
  (1%nat, Xo (RLo (R 1) 32) (R 2));
  (1%nat, Ad (R 1) (Ad (R 4) (R 10)));
  (0%nat, Ad (R 0) (Ad (R 1) (R 8)));
  (1%nat, Xo (RLo (R 1) 14) (R 0));
  (3%nat, Ad (R 3) (Ad (R 6) (K 0x4)));
  (2%nat, Ad (R 2) (Ad (Ad (R 3) (R 5)) (R 11)));
  (3%nat, Xo (RLo (R 3) 16) (R 2));
  (0%nat, Ad (R 0) (R 3));
  (3%nat, Xo (RLo (R 3) 52) (R 0));
  (2%nat, Ad (R 2) (R 1));
  (1%nat, Xo (RLo (R 1) 57) (R 2));
  (0%nat, Ad (R 0) (R 1));
  (1%nat, Xo (RLo (R 1) 23) (R 0));
  (2%nat, Ad (R 2) (R 3));
  (3%nat, Xo (RLo (R 3) 40) (R 2));
  (0%nat, Ad (R 0) (R 3));
  (3%nat, Xo (RLo (R 3) 5) (R 0));
  (2%nat, Ad (R 2) (R 1));
  (1%nat, Xo (RLo (R 1) 37) (R 2));
  (1%nat, Ad (R 1) (Ad (R 5) (R 11)));
  (0%nat, Ad (R 0) (Ad (R 1) (R 4)));
  (1%nat, Xo (RLo (R 1) 25) (R 0));
  (3%nat, Ad (R 3) (Ad (R 7) (K 0x5)));
  (2%nat, Ad (R 2) (Ad (Ad (R 3) (R 6)) (R 9)));
  (3%nat, Xo (RLo (R 3) 33) (R 2));
  (0%nat, Ad (R 0) (R 3));
  (3%nat, Xo (RLo (R 3) 46) (R 0));
  (2%nat, Ad (R 2) (R 1));
  (1%nat, Xo (RLo (R 1) 12) (R 2));
  (0%nat, Ad (R 0) (R 1));
  (1%nat, Xo (RLo (R 1) 58) (R 0));
  (2%nat, Ad (R 2) (R 3));
  (3%nat, Xo (RLo (R 3) 22) (R 2));
  (0%nat, Ad (R 0) (R 3));
  (3%nat, Xo (RLo (R 3) 32) (R 0));
  (2%nat, Ad (R 2) (R 1));
  (1%nat, Xo (RLo (R 1) 32) (R 2));
  (1%nat, Ad (R 1) (Ad (R 6) (R 9)));
  (0%nat, Ad (R 0) (Ad (R 1) (R 5)));
  (1%nat, Xo (RLo (R 1) 14) (R 0));
  (3%nat, Ad (R 3) (Ad (R 8) (K 0x6)));
  (2%nat, Ad (R 2) (Ad (Ad (R 3) (R 7)) (R 10)));
  (3%nat, Xo (RLo (R 3) 16) (R 2));
  (0%nat, Ad (R 0) (R 3));
  (3%nat, Xo (RLo (R 3) 52) (R 0));
  (2%nat, Ad (R 2) (R 1));
  (1%nat, Xo (RLo (R 1) 57) (R 2));
  (0%nat, Ad (R 0) (R 1));
  (1%nat, Xo (RLo (R 1) 23) (R 0));
  (2%nat, Ad (R 2) (R 3));
  (3%nat, Xo (RLo (R 3) 40) (R 2));
  (0%nat, Ad (R 0) (R 3));
  (3%nat, Xo (RLo (R 3) 5) (R 0));
  (2%nat, Ad (R 2) (R 1));
  (1%nat, Xo (RLo (R 1) 37) (R 2));
  (1%nat, Ad (R 1) (Ad (R 7) (R 10)));
  (0%nat, Ad (R 0) (Ad (R 1) (R 6)));
  (1%nat, Xo (RLo (R 1) 25) (R 0));
  (3%nat, Ad (R 3) (Ad (R 4) (K 0x7)));
  (2%nat, Ad (R 2) (Ad (Ad (R 3) (R 8)) (R 11)));
  (3%nat, Xo (RLo (R 3) 33) (R 2));
  (0%nat, Ad (R 0) (R 3));
  (3%nat, Xo (RLo (R 3) 46) (R 0));
  (2%nat, Ad (R 2) (R 1));
  (1%nat, Xo (RLo (R 1) 12) (R 2));
  (0%nat, Ad (R 0) (R 1));
  (1%nat, Xo (RLo (R 1) 58) (R 0));
  (2%nat, Ad (R 2) (R 3));
  (3%nat, Xo (RLo (R 3) 22) (R 2));
  (0%nat, Ad (R 0) (R 3));
  (3%nat, Xo (RLo (R 3) 32) (R 0));
  (2%nat, Ad (R 2) (R 1));
  (1%nat, Xo (RLo (R 1) 32) (R 2));
  (1%nat, Ad (R 1) (Ad (R 8) (R 11)));
  (0%nat, Ad (R 0) (Ad (R 1) (R 7)));
  (1%nat, Xo (RLo (R 1) 14) (R 0));
  (3%nat, Ad (R 3) (Ad (R 5) (K 0x8)));
  (2%nat, Ad (R 2) (Ad (Ad (R 3) (R 4)) (R 9)));
  (3%nat, Xo (RLo (R 3) 16) (R 2));
  (0%nat, Ad (R 0) (R 3));
  (3%nat, Xo (RLo (R 3) 52) (R 0));
  (2%nat, Ad (R 2) (R 1));
  (1%nat, Xo (RLo (R 1) 57) (R 2));
  (0%nat, Ad (R 0) (R 1));
  (1%nat, Xo (RLo (R 1) 23) (R 0));
  (2%nat, Ad (R 2) (R 3));
  (3%nat, Xo (RLo (R 3) 40) (R 2));
  (0%nat, Ad (R 0) (R 3));
  (3%nat, Xo (RLo (R 3) 5) (R 0));
  (2%nat, Ad (R 2) (R 1));
  (1%nat, Xo (RLo (R 1) 37) (R 2));
  (1%nat, Ad (R 1) (Ad (R 4) (R 9)));
  (0%nat, Ad (R 0) (Ad (R 1) (R 8)));
  (1%nat, Xo (RLo (R 1) 25) (R 0));
  (3%nat, Ad (R 3) (Ad (R 6) (K 0x9)));
  (2%nat, Ad (R 2) (Ad (Ad (R 3) (R 5)) (R 10)));
  (3%nat, Xo (RLo (R 3) 33) (R 2));
  (0%nat, Ad (R 0) (R 3));
  (3%nat, Xo (RLo (R 3) 46) (R 0));
  (2%nat, Ad (R 2) (R 1));
  (1%nat, Xo (RLo (R 1) 12) (R 2));
  (0%nat, Ad (R 0) (R 1));
  (1%nat, Xo (RLo (R 1) 58) (R 0));
  (2%nat, Ad (R 2) (R 3));
  (3%nat, Xo (RLo (R 3) 22) (R 2));
  (0%nat, Ad (R 0) (R 3));
  (3%nat, Xo (RLo (R 3) 32) (R 0));
  (2%nat, Ad (R 2) (R 1));
  (1%nat, Xo (RLo (R 1) 32) (R 2));
  (1%nat, Ad (R 1) (Ad (R 5) (R 10)));
  (0%nat, Ad (R 0) (Ad (R 1) (R 4)));
  (1%nat, Xo (RLo (R 1) 14) (R 0));
  (3%nat, Ad (R 3) (Ad (R 7) (K 0xA)));
  (2%nat, Ad (R 2) (Ad (Ad (R 3) (R 6)) (R 11)));
  (3%nat, Xo (RLo (R 3) 16) (R 2));
  (0%nat, Ad (R 0) (R 3));
  (3%nat, Xo (RLo (R 3) 52) (R 0));
  (2%nat, Ad (R 2) (R 1));
  (1%nat, Xo (RLo (R 1) 57) (R 2));
  (0%nat, Ad (R 0) (R 1));
  (1%nat, Xo (RLo (R 1) 23) (R 0));
  (2%nat, Ad (R 2) (R 3));
  (3%nat, Xo (RLo (R 3) 40) (R 2));
  (0%nat, Ad (R 0) (R 3));
  (3%nat, Xo (RLo (R 3) 5) (R 0));
  (2%nat, Ad (R 2) (R 1));
  (1%nat, Xo (RLo (R 1) 37) (R 2));
  (1%nat, Ad (R 1) (Ad (R 6) (R 11)));
  (0%nat, Ad (R 0) (Ad (R 1) (R 5)));
  (1%nat, Xo (RLo (R 1) 25) (R 0));
  (3%nat, Ad (R 3) (Ad (R 8) (K 0xB)));
  (2%nat, Ad (R 2) (Ad (Ad (R 3) (R 7)) (R 9)));
  (3%nat, Xo (RLo (R 3) 33) (R 2));
  (0%nat, Ad (R 0) (R 3));
  (3%nat, Xo (RLo (R 3) 46) (R 0));
  (2%nat, Ad (R 2) (R 1));
  (1%nat, Xo (RLo (R 1) 12) (R 2));
  (0%nat, Ad (R 0) (R 1));
  (1%nat, Xo (RLo (R 1) 58) (R 0));
  (2%nat, Ad (R 2) (R 3));
  (3%nat, Xo (RLo (R 3) 22) (R 2));
  (0%nat, Ad (R 0) (R 3));
  (3%nat, Xo (RLo (R 3) 32) (R 0));
  (2%nat, Ad (R 2) (R 1));
  (1%nat, Xo (RLo (R 1) 32) (R 2));
  (1%nat, Ad (R 1) (Ad (R 7) (R 9)));
  (0%nat, Ad (R 0) (Ad (R 1) (R 6)));
  (1%nat, Xo (RLo (R 1) 14) (R 0));
  (3%nat, Ad (R 3) (Ad (R 4) (K 0xC)));
  (2%nat, Ad (R 2) (Ad (Ad (R 3) (R 8)) (R 10)));
  (3%nat, Xo (RLo (R 3) 16) (R 2));
  (0%nat, Ad (R 0) (R 3));
  (3%nat, Xo (RLo (R 3) 52) (R 0));
  (2%nat, Ad (R 2) (R 1));
  (1%nat, Xo (RLo (R 1) 57) (R 2));
  (0%nat, Ad (R 0) (R 1));
  (1%nat, Xo (RLo (R 1) 23) (R 0));
  (2%nat, Ad (R 2) (R 3));
  (3%nat, Xo (RLo (R 3) 40) (R 2));
  (0%nat, Ad (R 0) (R 3));
  (3%nat, Xo (RLo (R 3) 5) (R 0));
  (2%nat, Ad (R 2) (R 1));
  (1%nat, Xo (RLo (R 1) 37) (R 2));
  (1%nat, Ad (R 1) (Ad (R 8) (R 10)));
  (0%nat, Ad (R 0) (Ad (R 1) (R 7)));
  (1%nat, Xo (RLo (R 1) 25) (R 0));
  (3%nat, Ad (R 3) (Ad (R 5) (K 0xD)));
  (2%nat, Ad (R 2) (Ad (Ad (R 3) (R 4)) (R 11)));
  (3%nat, Xo (RLo (R 3) 33) (R 2));
  (0%nat, Ad (R 0) (R 3));
  (3%nat, Xo (RLo (R 3) 46) (R 0));
  (2%nat, Ad (R 2) (R 1));
  (1%nat, Xo (RLo (R 1) 12) (R 2));
  (0%nat, Ad (R 0) (R 1));
  (1%nat, Xo (RLo (R 1) 58) (R 0));
  (2%nat, Ad (R 2) (R 3));
  (3%nat, Xo (RLo (R 3) 22) (R 2));
  (0%nat, Ad (R 0) (R 3));
  (3%nat, Xo (RLo (R 3) 32) (R 0));
  (2%nat, Ad (R 2) (R 1));
  (1%nat, Xo (RLo (R 1) 32) (R 2));
  (1%nat, Ad (R 1) (Ad (R 4) (R 11)));
  (0%nat, Ad (R 0) (Ad (R 1) (R 8)));
  (1%nat, Xo (RLo (R 1) 14) (R 0));
  (3%nat, Ad (R 3) (Ad (R 6) (K 0xE)));
  (2%nat, Ad (R 2) (Ad (Ad (R 3) (R 5)) (R 9)));
  (3%nat, Xo (RLo (R 3) 16) (R 2));
  (0%nat, Ad (R 0) (R 3));
  (3%nat, Xo (RLo (R 3) 52) (R 0));
  (2%nat, Ad (R 2) (R 1));
  (1%nat, Xo (RLo (R 1) 57) (R 2));
  (0%nat, Ad (R 0) (R 1));
  (1%nat, Xo (RLo (R 1) 23) (R 0));
  (2%nat, Ad (R 2) (R 3));
  (3%nat, Xo (RLo (R 3) 40) (R 2));
  (0%nat, Ad (R 0) (R 3));
  (3%nat, Xo (RLo (R 3) 5) (R 0));
  (2%nat, Ad (R 2) (R 1));
  (1%nat, Xo (RLo (R 1) 37) (R 2));
  (1%nat, Ad (R 1) (Ad (R 5) (R 9)));
  (0%nat, Ad (R 0) (Ad (R 1) (R 4)));
  (1%nat, Xo (RLo (R 1) 25) (R 0));
  (3%nat, Ad (R 3) (Ad (R 7) (K 0xF)));
  (2%nat, Ad (R 2) (Ad (Ad (R 3) (R 6)) (R 10)));
  (3%nat, Xo (RLo (R 3) 33) (R 2));
  (0%nat, Ad (R 0) (R 3));
  (3%nat, Xo (RLo (R 3) 46) (R 0));
  (2%nat, Ad (R 2) (R 1));
  (1%nat, Xo (RLo (R 1) 12) (R 2));
  (0%nat, Ad (R 0) (R 1));
  (1%nat, Xo (RLo (R 1) 58) (R 0));
  (2%nat, Ad (R 2) (R 3));
  (3%nat, Xo (RLo (R 3) 22) (R 2));
  (0%nat, Ad (R 0) (R 3));
  (3%nat, Xo (RLo (R 3) 32) (R 0));
  (2%nat, Ad (R 2) (R 1));
  (1%nat, Xo (RLo (R 1) 32) (R 2));
  (1%nat, Ad (R 1) (Ad (R 6) (R 10)));
  (0%nat, Ad (R 0) (Ad (R 1) (R 5)));
  (1%nat, Xo (RLo (R 1) 14) (R 0));
  (3%nat, Ad (R 3) (Ad (R 8) (K 0x10)));
  (2%nat, Ad (R 2) (Ad (Ad (R 3) (R 7)) (R 11)));
  (3%nat, Xo (RLo (R 3) 16) (R 2));
  (0%nat, Ad (R 0) (R 3));
  (3%nat, Xo (RLo (R 3) 52) (R 0));
  (2%nat, Ad (R 2) (R 1));
  (1%nat, Xo (RLo (R 1) 57) (R 2));
  (0%nat, Ad (R 0) (R 1));
  (1%nat, Xo (RLo (R 1) 23) (R 0));
  (2%nat, Ad (R 2) (R 3));
  (3%nat, Xo (RLo (R 3) 40) (R 2));
  (0%nat, Ad (R 0) (R 3));
  (3%nat, Xo (RLo (R 3) 5) (R 0));
  (2%nat, Ad (R 2) (R 1));
  (1%nat, Xo (RLo (R 1) 37) (R 2));
  (1%nat, Ad (R 1) (Ad (R 7) (R 11)));
  (0%nat, Ad (R 0) (Ad (R 1) (R 6)));
  (1%nat, Xo (RLo (R 1) 25) (R 0));
  (3%nat, Ad (R 3) (Ad (R 4) (K 0x11)));
  (2%nat, Ad (R 2) (Ad (Ad (R 3) (R 8)) (R 9)));
  (3%nat, Xo (RLo (R 3) 33) (R 2));
  (0%nat, Ad (R 0) (R 3));
  (3%nat, Xo (RLo (R 3) 46) (R 0));
  (2%nat, Ad (R 2) (R 1));
  (1%nat, Xo (RLo (R 1) 12) (R 2));
  (0%nat, Ad (R 0) (R 1));
  (1%nat, Xo (RLo (R 1) 58) (R 0));
  (2%nat, Ad (R 2) (R 3));
  (3%nat, Xo (RLo (R 3) 22) (R 2));
  (0%nat, Ad (R 0) (R 3));
  (3%nat, Xo (RLo (R 3) 32) (R 0));
  (2%nat, Ad (R 2) (R 1));
  (1%nat, Xo (RLo (R 1) 32) (R 2));
  (20%nat, Ad (R 0) (R 7));
  (21%nat, Ad (Ad (R 1) (R 8)) (R 9));
  (22%nat, Ad (Ad (R 2) (R 4)) (R 10));
  (23%nat, Ad (Ad (R 3) (R 5)) (K 0x12))
].

(** CEX/Threefish.h:1013-1942, body of PemuteR96P512U: generated by tools/straight.py, one entry per statement.
    Registers: 0=C0, 1=C1, 2=C2, 3=C3, 4=C4, 5=C5, 6=C6, 7=C7, 8=K0, 9=K1, 10=K2, 11=K3, 12=K4, 13=K5, 14=K6, 15=K7, 16=K8, 17=T0, 18=T1, 19=T2, 20=Counter[0], 21=Counter[1], 22=Key[0], 23=Key[1], 24=Key[2], 25=Key[3], 26=Key[4], 27=Key[5], 28=Key[6], 29=Key[7], 30=Tweak[0], 31=Tweak[1], 32=State[0], 33=State[1], 34=State[2], 35=State[3], 36=State[4], 37=State[5], 38=State[6], 39=State[7]. *)
Definition tsx512_U : prog := [
  (0%nat, R 20);
  (1%nat, R 21);
  (2%nat, K 0xFFFFFFFFFFFFFFFF);
  (3%nat, K 0xFFFFFFFFFFFFFFFF);
  (4%nat, K 0xFFFFFFFFFFFFFFFF);
  (5%nat, K 0xFFFFFFFFFFFFFFFF);
  (6%nat, K 0xFFFFFFFFFFFFFFFF);
  (7%nat, K 0xFFFFFFFFFFFFFFFF);
  (8%nat, R 22);
  (9%nat, R 23);
  (10%nat, R 24);
  (11%nat, R 25);
  (12%nat, R 26);
  (13%nat, R 27);
  (14%nat, R 28);
  (15%nat, R 29);
  (16%nat, Xo (Xo (Xo (Xo (Xo (Xo (Xo (Xo (R 8) (R 9)) (R 10)) (R 11)) (R 12)) (R 13)) (R 14)) (R 15)) (K 0x1BD11BDAA9FC1A22));
  (17%nat, R 30);
  (18%nat, R 31);
  (19%nat, Xo (R 30) (R 31));
  (1%nat, Ad (R 1) (R 9));
  (0%nat, Ad (R 0) (Ad (R 1) (R 8)));
  (1%nat, Xo (RLo (R 1) 46) (R 0));
  (3%nat, Ad (R 3) (R 11));
  (2%nat, Ad (R 2) (Ad (R 3) (R 10)));
  (3%nat, Xo (RLo (R 3) 36) (R 2));
  (5%nat, Ad (R 5) (Ad (R 13) (R 17)));
  (4%nat, Ad (R 4) (Ad (R 5) (R 12)));
  (5%nat, Xo (RLo (R 5) 19) (R 4));
  (7%nat, Ad (R 7) (R 15));
  (6%nat, Ad (R 6) (Ad (Ad (R 7) (R 14)) (R 18)));
  (7%nat, Xo (RLo (R 7) 37) (R 6));
  (2%nat, Ad (R 2) (R 1));
  (1%nat, Xo (RLo (R 1) 33) (R 2));
  (4%nat, Ad (R 4) (R 7));
  (7%nat, Xo (RLo (R 7) 27) (R 4));
  (6%nat, Ad (R 6) (R 5));
  (5%nat, Xo (RLo (R 5) 14) (R 6));
  (0%nat, Ad (R 0) (R 3));
  (3%nat, Xo (RLo (R 3) 42) (R 0));
  (4%nat, Ad (R 4) (R 1));
  (1%nat, Xo (RLo (R 1) 17) (R 4));
  (6%nat, Ad (R 6) (R 3));
  (3%nat, Xo (RLo (R 3) 49) (R 6));
  (0%nat, Ad (R 0) (R 5));
  (5%nat, Xo (RLo (R 5) 36) (R 0));
  (2%nat, Ad (R 2) (R 7));
  (7%nat, Xo (RLo (R 7) 39) (R 2));
  (6%nat, Ad (R 6) (R 1));
  (1%nat, Xo (RLo (R 1) 44) (R 6));
  (0%nat, Ad (R 0) (R 7));
  (7%nat, Xo (RLo (R 7) 9) (R 0));
  (2%nat, Ad (R 2) (R 5));
  (5%nat, Xo (RLo (R 5) 54) (R 2));
  (4%nat, Ad (R 4) (R 3));
  (3%nat, Xo (RLo (R 3) 56) (R 4));
  (1%nat, Ad (R 1) (R 10));
  (0%nat, Ad (R 0) (Ad (R 1) (R 9)));
  (1%nat, Xo (RLo (R 1) 39) (R 0));
  (3%nat, Ad (R 3) (R 12));
  (2%nat, Ad (R 2) (Ad (R 3) (R 11)));
  (3%nat, Xo (RLo (R 3) 30) (R 2));
  (5%nat, Ad (R 5) (Ad (R 14) (R 18)));
  (4%nat, Ad (R 4) (Ad (R 5) (R 13)));
  (5%nat, Xo (RLo (R 5) 34) (R 4));
  (7%nat, Ad (R 7) (Ad (R 16) (K 0x1)));
  (6%nat, Ad (R 6) (Ad (Ad (R 7) (R 15)) (R 19)));
  (7%nat, Xo (RLo (R 7) 24) (R 6));
  (2%nat, Ad (R 2) (R 1));
  (1%nat, Xo (RLo (R 1) 13) (R 2));
  (4%nat, Ad (R 4) (R 7));
  (7%nat, Xo (RLo (R 7) 50) (R 4));
  (6%nat, Ad (R 6) (R 5));
  (5%nat, Xo (RLo (R 5) 10) (R 6));
  (0%nat, Ad (R 0) (R 3));
  (3%nat, Xo (RLo (R 3) 17) (R 0));
  (4%nat, Ad (R 4) (R 1));
  (1%nat, Xo (RLo (R 1) 25) (R 4));
  (6%nat, Ad (R 6) (R 3));
  (3%nat, Xo (RLo (R 3) 29) (R 6));
  (0%nat, Ad (R 0) (R 5));
  (5%nat, Xo (RLo (R 5) 39) (R 0));
  (2%nat, Ad (R 2) (R 7));
  (7%nat, Xo (RLo (R 7) 43) (R 2));
  (6%nat, Ad (R 6) (R 1));
  (1%nat, Xo (RLo (R 1) 8) (R 6));
  (0%nat, Ad (R 0) (R 7));
  (7%nat, Xo (RLo (R 7) 35) (R 0));
  (2%nat, Ad (R 2) (R 5));
  (5%nat, Xo (RLo (R 5) 56) (R 2));
  (4%nat, Ad (R 4) (R 3));
  (3%nat, Xo (RLo (R 3) 22) (R 4));
  (1%nat, Ad (R 1) (R 11));
  (0%nat, Ad (R 0) (Ad (R 1) (R 10)));
  (1%nat, Xo (RLo (R 1) 46) (R 0));
  (3%nat, Ad (R 3) (R 13));
  (2%nat, Ad (R 2) (Ad (R 3) (R 12)));
  (3%nat, Xo (RLo (R 3) 36) (R 2));
  (5%nat, Ad (R 5) (Ad (R 15) (R 19)));
  (4%nat, Ad (R 4) (Ad (R 5) (R 14)));
  (5%nat, Xo (RLo (R 5) 19) (R 4));
  (7%nat, Ad (R 7) (Ad (R 8) (K 0x2)));
  (6%nat, Ad (R 6) (Ad (Ad (R 7) (R 16)) (R 17)));
  (7%nat, Xo (RLo (R 7) 37) (R 6));
  (2%nat, Ad (R 2) (R 1));
  (1%nat, Xo (RLo (R 1) 33) (R 2));
  (4%nat, Ad (R 4) (R 7));
  (7%nat, Xo (RLo (R 7) 27) (R 4));
  (6%nat, Ad (R 6) (R 5));
  (5%nat, Xo (RLo (R 5) 14) (R 6));
  (0%nat, Ad (R 0) (R 3));
  (3%nat, Xo (RLo (R 3) 42) (R 0));
  (4%nat, Ad (R 4) (R 1));
  (1%nat, Xo (RLo (R 1) 17) (R 4));
  (6%nat, Ad (R 6) (R 3));
  (3%nat, Xo (RLo (R 3) 49) (R 6));
  (0%nat, Ad (R 0) (R 5));
  (5%nat, Xo (RLo (R 5) 36) (R 0));
  (2%nat, Ad (R 2) (R 7));
  (7%nat, Xo (RLo (R 7) 39) (R 2));
  (6%nat, Ad (R 6) (R 1));
  (1%nat, Xo (RLo (R 1) 44) (R 6));
  (0%nat, Ad (R 0) (R 7));
  (7%nat, Xo (RLo (R 7) 9) (R 0));
  (2%nat, Ad (R 2) (R 5));
  (5%nat, Xo (RLo (R 5) 54) (R 2));
  (4%nat, Ad (R 4) (R 3));
  (3%nat, Xo (RLo (R 3) 56) (R 4));
  (1%nat, Ad (R 1) (R 12));
  (0%nat, Ad (R 0) (Ad (R 1) (R 11)));
  (1%nat, Xo (RLo (R 1) 39) (R 0));
  (3%nat, Ad (R 3) (R 14));
  (2%nat, Ad (R 2) (Ad (R 3) (R 13)));
  (3%nat, Xo (RLo (R 3) 30) (R 2));
  (5%nat, Ad (R 5) (Ad (R 16) (R 17)));
  (4%nat, Ad (R 4) (Ad (R 5) (R 15)));
  (5%nat, Xo (RLo (R 5) 34) (R 4));
  (7%nat, Ad (R 7) (Ad (R 9) (K 0x3)));
  (6%nat, Ad (R 6) (Ad (Ad (R 7) (R 8)) (R 18)));
  (7%nat, Xo (RLo (R 7) 24) (R 6));
  (2%nat, Ad (R 2) (R 1));
  (1%nat, Xo (RLo (R 1) 13) (R 2));
  (4%nat, Ad (R 4) (R 7));
  (7%nat, Xo (RLo (R 7) 50) (R 4));
  (6%nat, Ad (R 6) (R 5));
  (5%nat, Xo (RLo (R 5) 10) (R 6));
  (0%nat, Ad (R 0) (R 3));
  (3%nat, Xo (RLo (R 3) 17) (R 0));
  (4%nat, Ad (R 4) (R 1));
  (1%nat, Xo (RLo (R 1) 25) (R 4));
  (6%nat, Ad (R 6) (R 3));
  (3%nat, Xo (RLo (R 3) 29) (R 6));
  (0%nat, Ad (R 0) (R 5));
  (5%nat, Xo (RLo (R 5) 39) (R 0));
  (2%nat, Ad (R 2) (R 7));
  (7%nat, Xo (RLo (R 7) 43) (R 2));
  (6%nat, Ad (R 6) (R 1));
  (1%nat, Xo (RLo (R 1) 8) (R 6));
  (0%nat, Ad (R 0) (R 7));
  (7%nat, Xo (RLo (R 7) 35) (R 0));
  (2%nat, Ad (R 2) (R 5));
  (5%nat, Xo (RLo (R 5) 56) (R 2));
  (4%nat, Ad (R 4) (R 3));
  (3%nat, Xo (RLo (R 3) 22) (R 4));
  (1%nat, Ad (R 1) (R 13));
  (0%nat, Ad (R 0) (Ad (R 1) (R 12)));
  (1%nat, Xo (RLo (R 1) 46) (R 0));
  (3%nat, Ad (R 3) (R 15));
  (2%nat, Ad (R 2) (Ad (R 3) (R 14)));
  (3%nat, Xo (RLo (R 3) 36) (R 2));
  (5%nat, Ad (R 5) (Ad (R 8) (R 18)));
  (4%nat, Ad (R 4) (Ad (R 5) (R 16)));
  (5%nat, Xo (RLo (R 5) 19) (R 4));
  (7%nat, Ad (R 7) (Ad (R 10) (K 0x4)));
  (6%nat, Ad (R 6) (Ad (Ad (R 7) (R 9)) (R 19)));
  (7%nat, Xo (RLo (R 7) 37) (R 6));
  (2%nat, Ad (R 2) (R 1));
  (1%nat, Xo (RLo (R 1) 33) (R 2));
  (4%nat, Ad (R 4) (R 7));
  (7%nat, Xo (RLo (R 7) 27) (R 4));
  (6%nat, Ad (R 6) (R 5));
  (5%nat, Xo (RLo (R 5) 14) (R 6));
  (0%nat, Ad (R 0) (R 3));
  (3%nat, Xo (RLo (R 3) 42) (R 0));
  (4%nat, Ad (R 4) (R 1));
  (1%nat, Xo (RLo (R 1) 17) (R 4));
  (6%nat, Ad (R 6) (R 3));
  (3%nat, Xo (RLo (R 3) 49) (R 6));
  (0%nat, Ad (R 0) (R 5));
  (5%nat, Xo (RLo (R 5) 36) (R 0));
  (2%nat, Ad (R 2) (R 7));
  (7%nat, Xo (RLo (R 7) 39) (R 2));
  (6%nat, Ad (R 6) (R 1));
  (1%nat, Xo (RLo (R 1) 44) (R 6));
  (0%nat, Ad (R 0) (R 7));
  (7%nat, Xo (RLo (R 7) 9) (R 0));
  (2%nat, Ad (R 2) (R 5));
  (5%nat, Xo (RLo (R 5) 54) (R 2));
  (4%nat, Ad (R 4) (R 3));
  (3%nat, Xo (RLo (R 3) 56) (R 4));
  (1%nat, Ad (R 1) (R 14));
  (0%nat, Ad (R 0) (Ad (R 1) (R 13)));
  (1%nat, Xo (RLo (R 1) 39) (R 0));
  (3%nat, Ad (R 3) (R 16));
  (2%nat, Ad (R 2) (Ad (R 3) (R 15)));
  (3%nat, Xo (RLo (R 3) 30) (R 2));
  (5%nat, Ad (R 5) (Ad (R 9) (R 19)));
  (4%nat, Ad (R 4) (Ad (R 5) (R 8)));
  (5%nat, Xo (RLo (R 5) 34) (R 4));
  (7%nat, Ad (R 7) (Ad (R 11) (K 0x5)));
  (6%nat, Ad (R 6) (Ad (Ad (R 7) (R 10)) (R 17)));
  (7%nat, Xo (RLo (R 7) 24) (R 6));
  (2%nat, Ad (R 2) (R 1));
  (1%nat, Xo (RLo (R 1) 13) (R 2));
  (4%nat, Ad (R 4) (R 7));
  (7%nat, Xo (RLo (R 7) 50) (R 4));
  (6%nat, Ad (R 6) (R 5));
  (5%nat, Xo (RLo (R 5) 10) (R 6));
  (0%nat, Ad (R 0) (R 3));
  (3%nat, Xo (RLo (R 3) 17) (R 0));
  (4%nat, Ad (R 4) (R 1));
  (1%nat, Xo (RLo (R 1) 25) (R 4));
  (6%nat, Ad (R 6) (R 3));
  (3%nat, Xo (RLo (R 3) 29) (R 6));
  (0%nat, Ad (R 0) (R 5));
  (5%nat, Xo (RLo (R 5) 39) (R 0));
  (2%nat, Ad (R 2) (R 7));
  (7%nat, Xo (RLo (R 7) 43) (R 2));
  (6%nat, Ad (R 6) (R 1));
  (1%nat, Xo (RLo (R 1) 8) (R 6));
  (0%nat, Ad (R 0) (R 7));
  (7%nat, Xo (RLo (R 7) 35) (R 0));
  (2%nat, Ad (R 2) (R 5));
  (5%nat, Xo (RLo (R 5) 56) (R 2));
  (4%nat, Ad (R 4) (R 3));
  (3%nat, Xo (RLo (R 3) 22) (R 4));
  (1%nat, Ad (R 1) (R 15));
  (0%nat, Ad (R 0) (Ad (R 1) (R 14)));
  (1%nat, Xo (RLo (R 1) 46) (R 0));
  (3%nat, Ad (R 3) (R 8));
  (2%nat, Ad (R 2) (Ad (R 3) (R 16)));
  (3%nat, Xo (RLo (R 3) 36) (R 2));
  (5%nat, Ad (R 5) (Ad (R 10) (R 17)));
  (4%nat, Ad (R 4) (Ad (R 5) (R 9)));
  (5%nat, Xo (RLo (R 5) 19) (R 4));
  (7%nat, Ad (R 7) (Ad (R 12) (K 0x6)));
  (6%nat, Ad (R 6) (Ad (Ad (R 7) (R 11)) (R 18)));
  (7%nat, Xo (RLo (R 7) 37) (R 6));
  (2%nat, Ad (R 2) (R 1));
  (1%nat, Xo (RLo (R 1) 33) (R 2));
  (4%nat, Ad (R 4) (R 7));
  (7%nat, Xo (RLo (R 7) 27) (R 4));
  (6%nat, Ad (R 6) (R 5));
  (5%nat, Xo (RLo (R 5) 14) (R 6));
  (0%nat, Ad (R 0) (R 3));
  (3%nat, Xo (RLo (R 3) 42) (R 0));
  (4%nat, Ad (R 4) (R 1));
  (1%nat, Xo (RLo (R 1) 17) (R 4));
  (6%nat, Ad (R 6) (R 3));
  (3%nat, Xo (RLo (R 3) 49) (R 6));
  (0%nat, Ad (R 0) (R 5));
  (5%nat, Xo (RLo (R 5) 36) (R 0));
  (2%nat, Ad (R 2) (R 7));
  (7%nat, Xo (RLo (R 7) 39) (R 2));
  (6%nat, Ad (R 6) (R 1));
  (1%nat, Xo (RLo (R 1) 44) (R 6));
  (0%nat, Ad (R 0) (R 7));
  (7%nat, Xo (RLo (R 7) 9) (R 0));
  (2%nat, Ad (R 2) (R 5));
  (5%nat, Xo (RLo (R 5) 54) (R 2));
  (4%nat, Ad (R 4) (R 3));
  (3%nat, Xo (RLo (R 3) 56) (R 4));
  (1%nat, Ad (R 1) (R 16));
  (0%nat, Ad (R 0) (Ad (R 1) (R 15)));
  (1%nat, Xo (RLo (R 1) 39) (R 0));
  (3%nat, Ad (R 3) (R 9));
  (2%nat, Ad (R 2) (Ad (R 3) (R 8)));
  (3%nat, Xo (RLo (R 3) 30) (R 2));
  (5%nat, Ad (R 5) (Ad (R 11) (R 18)));
  (4%nat, Ad (R 4) (Ad (R 5) (R 10)));
  (5%nat, Xo (RLo (R 5) 34) (R 4));
  (7%nat, Ad (R 7) (Ad (R 13) (K 0x7)));
  (6%nat, Ad (R 6) (Ad (Ad (R 7) (R 12)) (R 19)));
  (7%nat, Xo (RLo (R 7) 24) (R 6));
  (2%nat, Ad (R 2) (R 1));
  (1%nat, Xo (RLo (R 1) 13) (R 2));
  (4%nat, Ad (R 4) (R 7));
  (7%nat, Xo (RLo (R 7) 50) (R 4));
  (6%nat, Ad (R 6) (R 5));
  (5%nat, Xo (RLo (R 5) 10) (R 6));
  (0%nat, Ad (R 0) (R 3));
  (3%nat, Xo (RLo (R 3) 17) (R 0));
  (4%nat, Ad (R 4) (R 1));
  (1%nat, Xo (RLo (R 1) 25) (R 4));
  (6%nat, Ad (R 6) (R 3));
  (3%nat, Xo (RLo (R 3) 29) (R 6));
  (0%nat, Ad (R 0) (R 5));
  (5%nat, Xo (RLo (R 5) 39) (R 0));
  (2%nat, Ad (R 2) (R 7));
  (7%nat, Xo (RLo (R 7) 43) (R 2));
  (6%nat, Ad (R 6) (R 1));
  (1%nat, Xo (RLo (R 1) 8) (R 6));
  (0%nat, Ad (R 0) (R 7));
  (7%nat, Xo (RLo (R 7) 35) (R 0));
  (2%nat, Ad (R 2) (R 5));
  (5%nat, Xo (RLo (R 5) 56) (R 2));
  (4%nat, Ad (R 4) (R 3));
  (3%nat, Xo (RLo (R 3) 22) (R 4));
  (1%nat, Ad (R 1) (R 8));
  (0%nat, Ad (R 0) (Ad (R 1) (R 16)));
  (1%nat, Xo (RLo (R 1) 46) (R 0));
  (3%nat, Ad (R 3) (R 10));
  (2%nat, Ad (R 2) (Ad (R 3) (R 9)));
  (3%nat, Xo (RLo (R 3) 36) (R 2));
  (5%nat, Ad (R 5) (Ad (R 12) (R 19)));
  (4%nat, Ad (R 4) (Ad (R 5) (R 11)));
  (5%nat, Xo (RLo (R 5) 19) (R 4));
  (7%nat, Ad (R 7) (Ad (R 14) (K 0x8)));
  (6%nat, Ad (R 6) (Ad (Ad (R 7) (R 13)) (R 17)));
  (7%nat, Xo (RLo (R 7) 37) (R 6));
  (2%nat, Ad (R 2) (R 1));
  (1%nat, Xo (RLo (R 1) 33) (R 2));
  (4%nat, Ad (R 4) (R 7));
  (7%nat, Xo (RLo (R 7) 27) (R 4));
  (6%nat, Ad (R 6) (R 5));
  (5%nat, Xo (RLo (R 5) 14) (R 6));
  (0%nat, Ad (R 0) (R 3));
  (3%nat, Xo (RLo (R 3) 42) (R 0));
  (4%nat, Ad (R 4) (R 1));
  (1%nat, Xo (RLo (R 1) 17) (R 4));
  (6%nat, Ad (R 6) (R 3));
  (3%nat, Xo (RLo (R 3) 49) (R 6));
  (0%nat, Ad (R 0) (R 5));
  (5%nat, Xo (RLo (R 5) 36) (R 0));
  (2%nat, Ad (R 2) (R 7));
  (7%nat, Xo (RLo (R 7) 39) (R 2));
  (6%nat, Ad (R 6) (R 1));
  (1%nat, Xo (RLo (R 1) 44) (R 6));
  (0%nat, Ad (R 0) (R 7));
  (7%nat, Xo (RLo (R 7) 9) (R 0));
  (2%nat, Ad (R 2) (R 5));
  (5%nat, Xo (RLo (R 5) 54) (R 2));
  (4%nat, Ad (R 4) (R 3));
  (3%nat, Xo (RLo (R 3) 56) (R 4));
  (1%nat, Ad (R 1) (R 9));
  (0%nat, Ad (R 0) (Ad (R 1) (R 8)));
  (1%nat, Xo (RLo (R 1) 39) (R 0));
  (3%nat, Ad (R 3) (R 11));
  (2%nat, Ad (R 2) (Ad (R 3) (R 10)));
  (3%nat, Xo (RLo (R 3) 30) (R 2));
  (5%nat, Ad (R 5) (Ad (R 13) (R 17)));
  (4%nat, Ad (R 4) (Ad (R 5) (R 12)));
  (5%nat, Xo (RLo (R 5) 34) (R 4));
  (7%nat, Ad (R 7) (Ad (R 15) (K 0x9)));
  (6%nat, Ad (R 6) (Ad (Ad (R 7) (R 14)) (R 18)));
  (7%nat, Xo (RLo (R 7) 24) (R 6));
  (2%nat, Ad (R 2) (R 1));
  (1%nat, Xo (RLo (R 1) 13) (R 2));
  (4%nat, Ad (R 4) (R 7));
  (7%nat, Xo (RLo (R 7) 50) (R 4));
  (6%nat, Ad (R 6) (R 5));
  (5%nat, Xo (RLo (R 5) 10) (R 6));
  (0%nat, Ad (R 0) (R 3));
  (3%nat, Xo (RLo (R 3) 17) (R 0));
  (4%nat, Ad (R 4) (R 1));
  (1%nat, Xo (RLo (R 1) 25) (R 4));
  (6%nat, Ad (R 6) (R 3));
  (3%nat, Xo (RLo (R 3) 29) (R 6));
  (0%nat, Ad (R 0) (R 5));
  (5%nat, Xo (RLo (R 5) 39) (R 0));
  (2%nat, Ad (R 2) (R 7));
  (7%nat, Xo (RLo (R 7) 43) (R 2));
  (6%nat, Ad (R 6) (R 1));
  (1%nat, Xo (RLo (R 1) 8) (R 6));
  (0%nat, Ad (R 0) (R 7));
  (7%nat, Xo (RLo (R 7) 35) (R 0));
  (2%nat, Ad (R 2) (R 5));
  (5%nat, Xo (RLo (R 5) 56) (R 2));
  (4%nat, Ad (R 4) (R 3));
  (3%nat, Xo (RLo (R 3) 22) (R 4));
  (1%nat, Ad (R 1) (R 10));
  (0%nat, Ad (R 0) (Ad (R 1) (R 9)));
  (1%nat, Xo (RLo (R 1) 46) (R 0));
  (3%nat, Ad (R 3) (R 12));
  (2%nat, Ad (R 2) (Ad (R 3) (R 11)));
  (3%nat, Xo (RLo (R 3) 36) (R 2));
  (5%nat, Ad (R 5) (Ad (R 14) (R 18)));
  (4%nat, Ad (R 4) (Ad (R 5) (R 13)));
  (5%nat, Xo (RLo (R 5) 19) (R 4));
  (7%nat, Ad (R 7) (Ad (R 16) (K 0xA)));
  (6%nat, Ad (R 6) (Ad (Ad (R 7) (R 15)) (R 19)));
  (7%nat, Xo (RLo (R 7) 37) (R 6));
  (2%nat, Ad (R 2) (R 1));
  (1%nat, Xo (RLo (R 1) 33) (R 2));
  (4%nat, Ad (R 4) (R 7));
  (7%nat, Xo (RLo (R 7) 27) (R 4));
  (6%nat, Ad (R 6) (R 5));
  (5%nat, Xo (RLo (R 5) 14) (R 6));
  (0%nat, Ad (R 0) (R 3));
  (3%nat, Xo (RLo (R 3) 42) (R 0));
  (4%nat, Ad (R 4) (R 1));
  (1%nat, Xo (RLo (R 1) 17) (R 4));
  (6%nat, Ad (R 6) (R 3));
  (3%nat, Xo (RLo (R 3) 49) (R 6));
  (0%nat, Ad (R 0) (R 5));
  (5%nat, Xo (RLo (R 5) 36) (R 0));
  (2%nat, Ad (R 2) (R 7));
  (7%nat, Xo (RLo (R 7) 39) (R 2));
  (6%nat, Ad (R 6) (R 1));
  (1%nat, Xo (RLo (R 1) 44) (R 6));
  (0%nat, Ad (R 0) (R 7));
  (7%nat, Xo (RLo (R 7) 9) (R 0));
  (2%nat, Ad (R 2) (R 5));
  (5%nat, Xo (RLo (R 5) 54) (R 2));
  (4%nat, Ad (R 4) (R 3));
  (3%nat, Xo (RLo (R 3) 56) (R 4));
  (1%nat, Ad (R 1) (R 11));
  (0%nat, Ad (R 0) (Ad (R 1) (R 10)));
  (1%nat, Xo (RLo (R 1) 39) (R 0));
  (3%nat, Ad (R 3) (R 13));
  (2%nat, Ad (R 2) (Ad (R 3) (R 12)));
  (3%nat, Xo (RLo (R 3) 30) (R 2));
  (5%nat, Ad (R 5) (Ad (R 15) (R 19)));
  (4%nat, Ad (R 4) (Ad (R 5) (R 14)));
  (5%nat, Xo (RLo (R 5) 34) (R 4));
  (7%nat, Ad (R 7) (Ad (R 8) (K 0xB)));
  (6%nat, Ad (R 6) (Ad (Ad (R 7) (R 16)) (R 17)));
  (7%nat, Xo (RLo (R 7) 24) (R 6));
  (2%nat, Ad (R 2) (R 1));
  (1%nat, Xo (RLo (R 1) 13) (R 2));
  (4%nat, Ad (R 4) (R 7));
  (7%nat, Xo (RLo (R 7) 50) (R 4));
  (6%nat, Ad (R 6) (R 5));
  (5%nat, Xo (RLo (R 5) 10) (R 6));
  (0%nat, Ad (R 0) (R 3));
  (3%nat, Xo (RLo (R 3) 17) (R 0));
  (4%nat, Ad (R 4) (R 1));
  (1%nat, Xo (RLo (R 1) 25) (R 4));
  (6%nat, Ad (R 6) (R 3));
  (3%nat, Xo (RLo (R 3) 29) (R 6));
  (0%nat, Ad (R 0) (R 5));
  (5%nat, Xo (RLo (R 5) 39) (R 0));
  (2%nat, Ad (R 2) (R 7));
  (7%nat, Xo (RLo (R 7) 43) (R 2));
  (6%nat, Ad (R 6) (R 1));
  (1%nat, Xo (RLo (R 1) 8) (R 6));
  (0%nat, Ad (R 0) (R 7));
  (7%nat, Xo (RLo (R 7) 35) (R 0));
  (2%nat, Ad (R 2) (R 5));
  (5%nat, Xo (RLo (R 5) 56) (R 2));
  (4%nat, Ad (R 4) (R 3));
  (3%nat, Xo (RLo (R 3) 22) (R 4));
  (1%nat, Ad (R 1) (R 12));
  (0%nat, Ad (R 0) (Ad (R 1) (R 11)));
  (1%nat, Xo (RLo (R 1) 46) (R 0));
  (3%nat, Ad (R 3) (R 14));
  (2%nat, Ad (R 2) (Ad (R 3) (R 13)));
  (3%nat, Xo (RLo (R 3) 36) (R 2));
  (5%nat, Ad (R 5) (Ad (R 16) (R 17)));
  (4%nat, Ad (R 4) (Ad (R 5) (R 15)));
  (5%nat, Xo (RLo (R 5) 19) (R 4));
  (7%nat, Ad (R 7) (Ad (R 9) (K 0xC)));
  (6%nat, Ad (R 6) (Ad (Ad (R 7) (R 8)) (R 18)));
  (7%nat, Xo (RLo (R 7) 37) (R 6));
  (2%nat, Ad (R 2) (R 1));
  (1%nat, Xo (RLo (R 1) 33) (R 2));
  (4%nat, Ad (R 4) (R 7));
  (7%nat, Xo (RLo (R 7) 27) (R 4));
  (6%nat, Ad (R 6) (R 5));
  (5%nat, Xo (RLo (R 5) 14) (R 6));
  (0%nat, Ad (R 0) (R 3));
  (3%nat, Xo (RLo (R 3) 42) (R 0));
  (4%nat, Ad (R 4) (R 1));
  (1%nat, Xo (RLo (R 1) 17) (R 4));
  (6%nat, Ad (R 6) (R 3));
  (3%nat, Xo (RLo (R 3) 49) (R 6));
  (0%nat, Ad (R 0) (R 5));
  (5%nat, Xo (RLo (R 5) 36) (R 0));
  (2%nat, Ad (R 2) (R 7));
  (7%nat, Xo (RLo (R 7) 39) (R 2));
  (6%nat, Ad (R 6) (R 1));
  (1%nat, Xo (RLo (R 1) 44) (R 6));
  (0%nat, Ad (R 0) (R 7));
  (7%nat, Xo (RLo (R 7) 9) (R 0));
  (2%nat, Ad (R 2) (R 5));
  (5%nat, Xo (RLo (R 5) 54) (R 2));
  (4%nat, Ad (R 4) (R 3));
  (3%nat, Xo (RLo (R 3) 56) (R 4));
  (1%nat, Ad (R 1) (R 13));
  (0%nat, Ad (R 0) (Ad (R 1) (R 12)));
  (1%nat, Xo (RLo (R 1) 39) (R 0));
  (3%nat, Ad (R 3) (R 15));
  (2%nat, Ad (R 2) (Ad (R 3) (R 14)));
  (3%nat, Xo (RLo (R 3) 30) (R 2));
  (5%nat, Ad (R 5) (Ad (R 8) (R 18)));
  (4%nat, Ad (R 4) (Ad (R 5) (R 16)));
  (5%nat, Xo (RLo (R 5) 34) (R 4));
  (7%nat, Ad (R 7) (Ad (R 10) (K 0xD)));
  (6%nat, Ad (R 6) (Ad (Ad (R 7) (R 9)) (R 19)));
  (7%nat, Xo (RLo (R 7) 24) (R 6));
  (2%nat, Ad (R 2) (R 1));
  (1%nat, Xo (RLo (R 1) 13) (R 2));
  (4%nat, Ad (R 4) (R 7));
  (7%nat, Xo (RLo (R 7) 50) (R 4));
  (6%nat, Ad (R 6) (R 5));
  (5%nat, Xo (RLo (R 5) 10) (R 6));
  (0%nat, Ad (R 0) (R 3));
  (3%nat, Xo (RLo (R 3) 17) (R 0));
  (4%nat, Ad (R 4) (R 1));
  (1%nat, Xo (RLo (R 1) 25) (R 4));
  (6%nat, Ad (R 6) (R 3));
  (3%nat, Xo (RLo (R 3) 29) (R 6));
  (0%nat, Ad (R 0) (R 5));
  (5%nat, Xo (RLo (R 5) 39) (R 0));
  (2%nat, Ad (R 2) (R 7));
  (7%nat, Xo (RLo (R 7) 43) (R 2));
  (6%nat, Ad (R 6) (R 1));
  (1%nat, Xo (RLo (R 1) 8) (R 6));
  (0%nat, Ad (R 0) (R 7));
  (7%nat, Xo (RLo (R 7) 35) (R 0));
  (2%nat, Ad (R 2) (R 5));
  (5%nat, Xo (RLo (R 5) 56) (R 2));
  (4%nat, Ad (R 4) (R 3));
  (3%nat, Xo (RLo (R 3) 22) (R 4));
  (1%nat, Ad (R 1) (R 14));
  (0%nat, Ad (R 0) (Ad (R 1) (R 13)));
  (1%nat, Xo (RLo (R 1) 46) (R 0));
  (3%nat, Ad (R 3) (R 16));
  (2%nat, Ad (R 2) (Ad (R 3) (R 15)));
  (3%nat, Xo (RLo (R 3) 36) (R 2));
  (5%nat, Ad (R 5) (Ad (R 9) (R 19)));
  (4%nat, Ad (R 4) (Ad (R 5) (R 8)));
  (5%nat, Xo (RLo (R 5) 19) (R 4));
  (7%nat, Ad (R 7) (Ad (R 11) (K 0xE)));
  (6%nat, Ad (R 6) (Ad (Ad (R 7) (R 10)) (R 17)));
  (7%nat, Xo (RLo (R 7) 37) (R 6));
  (2%nat, Ad (R 2) (R 1));
  (1%nat, Xo (RLo (R 1) 33) (R 2));
  (4%nat, Ad (R 4) (R 7));
  (7%nat, Xo (RLo (R 7) 27) (R 4));
  (6%nat, Ad (R 6) (R 5));
  (5%nat, Xo (RLo (R 5) 14) (R 6));
  (0%nat, Ad (R 0) (R 3));
  (3%nat, Xo (RLo (R 3) 42) (R 0));
  (4%nat, Ad (R 4) (R 1));
  (1%nat, Xo (RLo (R 1) 17) (R 4));
  (6%nat, Ad (R 6) (R 3));
  (3%nat, Xo (RLo (R 3) 49) (R 6));
  (0%nat, Ad (R 0) (R 5));
  (5%nat, Xo (RLo (R 5) 36) (R 0));
  (2%nat, Ad (R 2) (R 7));
  (7%nat, Xo (RLo (R 7) 39) (R 2));
  (6%nat, Ad (R 6) (R 1));
  (1%nat, Xo (RLo (R 1) 44) (R 6));
  (0%nat, Ad (R 0) (R 7));
  (7%nat, Xo (RLo (R 7) 9) (R 0));
  (2%nat, Ad (R 2) (R 5));
  (5%nat, Xo (RLo (R 5) 54) (R 2));
  (4%nat, Ad (R 4) (R 3));
  (3%nat, Xo (RLo (R 3) 56) (R 4));
  (1%nat, Ad (R 1) (R 15));
  (0%nat, Ad (R 0) (Ad (R 1) (R 14)));
  (1%nat, Xo (RLo (R 1) 39) (R 0));
  (3%nat, Ad (R 3) (R 8));
  (2%nat, Ad (R 2) (Ad (R 3) (R 16)));
  (3%nat, Xo (RLo (R 3) 30) (R 2));
  (5%nat, Ad (R 5) (Ad (R 10) (R 17)));
  (4%nat, Ad (R 4) (Ad (R 5) (R 9)));
  (5%nat, Xo (RLo (R 5) 34) (R 4));
  (7%nat, Ad (R 7) (Ad (R 12) (K 0xF)));
  (6%nat, Ad (R 6) (Ad (Ad (R 7) (R 11)) (R 18)));
  (7%nat, Xo (RLo (R 7) 24) (R 6));
  (2%nat, Ad (R 2) (R 1));
  (1%nat, Xo (RLo (R 1) 13) (R 2));
  (4%nat, Ad (R 4) (R 7));
  (7%nat, Xo (RLo (R 7) 50) (R 4));
  (6%nat, Ad (R 6) (R 5));
  (5%nat, Xo (RLo (R 5) 10) (R 6));
  (0%nat, Ad (R 0) (R 3));
  (3%nat, Xo (RLo (R 3) 17) (R 0));
  (4%nat, Ad (R 4) (R 1));
  (1%nat, Xo (RLo (R 1) 25) (R 4));
  (6%nat, Ad (R 6) (R 3));
  (3%nat, Xo (RLo (R 3) 29) (R 6));
  (0%nat, Ad (R 0) (R 5));
  (5%nat, Xo (RLo (R 5) 39) (R 0));
  (2%nat, Ad (R 2) (R 7));
  (7%nat, Xo (RLo (R 7) 43) (R 2));
  (6%nat, Ad (R 6) (R 1));
  (1%nat, Xo (RLo (R 1) 8) (R 6));
  (0%nat, Ad (R 0) (R 7));
  (7%nat, Xo (RLo (R 7) 35) (R 0));
  (2%nat, Ad (R 2) (R 5));
  (5%nat, Xo (RLo (R 5) 56) (R 2));
  (4%nat, Ad (R 4) (R 3));
  (3%nat, Xo (RLo (R 3) 22) (R 4));
  (1%nat, Ad (R 1) (R 16));
  (0%nat, Ad (R 0) (Ad (R 1) (R 15)));
  (1%nat, Xo (RLo (R 1) 46) (R 0));
  (3%nat, Ad (R 3) (R 9));
  (2%nat, Ad (R 2) (Ad (R 3) (R 8)));
  (3%nat, Xo (RLo (R 3) 36) (R 2));
  (5%nat, Ad (R 5) (Ad (R 11) (R 18)));
  (4%nat, Ad (R 4) (Ad (R 5) (R 10)));
  (5%nat, Xo (RLo (R 5) 19) (R 4));
  (7%nat, Ad (R 7) (Ad (R 13) (K 0x10)));
  (6%nat, Ad (R 6) (Ad (Ad (R 7) (R 12)) (R 19)));
  (7%nat, Xo (RLo (R 7) 37) (R 6));
  (2%nat, Ad (R 2) (R 1));
  (1%nat, Xo (RLo (R 1) 33) (R 2));
  (4%nat, Ad (R 4) (R 7));
  (7%nat, Xo (RLo (R 7) 27) (R 4));
  (6%nat, Ad (R 6) (R 5));
  (5%nat, Xo (RLo (R 5) 14) (R 6));
  (0%nat, Ad (R 0) (R 3));
  (3%nat, Xo (RLo (R 3) 42) (R 0));
  (4%nat, Ad (R 4) (R 1));
  (1%nat, Xo (RLo (R 1) 17) (R 4));
  (6%nat, Ad (R 6) (R 3));
  (3%nat, Xo (RLo (R 3) 49) (R 6));
  (0%nat, Ad (R 0) (R 5));
  (5%nat, Xo (RLo (R 5) 36) (R 0));
  (2%nat, Ad (R 2) (R 7));
  (7%nat, Xo (RLo (R 7) 39) (R 2));
  (6%nat, Ad (R 6) (R 1));
  (1%nat, Xo (RLo (R 1) 44) (R 6));
  (0%nat, Ad (R 0) (R 7));
  (7%nat, Xo (RLo (R 7) 9) (R 0));
  (2%nat, Ad (R 2) (R 5));
  (5%nat, Xo (RLo (R 5) 54) (R 2));
  (4%nat, Ad (R 4) (R 3));
  (3%nat, Xo (RLo (R 3) 56) (R 4));
  (1%nat, Ad (R 1) (R 8));
  (0%nat, Ad (R 0) (Ad (R 1) (R 16)));
  (1%nat, Xo (RLo (R 1) 39) (R 0));
  (3%nat, Ad (R 3) (R 10));
  (2%nat, Ad (R 2) (Ad (R 3) (R 9)));
  (3%nat, Xo (RLo (R 3) 30) (R 2));
  (5%nat, Ad (R 5) (Ad (R 12) (R 19)));
  (4%nat, Ad (R 4) (Ad (R 5) (R 11)));
  (5%nat, Xo (RLo (R 5) 34) (R 4));
  (7%nat, Ad (R 7) (Ad (R 14) (K 0x11)));
  (6%nat, Ad (R 6) (Ad (Ad (R 7) (R 13)) (R 17)));
  (7%nat, Xo (RLo (R 7) 24) (R 6));
  (2%nat, Ad (R 2) (R 1));
  (1%nat, Xo (RLo (R 1) 13) (R 2));
  (4%nat, Ad (R 4) (R 7));
  (7%nat, Xo (RLo (R 7) 50) (R 4));
  (6%nat, Ad (R 6) (R 5));
  (5%nat, Xo (RLo (R 5) 10) (R 6));
  (0%nat, Ad (R 0) (R 3));
  (3%nat, Xo (RLo (R 3) 17) (R 0));
  (4%nat, Ad (R 4) (R 1));
  (1%nat, Xo (RLo (R 1) 25) (R 4));
  (6%nat, Ad (R 6) (R 3));
  (3%nat, Xo (RLo (R 3) 29) (R 6));
  (0%nat, Ad (R 0) (R 5));
  (5%nat, Xo (RLo (R 5) 39) (R 0));
  (2%nat, Ad (R 2) (R 7));
  (7%nat, Xo (RLo (R 7) 43) (R 2));
  (6%nat, Ad (R 6) (R 1));
  (1%nat, Xo (RLo (R 1) 8) (R 6));
  (0%nat, Ad (R 0) (R 7));
  (7%nat, Xo (RLo (R 7) 35) (R 0));
  (2%nat, Ad (R 2) (R 5));
  (5%nat, Xo (RLo (R 5) 56) (R 2));
  (4%nat, Ad (R 4) (R 3));
  (3%nat, Xo (RLo (R 3) 22) (R 4));
  (1%nat, Ad (R 1) (R 9));
  (0%nat, Ad (R 0) (Ad (R 1) (R 8)));
  (1%nat, Xo (RLo (R 1) 46) (R 0));
  (3%nat, Ad (R 3) (R 11));
  (2%nat, Ad (R 2) (Ad (R 3) (R 10)));
  (3%nat, Xo (RLo (R 3) 36) (R 2));
  (5%nat, Ad (R 5) (Ad (R 13) (R 17)));
  (4%nat, Ad (R 4) (Ad (R 5) (R 12)));
  (5%nat, Xo (RLo (R 5) 19) (R 4));
  (7%nat, Ad (R 7) (Ad (R 15) (K 0x12)));
  (6%nat, Ad (R 6) (Ad (Ad (R 7) (R 14)) (R 18)));
  (7%nat, Xo (RLo (R 7) 37) (R 6));
  (2%nat, Ad (R 2) (R 1));
  (1%nat, Xo (RLo (R 1) 33) (R 2));
  (4%nat, Ad (R 4) (R 7));
  (7%nat, Xo (RLo (R 7) 27) (R 4));
  (6%nat, Ad (R 6) (R 5));
  (5%nat, Xo (RLo (R 5) 14) (R 6));
  (0%nat, Ad (R 0) (R 3));
  (3%nat, Xo (RLo (R 3) 42) (R 0));
  (4%nat, Ad (R 4) (R 1));
  (1%nat, Xo (RLo (R 1) 17) (R 4));
  (6%nat, Ad (R 6) (R 3));
  (3%nat, Xo (RLo (R 3) 49) (R 6));
  (0%nat, Ad (R 0) (R 5));
  (5%nat, Xo (RLo (R 5) 36) (R 0));
  (2%nat, Ad (R 2) (R 7));
  (7%nat, Xo (RLo (R 7) 39) (R 2));
  (6%nat, Ad (R 6) (R 1));
  (1%nat, Xo (RLo (R 1) 44) (R 6));
  (0%nat, Ad (R 0) (R 7));
  (7%nat, Xo (RLo (R 7) 9) (R 0));
  (2%nat, Ad (R 2) (R 5));
  (5%nat, Xo (RLo (R 5) 54) (R 2));
  (4%nat, Ad (R 4) (R 3));
  (3%nat, Xo (RLo (R 3) 56) (R 4));
  (1%nat, Ad (R 1) (R 10));
  (0%nat, Ad (R 0) (Ad (R 1) (R 9)));
  (1%nat, Xo (RLo (R 1) 39) (R 0));
  (3%nat, Ad (R 3) (R 12));
  (2%nat, Ad (R 2) (Ad (R 3) (R 11)));
  (3%nat, Xo (RLo (R 3) 30) (R 2));
  (5%nat, Ad (R 5) (Ad (R 14) (R 18)));
  (4%nat, Ad (R 4) (Ad (R 5) (R 13)));
  (5%nat, Xo (RLo (R 5) 34) (R 4));
  (7%nat, Ad (R 7) (Ad (R 16) (K 0x13)));
  (6%nat, Ad (R 6) (Ad (Ad (R 7) (R 15)) (R 19)));
  (7%nat, Xo (RLo (R 7) 24) (R 6));
  (2%nat, Ad (R 2) (R 1));
  (1%nat, Xo (RLo (R 1) 13) (R 2));
  (4%nat, Ad (R 4) (R 7));
  (7%nat, Xo (RLo (R 7) 50) (R 4));
  (6%nat, Ad (R 6) (R 5));
  (5%nat, Xo (RLo (R 5) 10) (R 6));
  (0%nat, Ad (R 0) (R 3));
  (3%nat, Xo (RLo (R 3) 17) (R 0));
  (4%nat, Ad (R 4) (R 1));
  (1%nat, Xo (RLo (R 1) 25) (R 4));
  (6%nat, Ad (R 6) (R 3));
  (3%nat, Xo (RLo (R 3) 29) (R 6));
  (0%nat, Ad (R 0) (R 5));
  (5%nat, Xo (RLo (R 5) 39) (R 0));
  (2%nat, Ad (R 2) (R 7));
  (7%nat, Xo (RLo (R 7) 43) (R 2));
  (6%nat, Ad (R 6) (R 1));
  (1%nat, Xo (RLo (R 1) 8) (R 6));
  (0%nat, Ad (R 0) (R 7));
  (7%nat, Xo (RLo (R 7) 35) (R 0));
  (2%nat, Ad (R 2) (R 5));
  (5%nat, Xo (RLo (R 5) 56) (R 2));
  (4%nat, Ad (R 4) (R 3));
  (3%nat, Xo (RLo (R 3) 22) (R 4));
  (1%nat, Ad (R 1) (R 11));
  (0%nat, Ad (R 0) (Ad (R 1) (R 10)));
  (1%nat, Xo (RLo (R 1) 46) (R 0));
  (3%nat, Ad (R 3) (R 13));
  (2%nat, Ad (R 2) (Ad (R 3) (R 12)));
  (3%nat, Xo (RLo (R 3) 36) (R 2));
  (5%nat, Ad (R 5) (Ad (R 15) (R 19)));
  (4%nat, Ad (R 4) (Ad (R 5) (R 14)));
  (5%nat, Xo (RLo (R 5) 19) (R 4));
  (7%nat, Ad (R 7) (Ad (R 8) (K 0x14)));
  (6%nat, Ad (R 6) (Ad (Ad (R 7) (R 16)) (R 17)));
  (7%nat, Xo (RLo (R 7) 37) (R 6));
  (2%nat, Ad (R 2) (R 1));
  (1%nat, Xo (RLo (R 1) 33) (R 2));
  (4%nat, Ad (R 4) (R 7));
  (7%nat, Xo (RLo (R 7) 27) (R 4));
  (6%nat, Ad (R 6) (R 5));
  (5%nat, Xo (RLo (R 5) 14) (R 6));
  (0%nat, Ad (R 0) (R 3));
  (3%nat, Xo (RLo (R 3) 42) (R 0));
  (4%nat, Ad (R 4) (R 1));
  (1%nat, Xo (RLo (R 1) 17) (R 4));
  (6%nat, Ad (R 6) (R 3));
  (3%nat, Xo (RLo (R 3) 49) (R 6));
  (0%nat, Ad (R 0) (R 5));
  (5%nat, Xo (RLo (R 5) 36) (R 0));
  (2%nat, Ad (R 2) (R 7));
  (7%nat, Xo (RLo (R 7) 39) (R 2));
  (6%nat, Ad (R 6) (R 1));
  (1%nat, Xo (RLo (R 1) 44) (R 6));
  (0%nat, Ad (R 0) (R 7));
  (7%nat, Xo (RLo (R 7) 9) (R 0));
  (2%nat, Ad (R 2) (R 5));
  (5%nat, Xo (RLo (R 5) 54) (R 2));
  (4%nat, Ad (R 4) (R 3));
  (3%nat, Xo (RLo (R 3) 56) (R 4));
  (1%nat, Ad (R 1) (R 12));
  (0%nat, Ad (R 0) (Ad (R 1) (R 11)));
  (1%nat, Xo (RLo (R 1) 39) (R 0));
  (3%nat, Ad (R 3) (R 14));
  (2%nat, Ad (R 2) (Ad (R 3) (R 13)));
  (3%nat, Xo (RLo (R 3) 30) (R 2));
  (5%nat, Ad (R 5) (Ad (R 16) (R 17)));
  (4%nat, Ad (R 4) (Ad (R 5) (R 15)));
  (5%nat, Xo (RLo (R 5) 34) (R 4));
  (7%nat, Ad (R 7) (Ad (R 9) (K 0x15)));
  (6%nat, Ad (R 6) (Ad (Ad (R 7) (R 8)) (R 18)));
  (7%nat, Xo (RLo (R 7) 24) (R 6));
  (2%nat, Ad (R 2) (R 1));
  (1%nat, Xo (RLo (R 1) 13) (R 2));
  (4%nat, Ad (R 4) (R 7));
  (7%nat, Xo (RLo (R 7) 50) (R 4));
  (6%nat, Ad (R 6) (R 5));
  (5%nat, Xo (RLo (R 5) 10) (R 6));
  (0%nat, Ad (R 0) (R 3));
  (3%nat, Xo (RLo (R 3) 17) (R 0));
  (4%nat, Ad (R 4) (R 1));
  (1%nat, Xo (RLo (R 1) 25) (R 4));
  (6%nat, Ad (R 6) (R 3));
  (3%nat, Xo (RLo (R 3) 29) (R 6));
  (0%nat, Ad (R 0) (R 5));
  (5%nat, Xo (RLo (R 5) 39) (R 0));
  (2%nat, Ad (R 2) (R 7));
  (7%nat, Xo (RLo (R 7) 43) (R 2));
  (6%nat, Ad (R 6) (R 1));
  (1%nat, Xo (RLo (R 1) 8) (R 6));
  (0%nat, Ad (R 0) (R 7));
  (7%nat, Xo (RLo (R 7) 35) (R 0));
  (2%nat, Ad (R 2) (R 5));
  (5%nat, Xo (RLo (R 5) 56) (R 2));
  (4%nat, Ad (R 4) (R 3));
  (3%nat, Xo (RLo (R 3) 22) (R 4));
  (1%nat, Ad (R 1) (R 13));
  (0%nat, Ad (R 0) (Ad (R 1) (R 12)));
  (1%nat, Xo (RLo (R 1) 46) (R 0));
  (3%nat, Ad (R 3) (R 15));
  (2%nat, Ad (R 2) (Ad (R 3) (R 14)));
  (3%nat, Xo (RLo (R 3) 36) (R 2));
  (5%nat, Ad (R 5) (Ad (R 8) (R 18)));
  (4%nat, Ad (R 4) (Ad (R 5) (R 16)));
  (5%nat, Xo (RLo (R 5) 19) (R 4));
  (7%nat, Ad (R 7) (Ad (R 10) (K 0x16)));
  (6%nat, Ad (R 6) (Ad (Ad (R 7) (R 9)) (R 19)));
  (7%nat, Xo (RLo (R 7) 37) (R 6));
  (2%nat, Ad (R 2) (R 1));
  (1%nat, Xo (RLo (R 1) 33) (R 2));
  (4%nat, Ad (R 4) (R 7));
  (7%nat, Xo (RLo (R 7) 27) (R 4));
  (6%nat, Ad (R 6) (R 5));
  (5%nat, Xo (RLo (R 5) 14) (R 6));
  (0%nat, Ad (R 0) (R 3));
  (3%nat, Xo (RLo (R 3) 42) (R 0));
  (4%nat, Ad (R 4) (R 1));
  (1%nat, Xo (RLo (R 1) 17) (R 4));
  (6%nat, Ad (R 6) (R 3));
  (3%nat, Xo (RLo (R 3) 49) (R 6));
  (0%nat, Ad (R 0) (R 5));
  (5%nat, Xo (RLo (R 5) 36) (R 0));
  (2%nat, Ad (R 2) (R 7));
  (7%nat, Xo (RLo (R 7) 39) (R 2));
  (6%nat, Ad (R 6) (R 1));
  (1%nat, Xo (RLo (R 1) 44) (R 6));
  (0%nat, Ad (R 0) (R 7));
  (7%nat, Xo (RLo (R 7) 9) (R 0));
  (2%nat, Ad (R 2) (R 5));
  (5%nat, Xo (RLo (R 5) 54) (R 2));
  (4%nat, Ad (R 4) (R 3));
  (3%nat, Xo (RLo (R 3) 56) (R 4));
  (1%nat, Ad (R 1) (R 14));
  (0%nat, Ad (R 0) (Ad (R 1) (R 13)));
  (1%nat, Xo (RLo (R 1) 39) (R 0));
  (3%nat, Ad (R 3) (R 16));
  (2%nat, Ad (R 2) (Ad (R 3) (R 15)));
  (3%nat, Xo (RLo (R 3) 30) (R 2));
  (5%nat, Ad (R 5) (Ad (R 9) (R 19)));
  (4%nat, Ad (R 4) (Ad (R 5) (R 8)));
  (5%nat, Xo (RLo (R 5) 34) (R 4));
  (7%nat, Ad (R 7) (Ad (R 11) (K 0x17)));
  (6%nat, Ad (R 6) (Ad (Ad (R 7) (R 10)) (R 17)));
  (7%nat, Xo (RLo (R 7) 24) (R 6));
  (2%nat, Ad (R 2) (R 1));
  (1%nat, Xo (RLo (R 1) 13) (R 2));
  (4%nat, Ad (R 4) (R 7));
  (7%nat, Xo (RLo (R 7) 50) (R 4));
  (6%nat, Ad (R 6) (R 5));
  (5%nat, Xo (RLo (R 5) 10) (R 6));
  (0%nat, Ad (R 0) (R 3));
  (3%nat, Xo (RLo (R 3) 17) (R 0));
  (4%nat, Ad (R 4) (R 1));
  (1%nat, Xo (RLo (R 1) 25) (R 4));
  (6%nat, Ad (R 6) (R 3));
  (3%nat, Xo (RLo (R 3) 29) (R 6));
  (0%nat, Ad (R 0) (R 5));
  (5%nat, Xo (RLo (R 5) 39) (R 0));
  (2%nat, Ad (R 2) (R 7));
  (7%nat, Xo (RLo (R 7) 43) (R 2));
  (6%nat, Ad (R 6) (R 1));
  (1%nat, Xo (RLo (R 1) 8) (R 6));
  (0%nat, Ad (R 0) (R 7));
  (7%nat, Xo (RLo (R 7) 35) (R 0));
  (2%nat, Ad (R 2) (R 5));
  (5%nat, Xo (RLo (R 5) 56) (R 2));
  (4%nat, Ad (R 4) (R 3));
  (3%nat, Xo (RLo (R 3) 22) (R 4));
  (32%nat, Ad (R 0) (R 8));
  (33%nat, Ad (R 1) (R 9));
  (34%nat, Ad (R 2) (R 10));
  (35%nat, Ad (R 3) (R 11));
  (36%nat, Ad (R 4) (R 12));
  (37%nat, Ad (Ad (R 5) (R 13)) (R 17));
  (38%nat, Ad (Ad (R 6) (R 14)) (R 18));
  (39%nat, Ad (Ad (R 7) (R 15)) (K 0x18))
].

(** CEX/Threefish.h:2518-4786, body of PemuteR120P1024U: generated by tools/straight.py, one entry per statement.
    Registers: 0=C0, 1=C1, 2=C2, 3=C3, 4=C4, 5=C5, 6=C6, 7=C7, 8=C8, 9=C9, 10=C10, 11=C11, 12=C12, 13=C13, 14=C14, 15=C15, 16=K0, 17=K1, 18=K2, 19=K3, 20=K4, 21=K5, 22=K6, 23=K7, 24=K8, 25=K9, 26=K10, 27=K11, 28=K12, 29=K13, 30=K14, 31=K15, 32=K16, 33=T0, 34=T1, 35=T2, 36=Counter[0], 37=Counter[1], 38=Key[0], 39=Key[1], 40=Key[2], 41=Key[3], 42=Key[4], 43=Key[5], 44=Key[6], 45=Key[7], 46=Key[8], 47=Key[9], 48=Key[10], 49=Key[11], 50=Key[12], 51=Key[13], 52=Key[14], 53=Key[15], 54=Tweak[0], 55=Tweak[1], 56=State[0], 57=State[1], 58=State[2], 59=State[3], 60=State[4], 61=State[5], 62=State[6], 63=State[7], 64=State[8], 65=State[9], 66=State[10], 67=State[11], 68=State[12], 69=State[13], 70=State[14], 71=State[15]. *)
Definition tsx1024_U : prog := [
  (0%nat, R 36);
  (1%nat, R 37);
  (2%nat, K 0xFFFFFFFFFFFFFFFF);
  (3%nat, K 0xFFFFFFFFFFFFFFFF);
  (4%nat, K 0xFFFFFFFFFFFFFFFF);
  (5%nat, K 0xFFFFFFFFFFFFFFFF);
  (6%nat, K 0xFFFFFFFFFFFFFFFF);
  (7%nat, K 0xFFFFFFFFFFFFFFFF);
  (8%nat, K 0xFFFFFFFFFFFFFFFF);
  (9%nat, K 0xFFFFFFFFFFFFFFFF);
  (10%nat, K 0xFFFFFFFFFFFFFFFF);
  (11%nat, K 0xFFFFFFFFFFFFFFFF);
  (12%nat, K 0xFFFFFFFFFFFFFFFF);
  (13%nat, K 0xFFFFFFFFFFFFFFFF);
  (14%nat, K 0xFFFFFFFFFFFFFFFF);
  (15%nat, K 0xFFFFFFFFFFFFFFFF);
  (16%nat, R 38);
  (17%nat, R 39);
  (18%nat, R 40);
  (19%nat, R 41);
  (20%nat, R 42);
  (21%nat, R 43);
  (22%nat, R 44);
  (23%nat, R 45);
  (24%nat, R 46);
  (25%nat, R 47);
  (26%nat, R 48);
  (27%nat, R 49);
  (28%nat, R 50);
  (29%nat, R 51);
  (30%nat, R 52);
  (31%nat, R 53);
  (32%nat, Xo (Xo (Xo (Xo (Xo (Xo (Xo (Xo (Xo (Xo (Xo (Xo (Xo (Xo (Xo (Xo (R 16) (R 17)) (R 18)) (R 19)) (R 20)) (R 21)) (R 22)) (R 23)) (R 24)) (R 25)) (R 26)) (R 27)) (R 28)) (R 29)) (R 30)) (R 31)) (K 0x1BD11BDAA9FC1A22));
  (33%nat, R 54);
  (34%nat, R 55);
  (35%nat, Xo (R 54) (R 55));
  (1%nat, Ad (R 1) (R 17));
  (0%nat, Ad (R 0) (Ad (R 1) (R 16)));
  (1%nat, Xo (RLo (R 1) 24) (R 0));
  (3%nat, Ad (R 3) (R 19));
  (2%nat, Ad (R 2) (Ad (R 3) (R 18)));
  (3%nat, Xo (RLo (R 3) 13) (R 2));
  (5%nat, Ad (R 5) (R 21));
  (4%nat, Ad (R 4) (Ad (R 5) (R 20)));
  (5%nat, Xo (RLo (R 5) 8) (R 4));
  (7%nat, Ad (R 7) (R 23));
  (6%nat, Ad (R 6) (Ad (R 7) (R 22)));
  (7%nat, Xo (RLo (R 7) 47) (R 6));
  (9%nat, Ad (R 9) (R 25));
  (8%nat, Ad (R 8) (Ad (R 9) (R 24)));
  (9%nat, Xo (RLo (R 9) 8) (R 8));
  (11%nat, Ad (R 11) (R 27));
  (10%nat, Ad (R 10) (Ad (R 11) (R 26)));
  (11%nat, Xo (RLo (R 11) 17) (R 10));
  (13%nat, Ad (R 13) (Ad (R 29) (R 33)));
  (12%nat, Ad (R 12) (Ad (R 13) (R 28)));
  (13%nat, Xo (RLo (R 13) 22) (R 12));
  (15%nat, Ad (R 15) (R 31));
  (14%nat, Ad (R 14) (Ad (Ad (R 15) (R 30)) (R 34)));
  (15%nat, Xo (RLo (R 15) 37) (R 14));
  (0%nat, Ad (R 0) (R 9));
  (9%nat, Xo (RLo (R 9) 38) (R 0));
  (2%nat, Ad (R 2) (R 13));
  (13%nat, Xo (RLo (R 13) 19) (R 2));
  (6%nat, Ad (R 6) (R 11));
  (11%nat, Xo (RLo (R 11) 10) (R 6));
  (4%nat, Ad (R 4) (R 15));
  (15%nat, Xo (RLo (R 15) 55) (R 4));
  (10%nat, Ad (R 10) (R 7));
  (7%nat, Xo (RLo (R 7) 49) (R 10));
  (12%nat, Ad (R 12) (R 3));
  (3%nat, Xo (RLo (R 3) 18) (R 12));
  (14%nat, Ad (R 14) (R 5));
  (5%nat, Xo (RLo (R 5) 23) (R 14));
  (8%nat, Ad (R 8) (R 1));
  (1%nat, Xo (RLo (R 1) 52) (R 8));
  (0%nat, Ad (R 0) (R 7));
  (7%nat, Xo (RLo (R 7) 33) (R 0));
  (2%nat, Ad (R 2) (R 5));
  (5%nat, Xo (RLo (R 5) 4) (R 2));
  (4%nat, Ad (R 4) (R 3));
  (3%nat, Xo (RLo (R 3) 51) (R 4));
  (6%nat, Ad (R 6) (R 1));
  (1%nat, Xo (RLo (R 1) 13) (R 6));
  (12%nat, Ad (R 12) (R 15));
  (15%nat, Xo (RLo (R 15) 34) (R 12));
  (14%nat, Ad (R 14) (R 13));
  (13%nat, Xo (RLo (R 13) 41) (R 14));
  (8%nat, Ad (R 8) (R 11));
  (11%nat, Xo (RLo (R 11) 59) (R 8));
  (10%nat, Ad (R 10) (R 9));
  (9%nat, Xo (RLo (R 9) 17) (R 10));
  (0%nat, Ad (R 0) (R 15));
  (15%nat, Xo (RLo (R 15) 5) (R 0));
  (2%nat, Ad (R 2) (R 11));
  (11%nat, Xo (RLo (R 11) 20) (R 2));
  (6%nat, Ad (R 6) (R 13));
  (13%nat, Xo (RLo (R 13) 48) (R 6));
  (4%nat, Ad (R 4) (R 9));
  (9%nat, Xo (RLo (R 9) 41) (R 4));
  (14%nat, Ad (R 14) (R 1));
  (1%nat, Xo (RLo (R 1) 47) (R 14));
  (8%nat, Ad (R 8) (R 5));
  (5%nat, Xo (RLo (R 5) 28) (R 8));
  (10%nat, Ad (R 10) (R 3));
  (3%nat, Xo (RLo (R 3) 16) (R 10));
  (12%nat, Ad (R 12) (R 7));
  (7%nat, Xo (RLo (R 7) 25) (R 12));
  (1%nat, Ad (R 1) (R 18));
  (0%nat, Ad (R 0) (Ad (R 1) (R 17)));
  (1%nat, Xo (RLo (R 1) 41) (R 0));
  (3%nat, Ad (R 3) (R 20));
  (2%nat, Ad (R 2) (Ad (R 3) (R 19)));
  (3%nat, Xo (RLo (R 3) 9) (R 2));
  (5%nat, Ad (R 5) (R 22));
  (4%nat, Ad (R 4) (Ad (R 5) (R 21)));
  (5%nat, Xo (RLo (R 5) 37) (R 4));
  (7%nat, Ad (R 7) (R 24));
  (6%nat, Ad (R 6) (Ad (R 7) (R 23)));
  (7%nat, Xo (RLo (R 7) 31) (R 6));
  (9%nat, Ad (R 9) (R 26));
  (8%nat, Ad (R 8) (Ad (R 9) (R 25)));
  (9%nat, Xo (RLo (R 9) 12) (R 8));
  (11%nat, Ad (R 11) (R 28));
  (10%nat, Ad (R 10) (Ad (R 11) (R 27)));
  (11%nat, Xo (RLo (R 11) 47) (R 10));
  (13%nat, Ad (R 13) (Ad (R 30) (R 34)));
  (12%nat, Ad (R 12) (Ad (R 13) (R 29)));
  (13%nat, Xo (RLo (R 13) 44) (R 12));
  (15%nat, Ad (R 15) (Ad (R 32) (K 0x1)));
  (14%nat, Ad (R 14) (Ad (Ad (R 15) (R 31)) (R 35)));
  (15%nat, Xo (RLo (R 15) 30) (R 14));
  (0%nat, Ad (R 0) (R 9));
  (9%nat, Xo (RLo (R 9) 16) (R 0));
  (2%nat, Ad (R 2) (R 13));
  (13%nat, Xo (RLo (R 13) 34) (R 2));
  (6%nat, Ad (R 6) (R 11));
  (11%nat, Xo (RLo (R 11) 56) (R 6));
  (4%nat, Ad (R 4) (R 15));
  (15%nat, Xo (RLo (R 15) 51) (R 4));
  (10%nat, Ad (R 10) (R 7));
  (7%nat, Xo (RLo (R 7) 4) (R 10));
  (12%nat, Ad (R 12) (R 3));
  (3%nat, Xo (RLo (R 3) 53) (R 12));
  (14%nat, Ad (R 14) (R 5));
  (5%nat, Xo (RLo (R 5) 42) (R 14));
  (8%nat, Ad (R 8) (R 1));
  (1%nat, Xo (RLo (R 1) 41) (R 8));
  (0%nat, Ad (R 0) (R 7));
  (7%nat, Xo (RLo (R 7) 31) (R 0));
  (2%nat, Ad (R 2) (R 5));
  (5%nat, Xo (RLo (R 5) 44) (R 2));
  (4%nat, Ad (R 4) (R 3));
  (3%nat, Xo (RLo (R 3) 47) (R 4));
  (6%nat, Ad (R 6) (R 1));
  (1%nat, Xo (RLo (R 1) 46) (R 6));
  (12%nat, Ad (R 12) (R 15));
  (15%nat, Xo (RLo (R 15) 19) (R 12));
  (14%nat, Ad (R 14) (R 13));
  (13%nat, Xo (RLo (R 13) 42) (R 14));
  (8%nat, Ad (R 8) (R 11));
  (11%nat, Xo (RLo (R 11) 44) (R 8));
  (10%nat, Ad (R 10) (R 9));
  (9%nat, Xo (RLo (R 9) 25) (R 10));
  (0%nat, Ad (R 0) (R 15));
  (15%nat, Xo (RLo (R 15) 9) (R 0));
  (2%nat, Ad (R 2) (R 11));
  (11%nat, Xo (RLo (R 11) 48) (R 2));
  (6%nat, Ad (R 6) (R 13));
  (13%nat, Xo (RLo (R 13) 35) (R 6));
  (4%nat, Ad (R 4) (R 9));
  (9%nat, Xo (RLo (R 9) 52) (R 4));
  (14%nat, Ad (R 14) (R 1));
  (1%nat, Xo (RLo (R 1) 23) (R 14));
  (8%nat, Ad (R 8) (R 5));
  (5%nat, Xo (RLo (R 5) 31) (R 8));
  (10%nat, Ad (R 10) (R 3));
  (3%nat, Xo (RLo (R 3) 37) (R 10));
  (12%nat, Ad (R 12) (R 7));
  (7%nat, Xo (RLo (R 7) 20) (R 12));
  (1%nat, Ad (R 1) (R 19));
  (0%nat, Ad (R 0) (Ad (R 1) (R 18)));
  (1%nat, Xo (RLo (R 1) 24) (R 0));
  (3%nat, Ad (R 3) (R 21));
  (2%nat, Ad (R 2) (Ad (R 3) (R 20)));
  (3%nat, Xo (RLo (R 3) 13) (R 2));
  (5%nat, Ad (R 5) (R 23));
  (4%nat, Ad (R 4) (Ad (R 5) (R 22)));
  (5%nat, Xo (RLo (R 5) 8) (R 4));
  (7%nat, Ad (R 7) (R 25));
  (6%nat, Ad (R 6) (Ad (R 7) (R 24)));
  (7%nat, Xo (RLo (R 7) 47) (R 6));
  (9%nat, Ad (R 9) (R 27));
  (8%nat, Ad (R 8) (Ad (R 9) (R 26)));
  (9%nat, Xo (RLo (R 9) 8) (R 8));
  (11%nat, Ad (R 11) (R 29));
  (10%nat, Ad (R 10) (Ad (R 11) (R 28)));
  (11%nat, Xo (RLo (R 11) 17) (R 10));
  (13%nat, Ad (R 13) (Ad (R 31) (R 35)));
  (12%nat, Ad (R 12) (Ad (R 13) (R 30)));
  (13%nat, Xo (RLo (R 13) 22) (R 12));
  (15%nat, Ad (R 15) (Ad (R 16) (K 0x2)));
  (14%nat, Ad (R 14) (Ad (Ad (R 15) (R 32)) (R 33)));
  (15%nat, Xo (RLo (R 15) 37) (R 14));
  (0%nat, Ad (R 0) (R 9));
  (9%nat, Xo (RLo (R 9) 38) (R 0));
  (2%nat, Ad (R 2) (R 13));
  (13%nat, Xo (RLo (R 13) 19) (R 2));
  (6%nat, Ad (R 6) (R 11));
  (11%nat, Xo (RLo (R 11) 10) (R 6));
  (4%nat, Ad (R 4) (R 15));
  (15%nat, Xo (RLo (R 15) 55) (R 4));
  (10%nat, Ad (R 10) (R 7));
  (7%nat, Xo (RLo (R 7) 49) (R 10));
  (12%nat, Ad (R 12) (R 3));
  (3%nat, Xo (RLo (R 3) 18) (R 12));
  (14%nat, Ad (R 14) (R 5));
  (5%nat, Xo (RLo (R 5) 23) (R 14));
  (8%nat, Ad (R 8) (R 1));
  (1%nat, Xo (RLo (R 1) 52) (R 8));
  (0%nat, Ad (R 0) (R 7));
  (7%nat, Xo (RLo (R 7) 33) (R 0));
  (2%nat, Ad (R 2) (R 5));
  (5%nat, Xo (RLo (R 5) 4) (R 2));
  (4%nat, Ad (R 4) (R 3));
  (3%nat, Xo (RLo (R 3) 51) (R 4));
  (6%nat, Ad (R 6) (R 1));
  (1%nat, Xo (RLo (R 1) 13) (R 6));
  (12%nat, Ad (R 12) (R 15));
  (15%nat, Xo (RLo (R 15) 34) (R 12));
  (14%nat, Ad (R 14) (R 13));
  (13%nat, Xo (RLo (R 13) 41) (R 14));
  (8%nat, Ad (R 8) (R 11));
  (11%nat, Xo (RLo (R 11) 59) (R 8));
  (10%nat, Ad (R 10) (R 9));
  (9%nat, Xo (RLo (R 9) 17) (R 10));
  (0%nat, Ad (R 0) (R 15));
  (15%nat, Xo (RLo (R 15) 5) (R 0));
  (2%nat, Ad (R 2) (R 11));
  (11%nat, Xo (RLo (R 11) 20) (R 2));
  (6%nat, Ad (R 6) (R 13));
  (13%nat, Xo (RLo (R 13) 48) (R 6));
  (4%nat, Ad (R 4) (R 9));
  (9%nat, Xo (RLo (R 9) 41) (R 4));
  (14%nat, Ad (R 14) (R 1));
  (1%nat, Xo (RLo (R 1) 47) (R 14));
  (8%nat, Ad (R 8) (R 5));
  (5%nat, Xo (RLo (R 5) 28) (R 8));
  (10%nat, Ad (R 10) (R 3));
  (3%nat, Xo (RLo (R 3) 16) (R 10));
  (12%nat, Ad (R 12) (R 7));
  (7%nat, Xo (RLo (R 7) 25) (R 12));
  (1%nat, Ad (R 1) (R 20));
  (0%nat, Ad (R 0) (Ad (R 1) (R 19)));
  (1%nat, Xo (RLo (R 1) 41) (R 0));
  (3%nat, Ad (R 3) (R 22));
  (2%nat, Ad (R 2) (Ad (R 3) (R 21)));
  (3%nat, Xo (RLo (R 3) 9) (R 2));
  (5%nat, Ad (R 5) (R 24));
  (4%nat, Ad (R 4) (Ad (R 5) (R 23)));
  (5%nat, Xo (RLo (R 5) 37) (R 4));
  (7%nat, Ad (R 7) (R 26));
  (6%nat, Ad (R 6) (Ad (R 7) (R 25)));
  (7%nat, Xo (RLo (R 7) 31) (R 6));
  (9%nat, Ad (R 9) (R 28));
  (8%nat, Ad (R 8) (Ad (R 9) (R 27)));
  (9%nat, Xo (RLo (R 9) 12) (R 8));
  (11%nat, Ad (R 11) (R 30));
  (10%nat, Ad (R 10) (Ad (R 11) (R 29)));
  (11%nat, Xo (RLo (R 11) 47) (R 10));
  (13%nat, Ad (R 13) (Ad (R 32) (R 33)));
  (12%nat, Ad (R 12) (Ad (R 13) (R 31)));
  (13%nat, Xo (RLo (R 13) 44) (R 12));
  (15%nat, Ad (R 15) (Ad (R 17) (K 0x3)));
  (14%nat, Ad (R 14) (Ad (Ad (R 15) (R 16)) (R 34)));
  (15%nat, Xo (RLo (R 15) 30) (R 14));
  (0%nat, Ad (R 0) (R 9));
  (9%nat, Xo (RLo (R 9) 16) (R 0));
  (2%nat, Ad (R 2) (R 13));
  (13%nat, Xo (RLo (R 13) 34) (R 2));
  (6%nat, Ad (R 6) (R 11));
  (11%nat, Xo (RLo (R 11) 56) (R 6));
  (4%nat, Ad (R 4) (R 15));
  (15%nat, Xo (RLo (R 15) 51) (R 4));
  (10%nat, Ad (R 10) (R 7));
  (7%nat, Xo (RLo (R 7) 4) (R 10));
  (12%nat, Ad (R 12) (R 3));
  (3%nat, Xo (RLo (R 3) 53) (R 12));
  (14%nat, Ad (R 14) (R 5));
  (5%nat, Xo (RLo (R 5) 42) (R 14));
  (8%nat, Ad (R 8) (R 1));
  (1%nat, Xo (RLo (R 1) 41) (R 8));
  (0%nat, Ad (R 0) (R 7));
  (7%nat, Xo (RLo (R 7) 31) (R 0));
  (2%nat, Ad (R 2) (R 5));
  (5%nat, Xo (RLo (R 5) 44) (R 2));
  (4%nat, Ad (R 4) (R 3));
  (3%nat, Xo (RLo (R 3) 47) (R 4));
  (6%nat, Ad (R 6) (R 1));
  (1%nat, Xo (RLo (R 1) 46) (R 6));
  (12%nat, Ad (R 12) (R 15));
  (15%nat, Xo (RLo (R 15) 19) (R 12));
  (14%nat, Ad (R 14) (R 13));
  (13%nat, Xo (RLo (R 13) 42) (R 14));
  (8%nat, Ad (R 8) (R 11));
  (11%nat, Xo (RLo (R 11) 44) (R 8));
  (10%nat, Ad (R 10) (R 9));
  (9%nat, Xo (RLo (R 9) 25) (R 10));
  (0%nat, Ad (R 0) (R 15));
  (15%nat, Xo (RLo (R 15) 9) (R 0));
  (2%nat, Ad (R 2) (R 11));
  (11%nat, Xo (RLo (R 11) 48) (R 2));
  (6%nat, Ad (R 6) (R 13));
  (13%nat, Xo (RLo (R 13) 35) (R 6));
  (4%nat, Ad (R 4) (R 9));
  (9%nat, Xo (RLo (R 9) 52) (R 4));
  (14%nat, Ad (R 14) (R 1));
  (1%nat, Xo (RLo (R 1) 23) (R 14));
  (8%nat, Ad (R 8) (R 5));
  (5%nat, Xo (RLo (R 5) 31) (R 8));
  (10%nat, Ad (R 10) (R 3));
  (3%nat, Xo (RLo (R 3) 37) (R 10));
  (12%nat, Ad (R 12) (R 7));
  (7%nat, Xo (RLo (R 7) 20) (R 12));
  (1%nat, Ad (R 1) (R 21));
  (0%nat, Ad (R 0) (Ad (R 1) (R 20)));
  (1%nat, Xo (RLo (R 1) 24) (R 0));
  (3%nat, Ad (R 3) (R 23));
  (2%nat, Ad (R 2) (Ad (R 3) (R 22)));
  (3%nat, Xo (RLo (R 3) 13) (R 2));
  (5%nat, Ad (R 5) (R 25));
  (4%nat, Ad (R 4) (Ad (R 5) (R 24)));
  (5%nat, Xo (RLo (R 5) 8) (R 4));
  (7%nat, Ad (R 7) (R 27));
  (6%nat, Ad (R 6) (Ad (R 7) (R 26)));
  (7%nat, Xo (RLo (R 7) 47) (R 6));
  (9%nat, Ad (R 9) (R 29));
  (8%nat, Ad (R 8) (Ad (R 9) (R 28)));
  (9%nat, Xo (RLo (R 9) 8) (R 8));
  (11%nat, Ad (R 11) (R 31));
  (10%nat, Ad (R 10) (Ad (R 11) (R 30)));
  (11%nat, Xo (RLo (R 11) 17) (R 10));
  (13%nat, Ad (R 13) (Ad (R 16) (R 34)));
  (12%nat, Ad (R 12) (Ad (R 13) (R 32)));
  (13%nat, Xo (RLo (R 13) 22) (R 12));
  (15%nat, Ad (R 15) (Ad (R 18) (K 0x4)));
  (14%nat, Ad (R 14) (Ad (Ad (R 15) (R 17)) (R 35)));
  (15%nat, Xo (RLo (R 15) 37) (R 14));
  (0%nat, Ad (R 0) (R 9));
  (9%nat, Xo (RLo (R 9) 38) (R 0));
  (2%nat, Ad (R 2) (R 13));
  (13%nat, Xo (RLo (R 13) 19) (R 2));
  (6%nat, Ad (R 6) (R 11));
  (11%nat, Xo (RLo (R 11) 10) (R 6));
  (4%nat, Ad (R 4) (R 15));
  (15%nat, Xo (RLo (R 15) 55) (R 4));
  (10%nat, Ad (R 10) (R 7));
  (7%nat, Xo (RLo (R 7) 49) (R 10));
  (12%nat, Ad (R 12) (R 3));
  (3%nat, Xo (RLo (R 3) 18) (R 12));
  (14%nat, Ad (R 14) (R 5));
  (5%nat, Xo (RLo (R 5) 23) (R 14));
  (8%nat, Ad (R 8) (R 1));
  (1%nat, Xo (RLo (R 1) 52) (R 8));
  (0%nat, Ad (R 0) (R 7));
  (7%nat, Xo (RLo (R 7) 33) (R 0));
  (2%nat, Ad (R 2) (R 5));
  (5%nat, Xo (RLo (R 5) 4) (R 2));
  (4%nat, Ad (R 4) (R 3));
  (3%nat, Xo (RLo (R 3) 51) (R 4));
  (6%nat, Ad (R 6) (R 1));
  (1%nat, Xo (RLo (R 1) 13) (R 6));
  (12%nat, Ad (R 12) (R 15));
  (15%nat, Xo (RLo (R 15) 34) (R 12));
  (14%nat, Ad (R 14) (R 13));
  (13%nat, Xo (RLo (R 13) 41) (R 14));
  (8%nat, Ad (R 8) (R 11));
  (11%nat, Xo (RLo (R 11) 59) (R 8));
  (10%nat, Ad (R 10) (R 9));
  (9%nat, Xo (RLo (R 9) 17) (R 10));
  (0%nat, Ad (R 0) (R 15));
  (15%nat, Xo (RLo (R 15) 5) (R 0));
  (2%nat, Ad (R 2) (R 11));
  (11%nat, Xo (RLo (R 11) 20) (R 2));
  (6%nat, Ad (R 6) (R 13));
  (13%nat, Xo (RLo (R 13) 48) (R 6));
  (4%nat, Ad (R 4) (R 9));
  (9%nat, Xo (RLo (R 9) 41) (R 4));
  (14%nat, Ad (R 14) (R 1));
  (1%nat, Xo (RLo (R 1) 47) (R 14));
  (8%nat, Ad (R 8) (R 5));
  (5%nat, Xo (RLo (R 5) 28) (R 8));
  (10%nat, Ad (R 10) (R 3));
  (3%nat, Xo (RLo (R 3) 16) (R 10));
  (12%nat, Ad (R 12) (R 7));
  (7%nat, Xo (RLo (R 7) 25) (R 12));
  (1%nat, Ad (R 1) (R 22));
  (0%nat, Ad (R 0) (Ad (R 1) (R 21)));
  (1%nat, Xo (RLo (R 1) 41) (R 0));
  (3%nat, Ad (R 3) (R 24));
  (2%nat, Ad (R 2) (Ad (R 3) (R 23)));
  (3%nat, Xo (RLo (R 3) 9) (R 2));
  (5%nat, Ad (R 5) (R 26));
  (4%nat, Ad (R 4) (Ad (R 5) (R 25)));
  (5%nat, Xo (RLo (R 5) 37) (R 4));
  (7%nat, Ad (R 7) (R 28));
  (6%nat, Ad (R 6) (Ad (R 7) (R 27)));
  (7%nat, Xo (RLo (R 7) 31) (R 6));
  (9%nat, Ad (R 9) (R 30));
  (8%nat, Ad (R 8) (Ad (R 9) (R 29)));
  (9%nat, Xo (RLo (R 9) 12) (R 8));
  (11%nat, Ad (R 11) (R 32));
  (10%nat, Ad (R 10) (Ad (R 11) (R 31)));
  (11%nat, Xo (RLo (R 11) 47) (R 10));
  (13%nat, Ad (R 13) (Ad (R 17) (R 35)));
  (12%nat, Ad (R 12) (Ad (R 13) (R 16)));
  (13%nat, Xo (RLo (R 13) 44) (R 12));
  (15%nat, Ad (R 15) (Ad (R 19) (K 0x5)));
  (14%nat, Ad (R 14) (Ad (Ad (R 15) (R 18)) (R 33)));
  (15%nat, Xo (RLo (R 15) 30) (R 14));
  (0%nat, Ad (R 0) (R 9));
  (9%nat, Xo (RLo (R 9) 16) (R 0));
  (2%nat, Ad (R 2) (R 13));
  (13%nat, Xo (RLo (R 13) 34) (R 2));
  (6%nat, Ad (R 6) (R 11));
  (11%nat, Xo (RLo (R 11) 56) (R 6));
  (4%nat, Ad (R 4) (R 15));
  (15%nat, Xo (RLo (R 15) 51) (R 4));
  (10%nat, Ad (R 10) (R 7));
  (7%nat, Xo (RLo (R 7) 4) (R 10));
  (12%nat, Ad (R 12) (R 3));
  (3%nat, Xo (RLo (R 3) 53) (R 12));
  (14%nat, Ad (R 14) (R 5));
  (5%nat, Xo (RLo (R 5) 42) (R 14));
  (8%nat, Ad (R 8) (R 1));
  (1%nat, Xo (RLo (R 1) 41) (R 8));
  (0%nat, Ad (R 0) (R 7));
  (7%nat, Xo (RLo (R 7) 31) (R 0));
  (2%nat, Ad (R 2) (R 5));
  (5%nat, Xo (RLo (R 5) 44) (R 2));
  (4%nat, Ad (R 4) (R 3));
  (3%nat, Xo (RLo (R 3) 47) (R 4));
  (6%nat, Ad (R 6) (R 1));
  (1%nat, Xo (RLo (R 1) 46) (R 6));
  (12%nat, Ad (R 12) (R 15));
  (15%nat, Xo (RLo (R 15) 19) (R 12));
  (14%nat, Ad (R 14) (R 13));
  (13%nat, Xo (RLo (R 13) 42) (R 14));
  (8%nat, Ad (R 8) (R 11));
  (11%nat, Xo (RLo (R 11) 44) (R 8));
  (10%nat, Ad (R 10) (R 9));
  (9%nat, Xo (RLo (R 9) 25) (R 10));
  (0%nat, Ad (R 0) (R 15));
  (15%nat, Xo (RLo (R 15) 9) (R 0));
  (2%nat, Ad (R 2) (R 11));
  (11%nat, Xo (RLo (R 11) 48) (R 2));
  (6%nat, Ad (R 6) (R 13));
  (13%nat, Xo (RLo (R 13) 35) (R 6));
  (4%nat, Ad (R 4) (R 9));
  (9%nat, Xo (RLo (R 9) 52) (R 4));
  (14%nat, Ad (R 14) (R 1));
  (1%nat, Xo (RLo (R 1) 23) (R 14));
  (8%nat, Ad (R 8) (R 5));
  (5%nat, Xo (RLo (R 5) 31) (R 8));
  (10%nat, Ad (R 10) (R 3));
  (3%nat, Xo (RLo (R 3) 37) (R 10));
  (12%nat, Ad (R 12) (R 7));
  (7%nat, Xo (RLo (R 7) 20) (R 12));
  (1%nat, Ad (R 1) (R 23));
  (0%nat, Ad (R 0) (Ad (R 1) (R 22)));
  (1%nat, Xo (RLo (R 1) 24) (R 0));
  (3%nat, Ad (R 3) (R 25));
  (2%nat, Ad (R 2) (Ad (R 3) (R 24)));
  (3%nat, Xo (RLo (R 3) 13) (R 2));
  (5%nat, Ad (R 5) (R 27));
  (4%nat, Ad (R 4) (Ad (R 5) (R 26)));
  (5%nat, Xo (RLo (R 5) 8) (R 4));
  (7%nat, Ad (R 7) (R 29));
  (6%nat, Ad (R 6) (Ad (R 7) (R 28)));
  (7%nat, Xo (RLo (R 7) 47) (R 6));
  (9%nat, Ad (R 9) (R 31));
  (8%nat, Ad (R 8) (Ad (R 9) (R 30)));
  (9%nat, Xo (RLo (R 9) 8) (R 8));
  (11%nat, Ad (R 11) (R 16));
  (10%nat, Ad (R 10) (Ad (R 11) (R 32)));
  (11%nat, Xo (RLo (R 11) 17) (R 10));
  (13%nat, Ad (R 13) (Ad (R 18) (R 33)));
  (12%nat, Ad (R 12) (Ad (R 13) (R 17)));
  (13%nat, Xo (RLo (R 13) 22) (R 12));
  (15%nat, Ad (R 15) (Ad (R 20) (K 0x6)));
  (14%nat, Ad (R 14) (Ad (Ad (R 15) (R 19)) (R 34)));
  (15%nat, Xo (RLo (R 15) 37) (R 14));
  (0%nat, Ad (R 0) (R 9));
  (9%nat, Xo (RLo (R 9) 38) (R 0));
  (2%nat, Ad (R 2) (R 13));
  (13%nat, Xo (RLo (R 13) 19) (R 2));
  (6%nat, Ad (R 6) (R 11));
  (11%nat, Xo (RLo (R 11) 10) (R 6));
  (4%nat, Ad (R 4) (R 15));
  (15%nat, Xo (RLo (R 15) 55) (R 4));
  (10%nat, Ad (R 10) (R 7));
  (7%nat, Xo (RLo (R 7) 49) (R 10));
  (12%nat, Ad (R 12) (R 3));
  (3%nat, Xo (RLo (R 3) 18) (R 12));
  (14%nat, Ad (R 14) (R 5));
  (5%nat, Xo (RLo (R 5) 23) (R 14));
  (8%nat, Ad (R 8) (R 1));
  (1%nat, Xo (RLo (R 1) 52) (R 8));
  (0%nat, Ad (R 0) (R 7));
  (7%nat, Xo (RLo (R 7) 33) (R 0));
  (2%nat, Ad (R 2) (R 5));
  (5%nat, Xo (RLo (R 5) 4) (R 2));
  (4%nat, Ad (R 4) (R 3));
  (3%nat, Xo (RLo (R 3) 51) (R 4));
  (6%nat, Ad (R 6) (R 1));
  (1%nat, Xo (RLo (R 1) 13) (R 6));
  (12%nat, Ad (R 12) (R 15));
  (15%nat, Xo (RLo (R 15) 34) (R 12));
  (14%nat, Ad (R 14) (R 13));
  (13%nat, Xo (RLo (R 13) 41) (R 14));
  (8%nat, Ad (R 8) (R 11));
  (11%nat, Xo (RLo (R 11) 59) (R 8));
  (10%nat, Ad (R 10) (R 9));
  (9%nat, Xo (RLo (R 9) 17) (R 10));
  (0%nat, Ad (R 0) (R 15));
  (15%nat, Xo (RLo (R 15) 5) (R 0));
  (2%nat, Ad (R 2) (R 11));
  (11%nat, Xo (RLo (R 11) 20) (R 2));
  (6%nat, Ad (R 6) (R 13));
  (13%nat, Xo (RLo (R 13) 48) (R 6));
  (4%nat, Ad (R 4) (R 9));
  (9%nat, Xo (RLo (R 9) 41) (R 4));
  (14%nat, Ad (R 14) (R 1));
  (1%nat, Xo (RLo (R 1) 47) (R 14));
  (8%nat, Ad (R 8) (R 5));
  (5%nat, Xo (RLo (R 5) 28) (R 8));
  (10%nat, Ad (R 10) (R 3));
  (3%nat, Xo (RLo (R 3) 16) (R 10));
  (12%nat, Ad (R 12) (R 7));
  (7%nat, Xo (RLo (R 7) 25) (R 12));
  (1%nat, Ad (R 1) (R 24));
  (0%nat, Ad (R 0) (Ad (R 1) (R 23)));
  (1%nat, Xo (RLo (R 1) 41) (R 0));
  (3%nat, Ad (R 3) (R 26));
  (2%nat, Ad (R 2) (Ad (R 3) (R 25)));
  (3%nat, Xo (RLo (R 3) 9) (R 2));
  (5%nat, Ad (R 5) (R 28));
  (4%nat, Ad (R 4) (Ad (R 5) (R 27)));
  (5%nat, Xo (RLo (R 5) 37) (R 4));
  (7%nat, Ad (R 7) (R 30));
  (6%nat, Ad (R 6) (Ad (R 7) (R 29)));
  (7%nat, Xo (RLo (R 7) 31) (R 6));
  (9%nat, Ad (R 9) (R 32));
  (8%nat, Ad (R 8) (Ad (R 9) (R 31)));
  (9%nat, Xo (RLo (R 9) 12) (R 8));
  (11%nat, Ad (R 11) (R 17));
  (10%nat, Ad (R 10) (Ad (R 11) (R 16)));
  (11%nat, Xo (RLo (R 11) 47) (R 10));
  (13%nat, Ad (R 13) (Ad (R 19) (R 34)));
  (12%nat, Ad (R 12) (Ad (R 13) (R 18)));
  (13%nat, Xo (RLo (R 13) 44) (R 12));
  (15%nat, Ad (R 15) (Ad (R 21) (K 0x7)));
  (14%nat, Ad (R 14) (Ad (Ad (R 15) (R 20)) (R 35)));
  (15%nat, Xo (RLo (R 15) 30) (R 14));
  (0%nat, Ad (R 0) (R 9));
  (9%nat, Xo (RLo (R 9) 16) (R 0));
  (2%nat, Ad (R 2) (R 13));
  (13%nat, Xo (RLo (R 13) 34) (R 2));
  (6%nat, Ad (R 6) (R 11));
  (11%nat, Xo (RLo (R 11) 56) (R 6));
  (4%nat, Ad (R 4) (R 15));
  (15%nat, Xo (RLo (R 15) 51) (R 4));
  (10%nat, Ad (R 10) (R 7));
  (7%nat, Xo (RLo (R 7) 4) (R 10));
  (12%nat, Ad (R 12) (R 3));
  (3%nat, Xo (RLo (R 3) 53) (R 12));
  (14%nat, Ad (R 14) (R 5));
  (5%nat, Xo (RLo (R 5) 42) (R 14));
  (8%nat, Ad (R 8) (R 1));
  (1%nat, Xo (RLo (R 1) 41) (R 8));
  (0%nat, Ad (R 0) (R 7));
  (7%nat, Xo (RLo (R 7) 31) (R 0));
  (2%nat, Ad (R 2) (R 5));
  (5%nat, Xo (RLo (R 5) 44) (R 2));
  (4%nat, Ad (R 4) (R 3));
  (3%nat, Xo (RLo (R 3) 47) (R 4));
  (6%nat, Ad (R 6) (R 1));
  (1%nat, Xo (RLo (R 1) 46) (R 6));
  (12%nat, Ad (R 12) (R 15));
  (15%nat, Xo (RLo (R 15) 19) (R 12));
  (14%nat, Ad (R 14) (R 13));
  (13%nat, Xo (RLo (R 13) 42) (R 14));
  (8%nat, Ad (R 8) (R 11));
  (11%nat, Xo (RLo (R 11) 44) (R 8));
  (10%nat, Ad (R 10) (R 9));
  (9%nat, Xo (RLo (R 9) 25) (R 10));
  (0%nat, Ad (R 0) (R 15));
  (15%nat, Xo (RLo (R 15) 9) (R 0));
  (2%nat, Ad (R 2) (R 11));
  (11%nat, Xo (RLo (R 11) 48) (R 2));
  (6%nat, Ad (R 6) (R 13));
  (13%nat, Xo (RLo (R 13) 35) (R 6));
  (4%nat, Ad (R 4) (R 9));
  (9%nat, Xo (RLo (R 9) 52) (R 4));
  (14%nat, Ad (R 14) (R 1));
  (1%nat, Xo (RLo (R 1) 23) (R 14));
  (8%nat, Ad (R 8) (R 5));
  (5%nat, Xo (RLo (R 5) 31) (R 8));
  (10%nat, Ad (R 10) (R 3));
  (3%nat, Xo (RLo (R 3) 37) (R 10));
  (12%nat, Ad (R 12) (R 7));
  (7%nat, Xo (RLo (R 7) 20) (R 12));
  (1%nat, Ad (R 1) (R 25));
  (0%nat, Ad (R 0) (Ad (R 1) (R 24)));
  (1%nat, Xo (RLo (R 1) 24) (R 0));
  (3%nat, Ad (R 3) (R 27));
  (2%nat, Ad (R 2) (Ad (R 3) (R 26)));
  (3%nat, Xo (RLo (R 3) 13) (R 2));
  (5%nat, Ad (R 5) (R 29));
  (4%nat, Ad (R 4) (Ad (R 5) (R 28)));
  (5%nat, Xo (RLo (R 5) 8) (R 4));
  (7%nat, Ad (R 7) (R 31));
  (6%nat, Ad (R 6) (Ad (R 7) (R 30)));
  (7%nat, Xo (RLo (R 7) 47) (R 6));
  (9%nat, Ad (R 9) (R 16));
  (8%nat, Ad (R 8) (Ad (R 9) (R 32)));
  (9%nat, Xo (RLo (R 9) 8) (R 8));
  (11%nat, Ad (R 11) (R 18));
  (10%nat, Ad (R 10) (Ad (R 11) (R 17)));
  (11%nat, Xo (RLo (R 11) 17) (R 10));
  (13%nat, Ad (R 13) (Ad (R 20) (R 35)));
  (12%nat, Ad (R 12) (Ad (R 13) (R 19)));
  (13%nat, Xo (RLo (R 13) 22) (R 12));
  (15%nat, Ad (R 15) (Ad (R 22) (K 0x8)));
  (14%nat, Ad (R 14) (Ad (Ad (R 15) (R 21)) (R 33)));
  (15%nat, Xo (RLo (R 15) 37) (R 14));
  (0%nat, Ad (R 0) (R 9));
  (9%nat, Xo (RLo (R 9) 38) (R 0));
  (2%nat, Ad (R 2) (R 13));
  (13%nat, Xo (RLo (R 13) 19) (R 2));
  (6%nat, Ad (R 6) (R 11));
  (11%nat, Xo (RLo (R 11) 10) (R 6));
  (4%nat, Ad (R 4) (R 15));
  (15%nat, Xo (RLo (R 15) 55) (R 4));
  (10%nat, Ad (R 10) (R 7));
  (7%nat, Xo (RLo (R 7) 49) (R 10));
  (12%nat, Ad (R 12) (R 3));
  (3%nat, Xo (RLo (R 3) 18) (R 12));
  (14%nat, Ad (R 14) (R 5));
  (5%nat, Xo (RLo (R 5) 23) (R 14));
  (8%nat, Ad (R 8) (R 1));
  (1%nat, Xo (RLo (R 1) 52) (R 8));
  (0%nat, Ad (R 0) (R 7));
  (7%nat, Xo (RLo (R 7) 33) (R 0));
  (2%nat, Ad (R 2) (R 5));
  (5%nat, Xo (RLo (R 5) 4) (R 2));
  (4%nat, Ad (R 4) (R 3));
  (3%nat, Xo (RLo (R 3) 51) (R 4));
  (6%nat, Ad (R 6) (R 1));
  (1%nat, Xo (RLo (R 1) 13) (R 6));
  (12%nat, Ad (R 12) (R 15));
  (15%nat, Xo (RLo (R 15) 34) (R 12));
  (14%nat, Ad (R 14) (R 13));
  (13%nat, Xo (RLo (R 13) 41) (R 14));
  (8%nat, Ad (R 8) (R 11));
  (11%nat, Xo (RLo (R 11) 59) (R 8));
  (10%nat, Ad (R 10) (R 9));
  (9%nat, Xo (RLo (R 9) 17) (R 10));
  (0%nat, Ad (R 0) (R 15));
  (15%nat, Xo (RLo (R 15) 5) (R 0));
  (2%nat, Ad (R 2) (R 11));
  (11%nat, Xo (RLo (R 11) 20) (R 2));
  (6%nat, Ad (R 6) (R 13));
  (13%nat, Xo (RLo (R 13) 48) (R 6));
  (4%nat, Ad (R 4) (R 9));
  (9%nat, Xo (RLo (R 9) 41) (R 4));
  (14%nat, Ad (R 14) (R 1));
  (1%nat, Xo (RLo (R 1) 47) (R 14));
  (8%nat, Ad (R 8) (R 5));
  (5%nat, Xo (RLo (R 5) 28) (R 8));
  (10%nat, Ad (R 10) (R 3));
  (3%nat, Xo (RLo (R 3) 16) (R 10));
  (12%nat, Ad (R 12) (R 7));
  (7%nat, Xo (RLo (R 7) 25) (R 12));
  (1%nat, Ad (R 1) (R 26));
  (0%nat, Ad (R 0) (Ad (R 1) (R 25)));
  (1%nat, Xo (RLo (R 1) 41) (R 0));
  (3%nat, Ad (R 3) (R 28));
  (2%nat, Ad (R 2) (Ad (R 3) (R 27)));
  (3%nat, Xo (RLo (R 3) 9) (R 2));
  (5%nat, Ad (R 5) (R 30));
  (4%nat, Ad (R 4) (Ad (R 5) (R 29)));
  (5%nat, Xo (RLo (R 5) 37) (R 4));
  (7%nat, Ad (R 7) (R 32));
  (6%nat, Ad (R 6) (Ad (R 7) (R 31)));
  (7%nat, Xo (RLo (R 7) 31) (R 6));
  (9%nat, Ad (R 9) (R 17));
  (8%nat, Ad (R 8) (Ad (R 9) (R 16)));
  (9%nat, Xo (RLo (R 9) 12) (R 8));
  (11%nat, Ad (R 11) (R 19));
  (10%nat, Ad (R 10) (Ad (R 11) (R 18)));
  (11%nat, Xo (RLo (R 11) 47) (R 10));
  (13%nat, Ad (R 13) (Ad (R 21) (R 33)));
  (12%nat, Ad (R 12) (Ad (R 13) (R 20)));
  (13%nat, Xo (RLo (R 13) 44) (R 12));
  (15%nat, Ad (R 15) (Ad (R 23) (K 0x9)));
  (14%nat, Ad (R 14) (Ad (Ad (R 15) (R 22)) (R 34)));
  (15%nat, Xo (RLo (R 15) 30) (R 14));
  (0%nat, Ad (R 0) (R 9));
  (9%nat, Xo (RLo (R 9) 16) (R 0));
  (2%nat, Ad (R 2) (R 13));
  (13%nat, Xo (RLo (R 13) 34) (R 2));
  (6%nat, Ad (R 6) (R 11));
  (11%nat, Xo (RLo (R 11) 56) (R 6));
  (4%nat, Ad (R 4) (R 15));
  (15%nat, Xo (RLo (R 15) 51) (R 4));
  (10%nat, Ad (R 10) (R 7));
  (7%nat, Xo (RLo (R 7) 4) (R 10));
  (12%nat, Ad (R 12) (R 3));
  (3%nat, Xo (RLo (R 3) 53) (R 12));
  (14%nat, Ad (R 14) (R 5));
  (5%nat, Xo (RLo (R 5) 42) (R 14));
  (8%nat, Ad (R 8) (R 1));
  (1%nat, Xo (RLo (R 1) 41) (R 8));
  (0%nat, Ad (R 0) (R 7));
  (7%nat, Xo (RLo (R 7) 31) (R 0));
  (2%nat, Ad (R 2) (R 5));
  (5%nat, Xo (RLo (R 5) 44) (R 2));
  (4%nat, Ad (R 4) (R 3));
  (3%nat, Xo (RLo (R 3) 47) (R 4));
  (6%nat, Ad (R 6) (R 1));
  (1%nat, Xo (RLo (R 1) 46) (R 6));
  (12%nat, Ad (R 12) (R 15));
  (15%nat, Xo (RLo (R 15) 19) (R 12));
  (14%nat, Ad (R 14) (R 13));
  (13%nat, Xo (RLo (R 13) 42) (R 14));
  (8%nat, Ad (R 8) (R 11));
  (11%nat, Xo (RLo (R 11) 44) (R 8));
  (10%nat, Ad (R 10) (R 9));
  (9%nat, Xo (RLo (R 9) 25) (R 10));
  (0%nat, Ad (R 0) (R 15));
  (15%nat, Xo (RLo (R 15) 9) (R 0));
  (2%nat, Ad (R 2) (R 11));
  (11%nat, Xo (RLo (R 11) 48) (R 2));
  (6%nat, Ad (R 6) (R 13));
  (13%nat, Xo (RLo (R 13) 35) (R 6));
  (4%nat, Ad (R 4) (R 9));
  (9%nat, Xo (RLo (R 9) 52) (R 4));
  (14%nat, Ad (R 14) (R 1));
  (1%nat, Xo (RLo (R 1) 23) (R 14));
  (8%nat, Ad (R 8) (R 5));
  (5%nat, Xo (RLo (R 5) 31) (R 8));
  (10%nat, Ad (R 10) (R 3));
  (3%nat, Xo (RLo (R 3) 37) (R 10));
  (12%nat, Ad (R 12) (R 7));
  (7%nat, Xo (RLo (R 7) 20) (R 12));
  (1%nat, Ad (R 1) (R 27));
  (0%nat, Ad (R 0) (Ad (R 1) (R 26)));
  (1%nat, Xo (RLo (R 1) 24) (R 0));
  (3%nat, Ad (R 3) (R 29));
  (2%nat, Ad (R 2) (Ad (R 3) (R 28)));
  (3%nat, Xo (RLo (R 3) 13) (R 2));
  (5%nat, Ad (R 5) (R 31));
  (4%nat, Ad (R 4) (Ad (R 5) (R 30)));
  (5%nat, Xo (RLo (R 5) 8) (R 4));
  (7%nat, Ad (R 7) (R 16));
  (6%nat, Ad (R 6) (Ad (R 7) (R 32)));
  (7%nat, Xo (RLo (R 7) 47) (R 6));
  (9%nat, Ad (R 9) (R 18));
  (8%nat, Ad (R 8) (Ad (R 9) (R 17)));
  (9%nat, Xo (RLo (R 9) 8) (R 8));
  (11%nat, Ad (R 11) (R 20));
  (10%nat, Ad (R 10) (Ad (R 11) (R 19)));
  (11%nat, Xo (RLo (R 11) 17) (R 10));
  (13%nat, Ad (R 13) (Ad (R 22) (R 34)));
  (12%nat, Ad (R 12) (Ad (R 13) (R 21)));
  (13%nat, Xo (RLo (R 13) 22) (R 12));
  (15%nat, Ad (R 15) (Ad (R 24) (K 0xA)));
  (14%nat, Ad (R 14) (Ad (Ad (R 15) (R 23)) (R 35)));
  (15%nat, Xo (RLo (R 15) 37) (R 14));
  (0%nat, Ad (R 0) (R 9));
  (9%nat, Xo (RLo (R 9) 38) (R 0));
  (2%nat, Ad (R 2) (R 13));
  (13%nat, Xo (RLo (R 13) 19) (R 2));
  (6%nat, Ad (R 6) (R 11));
  (11%nat, Xo (RLo (R 11) 10) (R 6));
  (4%nat, Ad (R 4) (R 15));
  (15%nat, Xo (RLo (R 15) 55) (R 4));
  (10%nat, Ad (R 10) (R 7));
  (7%nat, Xo (RLo (R 7) 49) (R 10));
  (12%nat, Ad (R 12) (R 3));
  (3%nat, Xo (RLo (R 3) 18) (R 12));
  (14%nat, Ad (R 14) (R 5));
  (5%nat, Xo (RLo (R 5) 23) (R 14));
  (8%nat, Ad (R 8) (R 1));
  (1%nat, Xo (RLo (R 1) 52) (R 8));
  (0%nat, Ad (R 0) (R 7));
  (7%nat, Xo (RLo (R 7) 33) (R 0));
  (2%nat, Ad (R 2) (R 5));
  (5%nat, Xo (RLo (R 5) 4) (R 2));
  (4%nat, Ad (R 4) (R 3));
  (3%nat, Xo (RLo (R 3) 51) (R 4));
  (6%nat, Ad (R 6) (R 1));
  (1%nat, Xo (RLo (R 1) 13) (R 6));
  (12%nat, Ad (R 12) (R 15));
  (15%nat, Xo (RLo (R 15) 34) (R 12));
  (14%nat, Ad (R 14) (R 13));
  (13%nat, Xo (RLo (R 13) 41) (R 14));
  (8%nat, Ad (R 8) (R 11));
  (11%nat, Xo (RLo (R 11) 59) (R 8));
  (10%nat, Ad (R 10) (R 9));
  (9%nat, Xo (RLo (R 9) 17) (R 10));
  (0%nat, Ad (R 0) (R 15));
  (15%nat, Xo (RLo (R 15) 5) (R 0));
  (2%nat, Ad (R 2) (R 11));
  (11%nat, Xo (RLo (R 11) 20) (R 2));
  (6%nat, Ad (R 6) (R 13));
  (13%nat, Xo (RLo (R 13) 48) (R 6));
  (4%nat, Ad (R 4) (R 9));
  (9%nat, Xo (RLo (R 9) 41) (R 4));
  (14%nat, Ad (R 14) (R 1));
  (1%nat, Xo (RLo (R 1) 47) (R 14));
  (8%nat, Ad (R 8) (R 5));
  (5%nat, Xo (RLo (R 5) 28) (R 8));
  (10%nat, Ad (R 10) (R 3));
  (3%nat, Xo (RLo (R 3) 16) (R 10));
  (12%nat, Ad (R 12) (R 7));
  (7%nat, Xo (RLo (R 7) 25) (R 12));
  (1%nat, Ad (R 1) (R 28));
  (0%nat, Ad (R 0) (Ad (R 1) (R 27)));
  (1%nat, Xo (RLo (R 1) 41) (R 0));
  (3%nat, Ad (R 3) (R 30));
  (2%nat, Ad (R 2) (Ad (R 3) (R 29)));
  (3%nat, Xo (RLo (R 3) 9) (R 2));
  (5%nat, Ad (R 5) (R 32));
  (4%nat, Ad (R 4) (Ad (R 5) (R 31)));
  (5%nat, Xo (RLo (R 5) 37) (R 4));
  (7%nat, Ad (R 7) (R 17));
  (6%nat, Ad (R 6) (Ad (R 7) (R 16)));
  (7%nat, Xo (RLo (R 7) 31) (R 6));
  (9%nat, Ad (R 9) (R 19));
  (8%nat, Ad (R 8) (Ad (R 9) (R 18)));
  (9%nat, Xo (RLo (R 9) 12) (R 8));
  (11%nat, Ad (R 11) (R 21));
  (10%nat, Ad (R 10) (Ad (R 11) (R 20)));
  (11%nat, Xo (RLo (R 11) 47) (R 10));
  (13%nat, Ad (R 13) (Ad (R 23) (R 35)));
  (12%nat, Ad (R 12) (Ad (R 13) (R 22)));
  (13%nat, Xo (RLo (R 13) 44) (R 12));
  (15%nat, Ad (R 15) (Ad (R 25) (K 0xB)));
  (14%nat, Ad (R 14) (Ad (Ad (R 15) (R 24)) (R 33)));
  (15%nat, Xo (RLo (R 15) 30) (R 14));
  (0%nat, Ad (R 0) (R 9));
  (9%nat, Xo (RLo (R 9) 16) (R 0));
  (2%nat, Ad (R 2) (R 13));
  (13%nat, Xo (RLo (R 13) 34) (R 2));
  (6%nat, Ad (R 6) (R 11));
  (11%nat, Xo (RLo (R 11) 56) (R 6));
  (4%nat, Ad (R 4) (R 15));
  (15%nat, Xo (RLo (R 15) 51) (R 4));
  (10%nat, Ad (R 10) (R 7));
  (7%nat, Xo (RLo (R 7) 4) (R 10));
  (12%nat, Ad (R 12) (R 3));
  (3%nat, Xo (RLo (R 3) 53) (R 12));
  (14%nat, Ad (R 14) (R 5));
  (5%nat, Xo (RLo (R 5) 42) (R 14));
  (8%nat, Ad (R 8) (R 1));
  (1%nat, Xo (RLo (R 1) 41) (R 8));
  (0%nat, Ad (R 0) (R 7));
  (7%nat, Xo (RLo (R 7) 31) (R 0));
  (2%nat, Ad (R 2) (R 5));
  (5%nat, Xo (RLo (R 5) 44) (R 2));
  (4%nat, Ad (R 4) (R 3));
  (3%nat, Xo (RLo (R 3) 47) (R 4));
  (6%nat, Ad (R 6) (R 1));
  (1%nat, Xo (RLo (R 1) 46) (R 6));
  (12%nat, Ad (R 12) (R 15));
  (15%nat, Xo (RLo (R 15) 19) (R 12));
  (14%nat, Ad (R 14) (R 13));
  (13%nat, Xo (RLo (R 13) 42) (R 14));
  (8%nat, Ad (R 8) (R 11));
  (11%nat, Xo (RLo (R 11) 44) (R 8));
  (10%nat, Ad (R 10) (R 9));
  (9%nat, Xo (RLo (R 9) 25) (R 10));
  (0%nat, Ad (R 0) (R 15));
  (15%nat, Xo (RLo (R 15) 9) (R 0));
  (2%nat, Ad (R 2) (R 11));
  (11%nat, Xo (RLo (R 11) 48) (R 2));
  (6%nat, Ad (R 6) (R 13));
  (13%nat, Xo (RLo (R 13) 35) (R 6));
  (4%nat, Ad (R 4) (R 9));
  (9%nat, Xo (RLo (R 9) 52) (R 4));
  (14%nat, Ad (R 14) (R 1));
  (1%nat, Xo (RLo (R 1) 23) (R 14));
  (8%nat, Ad (R 8) (R 5));
  (5%nat, Xo (RLo (R 5) 31) (R 8));
  (10%nat, Ad (R 10) (R 3));
  (3%nat, Xo (RLo (R 3) 37) (R 10));
  (12%nat, Ad (R 12) (R 7));
  (7%nat, Xo (RLo (R 7) 20) (R 12));
  (1%nat, Ad (R 1) (R 29));
  (0%nat, Ad (R 0) (Ad (R 1) (R 28)));
  (1%nat, Xo (RLo (R 1) 24) (R 0));
  (3%nat, Ad (R 3) (R 31));
  (2%nat, Ad (R 2) (Ad (R 3) (R 30)));
  (3%nat, Xo (RLo (R 3) 13) (R 2));
  (5%nat, Ad (R 5) (R 16));
  (4%nat, Ad (R 4) (Ad (R 5) (R 32)));
  (5%nat, Xo (RLo (R 5) 8) (R 4));
  (7%nat, Ad (R 7) (R 18));
  (6%nat, Ad (R 6) (Ad (R 7) (R 17)));
  (7%nat, Xo (RLo (R 7) 47) (R 6));
  (9%nat, Ad (R 9) (R 20));
  (8%nat, Ad (R 8) (Ad (R 9) (R 19)));
  (9%nat, Xo (RLo (R 9) 8) (R 8));
  (11%nat, Ad (R 11) (R 22));
  (10%nat, Ad (R 10) (Ad (R 11) (R 21)));
  (11%nat, Xo (RLo (R 11) 17) (R 10));
  (13%nat, Ad (R 13) (Ad (R 24) (R 33)));
  (12%nat, Ad (R 12) (Ad (R 13) (R 23)));
  (13%nat, Xo (RLo (R 13) 22) (R 12));
  (15%nat, Ad (R 15) (Ad (R 26) (K 0xC)));
  (14%nat, Ad (R 14) (Ad (Ad (R 15) (R 25)) (R 34)));
  (15%nat, Xo (RLo (R 15) 37) (R 14));
  (0%nat, Ad (R 0) (R 9));
  (9%nat, Xo (RLo (R 9) 38) (R 0));
  (2%nat, Ad (R 2) (R 13));
  (13%nat, Xo (RLo (R 13) 19) (R 2));
  (6%nat, Ad (R 6) (R 11));
  (11%nat, Xo (RLo (R 11) 10) (R 6));
  (4%nat, Ad (R 4) (R 15));
  (15%nat, Xo (RLo (R 15) 55) (R 4));
  (10%nat, Ad (R 10) (R 7));
  (7%nat, Xo (RLo (R 7) 49) (R 10));
  (12%nat, Ad (R 12) (R 3));
  (3%nat, Xo (RLo (R 3) 18) (R 12));
  (14%nat, Ad (R 14) (R 5));
  (5%nat, Xo (RLo (R 5) 23) (R 14));
  (8%nat, Ad (R 8) (R 1));
  (1%nat, Xo (RLo (R 1) 52) (R 8));
  (0%nat, Ad (R 0) (R 7));
  (7%nat, Xo (RLo (R 7) 33) (R 0));
  (2%nat, Ad (R 2) (R 5));
  (5%nat, Xo (RLo (R 5) 4) (R 2));
  (4%nat, Ad (R 4) (R 3));
  (3%nat, Xo (RLo (R 3) 51) (R 4));
  (6%nat, Ad (R 6) (R 1));
  (1%nat, Xo (RLo (R 1) 13) (R 6));
  (12%nat, Ad (R 12) (R 15));
  (15%nat, Xo (RLo (R 15) 34) (R 12));
  (14%nat, Ad (R 14) (R 13));
  (13%nat, Xo (RLo (R 13) 41) (R 14));
  (8%nat, Ad (R 8) (R 11));
  (11%nat, Xo (RLo (R 11) 59) (R 8));
  (10%nat, Ad (R 10) (R 9));
  (9%nat, Xo (RLo (R 9) 17) (R 10));
  (0%nat, Ad (R 0) (R 15));
  (15%nat, Xo (RLo (R 15) 5) (R 0));
  (2%nat, Ad (R 2) (R 11));
  (11%nat, Xo (RLo (R 11) 20) (R 2));
  (6%nat, Ad (R 6) (R 13));
  (13%nat, Xo (RLo (R 13) 48) (R 6));
  (4%nat, Ad (R 4) (R 9));
  (9%nat, Xo (RLo (R 9) 41) (R 4));
  (14%nat, Ad (R 14) (R 1));
  (1%nat, Xo (RLo (R 1) 47) (R 14));
  (8%nat, Ad (R 8) (R 5));
  (5%nat, Xo (RLo (R 5) 28) (R 8));
  (10%nat, Ad (R 10) (R 3));
  (3%nat, Xo (RLo (R 3) 16) (R 10));
  (12%nat, Ad (R 12) (R 7));
  (7%nat, Xo (RLo (R 7) 25) (R 12));
  (1%nat, Ad (R 1) (R 30));
  (0%nat, Ad (R 0) (Ad (R 1) (R 29)));
  (1%nat, Xo (RLo (R 1) 41) (R 0));
  (3%nat, Ad (R 3) (R 32));
  (2%nat, Ad (R 2) (Ad (R 3) (R 31)));
  (3%nat, Xo (RLo (R 3) 9) (R 2));
  (5%nat, Ad (R 5) (R 17));
  (4%nat, Ad (R 4) (Ad (R 5) (R 16)));
  (5%nat, Xo (RLo (R 5) 37) (R 4));
  (7%nat, Ad (R 7) (R 19));
  (6%nat, Ad (R 6) (Ad (R 7) (R 18)));
  (7%nat, Xo (RLo (R 7) 31) (R 6));
  (9%nat, Ad (R 9) (R 21));
  (8%nat, Ad (R 8) (Ad (R 9) (R 20)));
  (9%nat, Xo (RLo (R 9) 12) (R 8));
  (11%nat, Ad (R 11) (R 23));
  (10%nat, Ad (R 10) (Ad (R 11) (R 22)));
  (11%nat, Xo (RLo (R 11) 47) (R 10));
  (13%nat, Ad (R 13) (Ad (R 25) (R 34)));
  (12%nat, Ad (R 12) (Ad (R 13) (R 24)));
  (13%nat, Xo (RLo (R 13) 44) (R 12));
  (15%nat, Ad (R 15) (Ad (R 27) (K 0xD)));
  (14%nat, Ad (R 14) (Ad (Ad (R 15) (R 26)) (R 35)));
  (15%nat, Xo (RLo (R 15) 30) (R 14));
  (0%nat, Ad (R 0) (R 9));
  (9%nat, Xo (RLo (R 9) 16) (R 0));
  (2%nat, Ad (R 2) (R 13));
  (13%nat, Xo (RLo (R 13) 34) (R 2));
  (6%nat, Ad (R 6) (R 11));
  (11%nat, Xo (RLo (R 11) 56) (R 6));
  (4%nat, Ad (R 4) (R 15));
  (15%nat, Xo (RLo (R 15) 51) (R 4));
  (10%nat, Ad (R 10) (R 7));
  (7%nat, Xo (RLo (R 7) 4) (R 10));
  (12%nat, Ad (R 12) (R 3));
  (3%nat, Xo (RLo (R 3) 53) (R 12));
  (14%nat, Ad (R 14) (R 5));
  (5%nat, Xo (RLo (R 5) 42) (R 14));
  (8%nat, Ad (R 8) (R 1));
  (1%nat, Xo (RLo (R 1) 41) (R 8));
  (0%nat, Ad (R 0) (R 7));
  (7%nat, Xo (RLo (R 7) 31) (R 0));
  (2%nat, Ad (R 2) (R 5));
  (5%nat, Xo (RLo (R 5) 44) (R 2));
  (4%nat, Ad (R 4) (R 3));
  (3%nat, Xo (RLo (R 3) 47) (R 4));
  (6%nat, Ad (R 6) (R 1));
  (1%nat, Xo (RLo (R 1) 46) (R 6));
  (12%nat, Ad (R 12) (R 15));
  (15%nat, Xo (RLo (R 15) 19) (R 12));
  (14%nat, Ad (R 14) (R 13));
  (13%nat, Xo (RLo (R 13) 42) (R 14));
  (8%nat, Ad (R 8) (R 11));
  (11%nat, Xo (RLo (R 11) 44) (R 8));
  (10%nat, Ad (R 10) (R 9));
  (9%nat, Xo (RLo (R 9) 25) (R 10));
  (0%nat, Ad (R 0) (R 15));
  (15%nat, Xo (RLo (R 15) 9) (R 0));
  (2%nat, Ad (R 2) (R 11));
  (11%nat, Xo (RLo (R 11) 48) (R 2));
  (6%nat, Ad (R 6) (R 13));
  (13%nat, Xo (RLo (R 13) 35) (R 6));
  (4%nat, Ad (R 4) (R 9));
  (9%nat, Xo (RLo (R 9) 52) (R 4));
  (14%nat, Ad (R 14) (R 1));
  (1%nat, Xo (RLo (R 1) 23) (R 14));
  (8%nat, Ad (R 8) (R 5));
  (5%nat, Xo (RLo (R 5) 31) (R 8));
  (10%nat, Ad (R 10) (R 3));
  (3%nat, Xo (RLo (R 3) 37) (R 10));
  (12%nat, Ad (R 12) (R 7));
  (7%nat, Xo (RLo (R 7) 20) (R 12));
  (1%nat, Ad (R 1) (R 31));
  (0%nat, Ad (R 0) (Ad (R 1) (R 30)));
  (1%nat, Xo (RLo (R 1) 24) (R 0));
  (3%nat, Ad (R 3) (R 16));
  (2%nat, Ad (R 2) (Ad (R 3) (R 32)));
  (3%nat, Xo (RLo (R 3) 13) (R 2));
  (5%nat, Ad (R 5) (R 18));
  (4%nat, Ad (R 4) (Ad (R 5) (R 17)));
  (5%nat, Xo (RLo (R 5) 8) (R 4));
  (7%nat, Ad (R 7) (R 20));
  (6%nat, Ad (R 6) (Ad (R 7) (R 19)));
  (7%nat, Xo (RLo (R 7) 47) (R 6));
  (9%nat, Ad (R 9) (R 22));
  (8%nat, Ad (R 8) (Ad (R 9) (R 21)));
  (9%nat, Xo (RLo (R 9) 8) (R 8));
  (11%nat, Ad (R 11) (R 24));
  (10%nat, Ad (R 10) (Ad (R 11) (R 23)));
  (11%nat, Xo (RLo (R 11) 17) (R 10));
  (13%nat, Ad (R 13) (Ad (R 26) (R 35)));
  (12%nat, Ad (R 12) (Ad (R 13) (R 25)));
  (13%nat, Xo (RLo (R 13) 22) (R 12));
  (15%nat, Ad (R 15) (Ad (R 28) (K 0xE)));
  (14%nat, Ad (R 14) (Ad (Ad (R 15) (R 27)) (R 33)));
  (15%nat, Xo (RLo (R 15) 37) (R 14));
  (0%nat, Ad (R 0) (R 9));
  (9%nat, Xo (RLo (R 9) 38) (R 0));
  (2%nat, Ad (R 2) (R 13));
  (13%nat, Xo (RLo (R 13) 19) (R 2));
  (6%nat, Ad (R 6) (R 11));
  (11%nat, Xo (RLo (R 11) 10) (R 6));
  (4%nat, Ad (R 4) (R 15));
  (15%nat, Xo (RLo (R 15) 55) (R 4));
  (10%nat, Ad (R 10) (R 7));
  (7%nat, Xo (RLo (R 7) 49) (R 10));
  (12%nat, Ad (R 12) (R 3));
  (3%nat, Xo (RLo (R 3) 18) (R 12));
  (14%nat, Ad (R 14) (R 5));
  (5%nat, Xo (RLo (R 5) 23) (R 14));
  (8%nat, Ad (R 8) (R 1));
  (1%nat, Xo (RLo (R 1) 52) (R 8));
  (0%nat, Ad (R 0) (R 7));
  (7%nat, Xo (RLo (R 7) 33) (R 0));
  (2%nat, Ad (R 2) (R 5));
  (5%nat, Xo (RLo (R 5) 4) (R 2));
  (4%nat, Ad (R 4) (R 3));
  (3%nat, Xo (RLo (R 3) 51) (R 4));
  (6%nat, Ad (R 6) (R 1));
  (1%nat, Xo (RLo (R 1) 13) (R 6));
  (12%nat, Ad (R 12) (R 15));
  (15%nat, Xo (RLo (R 15) 34) (R 12));
  (14%nat, Ad (R 14) (R 13));
  (13%nat, Xo (RLo (R 13) 41) (R 14));
  (8%nat, Ad (R 8) (R 11));
  (11%nat, Xo (RLo (R 11) 59) (R 8));
  (10%nat, Ad (R 10) (R 9));
  (9%nat, Xo (RLo (R 9) 17) (R 10));
  (0%nat, Ad (R 0) (R 15));
  (15%nat, Xo (RLo (R 15) 5) (R 0));
  (2%nat, Ad (R 2) (R 11));
  (11%nat, Xo (RLo (R 11) 20) (R 2));
  (6%nat, Ad (R 6) (R 13));
  (13%nat, Xo (RLo (R 13) 48) (R 6));
  (4%nat, Ad (R 4) (R 9));
  (9%nat, Xo (RLo (R 9) 41) (R 4));
  (14%nat, Ad (R 14) (R 1));
  (1%nat, Xo (RLo (R 1) 47) (R 14));
  (8%nat, Ad (R 8) (R 5));
  (5%nat, Xo (RLo (R 5) 28) (R 8));
  (10%nat, Ad (R 10) (R 3));
  (3%nat, Xo (RLo (R 3) 16) (R 10));
  (12%nat, Ad (R 12) (R 7));
  (7%nat, Xo (RLo (R 7) 25) (R 12));
  (1%nat, Ad (R 1) (R 32));
  (0%nat, Ad (R 0) (Ad (R 1) (R 31)));
  (1%nat, Xo (RLo (R 1) 41) (R 0));
  (3%nat, Ad (R 3) (R 17));
  (2%nat, Ad (R 2) (Ad (R 3) (R 16)));
  (3%nat, Xo (RLo (R 3) 9) (R 2));
  (5%nat, Ad (R 5) (R 19));
  (4%nat, Ad (R 4) (Ad (R 5) (R 18)));
  (5%nat, Xo (RLo (R 5) 37) (R 4));
  (7%nat, Ad (R 7) (R 21));
  (6%nat, Ad (R 6) (Ad (R 7) (R 20)));
  (7%nat, Xo (RLo (R 7) 31) (R 6));
  (9%nat, Ad (R 9) (R 23));
  (8%nat, Ad (R 8) (Ad (R 9) (R 22)));
  (9%nat, Xo (RLo (R 9) 12) (R 8));
  (11%nat, Ad (R 11) (R 25));
  (10%nat, Ad (R 10) (Ad (R 11) (R 24)));
  (11%nat, Xo (RLo (R 11) 47) (R 10));
  (13%nat, Ad (R 13) (Ad (R 27) (R 33)));
  (12%nat, Ad (R 12) (Ad (R 13) (R 26)));
  (13%nat, Xo (RLo (R 13) 44) (R 12));
  (15%nat, Ad (R 15) (Ad (R 29) (K 0xF)));
  (14%nat, Ad (R 14) (Ad (Ad (R 15) (R 28)) (R 34)));
  (15%nat, Xo (RLo (R 15) 30) (R 14));
  (0%nat, Ad (R 0) (R 9));
  (9%nat, Xo (RLo (R 9) 16) (R 0));
  (2%nat, Ad (R 2) (R 13));
  (13%nat, Xo (RLo (R 13) 34) (R 2));
  (6%nat, Ad (R 6) (R 11));
  (11%nat, Xo (RLo (R 11) 56) (R 6));
  (4%nat, Ad (R 4) (R 15));
  (15%nat, Xo (RLo (R 15) 51) (R 4));
  (10%nat, Ad (R 10) (R 7));
  (7%nat, Xo (RLo (R 7) 4) (R 10));
  (12%nat, Ad (R 12) (R 3));
  (3%nat, Xo (RLo (R 3) 53) (R 12));
  (14%nat, Ad (R 14) (R 5));
  (5%nat, Xo (RLo (R 5) 42) (R 14));
  (8%nat, Ad (R 8) (R 1));
  (1%nat, Xo (RLo (R 1) 41) (R 8));
  (0%nat, Ad (R 0) (R 7));
  (7%nat, Xo (RLo (R 7) 31) (R 0));
  (2%nat, Ad (R 2) (R 5));
  (5%nat, Xo (RLo (R 5) 44) (R 2));
  (4%nat, Ad (R 4) (R 3));
  (3%nat, Xo (RLo (R 3) 47) (R 4));
  (6%nat, Ad (R 6) (R 1));
  (1%nat, Xo (RLo (R 1) 46) (R 6));
  (12%nat, Ad (R 12) (R 15));
  (15%nat, Xo (RLo (R 15) 19) (R 12));
  (14%nat, Ad (R 14) (R 13));
  (13%nat, Xo (RLo (R 13) 42) (R 14));
  (8%nat, Ad (R 8) (R 11));
  (11%nat, Xo (RLo (R 11) 44) (R 8));
  (10%nat, Ad (R 10) (R 9));
  (9%nat, Xo (RLo (R 9) 25) (R 10));
  (0%nat, Ad (R 0) (R 15));
  (15%nat, Xo (RLo (R 15) 9) (R 0));
  (2%nat, Ad (R 2) (R 11));
  (11%nat, Xo (RLo (R 11) 48) (R 2));
  (6%nat, Ad (R 6) (R 13));
  (13%nat, Xo (RLo (R 13) 35) (R 6));
  (4%nat, Ad (R 4) (R 9));
  (9%nat, Xo (RLo (R 9) 52) (R 4));
  (14%nat, Ad (R 14) (R 1));
  (1%nat, Xo (RLo (R 1) 23) (R 14));
  (8%nat, Ad (R 8) (R 5));
  (5%nat, Xo (RLo (R 5) 31) (R 8));
  (10%nat, Ad (R 10) (R 3));
  (3%nat, Xo (RLo (R 3) 37) (R 10));
  (12%nat, Ad (R 12) (R 7));
  (7%nat, Xo (RLo (R 7) 20) (R 12));
  (1%nat, Ad (R 1) (R 16));
  (0%nat, Ad (R 0) (Ad (R 1) (R 32)));
  (1%nat, Xo (RLo (R 1) 24) (R 0));
  (3%nat, Ad (R 3) (R 18));
  (2%nat, Ad (R 2) (Ad (R 3) (R 17)));
  (3%nat, Xo (RLo (R 3) 13) (R 2));
  (5%nat, Ad (R 5) (R 20));
  (4%nat, Ad (R 4) (Ad (R 5) (R 19)));
  (5%nat, Xo (RLo (R 5) 8) (R 4));
  (7%nat, Ad (R 7) (R 22));
  (6%nat, Ad (R 6) (Ad (R 7) (R 21)));
  (7%nat, Xo (RLo (R 7) 47) (R 6));
  (9%nat, Ad (R 9) (R 24));
  (8%nat, Ad (R 8) (Ad (R 9) (R 23)));
  (9%nat, Xo (RLo (R 9) 8) (R 8));
  (11%nat, Ad (R 11) (R 26));
  (10%nat, Ad (R 10) (Ad (R 11) (R 25)));
  (11%nat, Xo (RLo (R 11) 17) (R 10));
  (13%nat, Ad (R 13) (Ad (R 28) (R 34)));
  (12%nat, Ad (R 12) (Ad (R 13) (R 27)));
  (13%nat, Xo (RLo (R 13) 22) (R 12));
  (15%nat, Ad (R 15) (Ad (R 30) (K 0x10)));
  (14%nat, Ad (R 14) (Ad (Ad (R 15) (R 29)) (R 35)));
  (15%nat, Xo (RLo (R 15) 37) (R 14));
  (0%nat, Ad (R 0) (R 9));
  (9%nat, Xo (RLo (R 9) 38) (R 0));
  (2%nat, Ad (R 2) (R 13));
  (13%nat, Xo (RLo (R 13) 19) (R 2));
  (6%nat, Ad (R 6) (R 11));
  (11%nat, Xo (RLo (R 11) 10) (R 6));
  (4%nat, Ad (R 4) (R 15));
  (15%nat, Xo (RLo (R 15) 55) (R 4));
  (10%nat, Ad (R 10) (R 7));
  (7%nat, Xo (RLo (R 7) 49) (R 10));
  (12%nat, Ad (R 12) (R 3));
  (3%nat, Xo (RLo (R 3) 18) (R 12));
  (14%nat, Ad (R 14) (R 5));
  (5%nat, Xo (RLo (R 5) 23) (R 14));
  (8%nat, Ad (R 8) (R 1));
  (1%nat, Xo (RLo (R 1) 52) (R 8));
  (0%nat, Ad (R 0) (R 7));
  (7%nat, Xo (RLo (R 7) 33) (R 0));
  (2%nat, Ad (R 2) (R 5));
  (5%nat, Xo (RLo (R 5) 4) (R 2));
  (4%nat, Ad (R 4) (R 3));
  (3%nat, Xo (RLo (R 3) 51) (R 4));
  (6%nat, Ad (R 6) (R 1));
  (1%nat, Xo (RLo (R 1) 13) (R 6));
  (12%nat, Ad (R 12) (R 15));
  (15%nat, Xo (RLo (R 15) 34) (R 12));
  (14%nat, Ad (R 14) (R 13));
  (13%nat, Xo (RLo (R 13) 41) (R 14));
  (8%nat, Ad (R 8) (R 11));
  (11%nat, Xo (RLo (R 11) 59) (R 8));
  (10%nat, Ad (R 10) (R 9));
  (9%nat, Xo (RLo (R 9) 17) (R 10));
  (0%nat, Ad (R 0) (R 15));
  (15%nat, Xo (RLo (R 15) 5) (R 0));
  (2%nat, Ad (R 2) (R 11));
  (11%nat, Xo (RLo (R 11) 20) (R 2));
  (6%nat, Ad (R 6) (R 13));
  (13%nat, Xo (RLo (R 13) 48) (R 6));
  (4%nat, Ad (R 4) (R 9));
  (9%nat, Xo (RLo (R 9) 41) (R 4));
  (14%nat, Ad (R 14) (R 1));
  (1%nat, Xo (RLo (R 1) 47) (R 14));
  (8%nat, Ad (R 8) (R 5));
  (5%nat, Xo (RLo (R 5) 28) (R 8));
  (10%nat, Ad (R 10) (R 3));
  (3%nat, Xo (RLo (R 3) 16) (R 10));
  (12%nat, Ad (R 12) (R 7));
  (7%nat, Xo (RLo (R 7) 25) (R 12));
  (1%nat, Ad (R 1) (R 17));
  (0%nat, Ad (R 0) (Ad (R 1) (R 16)));
  (1%nat, Xo (RLo (R 1) 41) (R 0));
  (3%nat, Ad (R 3) (R 19));
  (2%nat, Ad (R 2) (Ad (R 3) (R 18)));
  (3%nat, Xo (RLo (R 3) 9) (R 2));
  (5%nat, Ad (R 5) (R 21));
  (4%nat, Ad (R 4) (Ad (R 5) (R 20)));
  (5%nat, Xo (RLo (R 5) 37) (R 4));
  (7%nat, Ad (R 7) (R 23));
  (6%nat, Ad (R 6) (Ad (R 7) (R 22)));
  (7%nat, Xo (RLo (R 7) 31) (R 6));
  (9%nat, Ad (R 9) (R 25));
  (8%nat, Ad (R 8) (Ad (R 9) (R 24)));
  (9%nat, Xo (RLo (R 9) 12) (R 8));
  (11%nat, Ad (R 11) (R 27));
  (10%nat, Ad (R 10) (Ad (R 11) (R 26)));
  (11%nat, Xo (RLo (R 11) 47) (R 10));
  (13%nat, Ad (R 13) (Ad (R 29) (R 35)));
  (12%nat, Ad (R 12) (Ad (R 13) (R 28)));
  (13%nat, Xo (RLo (R 13) 44) (R 12));
  (15%nat, Ad (R 15) (Ad (R 31) (K 0x11)));
  (14%nat, Ad (R 14) (Ad (Ad (R 15) (R 30)) (R 33)));
  (15%nat, Xo (RLo (R 15) 30) (R 14));
  (0%nat, Ad (R 0) (R 9));
  (9%nat, Xo (RLo (R 9) 16) (R 0));
  (2%nat, Ad (R 2) (R 13));
  (13%nat, Xo (RLo (R 13) 34) (R 2));
  (6%nat, Ad (R 6) (R 11));
  (11%nat, Xo (RLo (R 11) 56) (R 6));
  (4%nat, Ad (R 4) (R 15));
  (15%nat, Xo (RLo (R 15) 51) (R 4));
  (10%nat, Ad (R 10) (R 7));
  (7%nat, Xo (RLo (R 7) 4) (R 10));
  (12%nat, Ad (R 12) (R 3));
  (3%nat, Xo (RLo (R 3) 53) (R 12));
  (14%nat, Ad (R 14) (R 5));
  (5%nat, Xo (RLo (R 5) 42) (R 14));
  (8%nat, Ad (R 8) (R 1));
  (1%nat, Xo (RLo (R 1) 41) (R 8));
  (0%nat, Ad (R 0) (R 7));
  (7%nat, Xo (RLo (R 7) 31) (R 0));
  (2%nat, Ad (R 2) (R 5));
  (5%nat, Xo (RLo (R 5) 44) (R 2));
  (4%nat, Ad (R 4) (R 3));
  (3%nat, Xo (RLo (R 3) 47) (R 4));
  (6%nat, Ad (R 6) (R 1));
  (1%nat, Xo (RLo (R 1) 46) (R 6));
  (12%nat, Ad (R 12) (R 15));
  (15%nat, Xo (RLo (R 15) 19) (R 12));
  (14%nat, Ad (R 14) (R 13));
  (13%nat, Xo (RLo (R 13) 42) (R 14));
  (8%nat, Ad (R 8) (R 11));
  (11%nat, Xo (RLo (R 11) 44) (R 8));
  (10%nat, Ad (R 10) (R 9));
  (9%nat, Xo (RLo (R 9) 25) (R 10));
  (0%nat, Ad (R 0) (R 15));
  (15%nat, Xo (RLo (R 15) 9) (R 0));
  (2%nat, Ad (R 2) (R 11));
  (11%nat, Xo (RLo (R 11) 48) (R 2));
  (6%nat, Ad (R 6) (R 13));
  (13%nat, Xo (RLo (R 13) 35) (R 6));
  (4%nat, Ad (R 4) (R 9));
  (9%nat, Xo (RLo (R 9) 52) (R 4));
  (14%nat, Ad (R 14) (R 1));
  (1%nat, Xo (RLo (R 1) 23) (R 14));
  (8%nat, Ad (R 8) (R 5));
  (5%nat, Xo (RLo (R 5) 31) (R 8));
  (10%nat, Ad (R 10) (R 3));
  (3%nat, Xo (RLo (R 3) 37) (R 10));
  (12%nat, Ad (R 12) (R 7));
  (7%nat, Xo (RLo (R 7) 20) (R 12));
  (1%nat, Ad (R 1) (R 18));
  (0%nat, Ad (R 0) (Ad (R 1) (R 17)));
  (1%nat, Xo (RLo (R 1) 24) (R 0));
  (3%nat, Ad (R 3) (R 20));
  (2%nat, Ad (R 2) (Ad (R 3) (R 19)));
  (3%nat, Xo (RLo (R 3) 13) (R 2));
  (5%nat, Ad (R 5) (R 22));
  (4%nat, Ad (R 4) (Ad (R 5) (R 21)));
  (5%nat, Xo (RLo (R 5) 8) (R 4));
  (7%nat, Ad (R 7) (R 24));
  (6%nat, Ad (R 6) (Ad (R 7) (R 23)));
  (7%nat, Xo (RLo (R 7) 47) (R 6));
  (9%nat, Ad (R 9) (R 26));
  (8%nat, Ad (R 8) (Ad (R 9) (R 25)));
  (9%nat, Xo (RLo (R 9) 8) (R 8));
  (11%nat, Ad (R 11) (R 28));
  (10%nat, Ad (R 10) (Ad (R 11) (R 27)));
  (11%nat, Xo (RLo (R 11) 17) (R 10));
  (13%nat, Ad (R 13) (Ad (R 30) (R 33)));
  (12%nat, Ad (R 12) (Ad (R 13) (R 29)));
  (13%nat, Xo (RLo (R 13) 22) (R 12));
  (15%nat, Ad (R 15) (Ad (R 32) (K 0x12)));
  (14%nat, Ad (R 14) (Ad (Ad (R 15) (R 31)) (R 34)));
  (15%nat, Xo (RLo (R 15) 37) (R 14));
  (0%nat, Ad (R 0) (R 9));
  (9%nat, Xo (RLo (R 9) 38) (R 0));
  (2%nat, Ad (R 2) (R 13));
  (13%nat, Xo (RLo (R 13) 19) (R 2));
  (6%nat, Ad (R 6) (R 11));
  (11%nat, Xo (RLo (R 11) 10) (R 6));
  (4%nat, Ad (R 4) (R 15));
  (15%nat, Xo (RLo (R 15) 55) (R 4));
  (10%nat, Ad (R 10) (R 7));
  (7%nat, Xo (RLo (R 7) 49) (R 10));
  (12%nat, Ad (R 12) (R 3));
  (3%nat, Xo (RLo (R 3) 18) (R 12));
  (14%nat, Ad (R 14) (R 5));
  (5%nat, Xo (RLo (R 5) 23) (R 14));
  (8%nat, Ad (R 8) (R 1));
  (1%nat, Xo (RLo (R 1) 52) (R 8));
  (0%nat, Ad (R 0) (R 7));
  (7%nat, Xo (RLo (R 7) 33) (R 0));
  (2%nat, Ad (R 2) (R 5));
  (5%nat, Xo (RLo (R 5) 4) (R 2));
  (4%nat, Ad (R 4) (R 3));
  (3%nat, Xo (RLo (R 3) 51) (R 4));
  (6%nat, Ad (R 6) (R 1));
  (1%nat, Xo (RLo (R 1) 13) (R 6));
  (12%nat, Ad (R 12) (R 15));
  (15%nat, Xo (RLo (R 15) 34) (R 12));
  (14%nat, Ad (R 14) (R 13));
  (13%nat, Xo (RLo (R 13) 41) (R 14));
  (8%nat, Ad (R 8) (R 11));
  (11%nat, Xo (RLo (R 11) 59) (R 8));
  (10%nat, Ad (R 10) (R 9));
  (9%nat, Xo (RLo (R 9) 17) (R 10));
  (0%nat, Ad (R 0) (R 15));
  (15%nat, Xo (RLo (R 15) 5) (R 0));
  (2%nat, Ad (R 2) (R 11));
  (11%nat, Xo (RLo (R 11) 20) (R 2));
  (6%nat, Ad (R 6) (R 13));
  (13%nat, Xo (RLo (R 13) 48) (R 6));
  (4%nat, Ad (R 4) (R 9));
  (9%nat, Xo (RLo (R 9) 41) (R 4));
  (14%nat, Ad (R 14) (R 1));
  (1%nat, Xo (RLo (R 1) 47) (R 14));
  (8%nat, Ad (R 8) (R 5));
  (5%nat, Xo (RLo (R 5) 28) (R 8));
  (10%nat, Ad (R 10) (R 3));
  (3%nat, Xo (RLo (R 3) 16) (R 10));
  (12%nat, Ad (R 12) (R 7));
  (7%nat, Xo (RLo (R 7) 25) (R 12));
  (1%nat, Ad (R 1) (R 19));
  (0%nat, Ad (R 0) (Ad (R 1) (R 18)));
  (1%nat, Xo (RLo (R 1) 41) (R 0));
  (3%nat, Ad (R 3) (R 21));
  (2%nat, Ad (R 2) (Ad (R 3) (R 20)));
  (3%nat, Xo (RLo (R 3) 9) (R 2));
  (5%nat, Ad (R 5) (R 23));
  (4%nat, Ad (R 4) (Ad (R 5) (R 22)));
  (5%nat, Xo (RLo (R 5) 37) (R 4));
  (7%nat, Ad (R 7) (R 25));
  (6%nat, Ad (R 6) (Ad (R 7) (R 24)));
  (7%nat, Xo (RLo (R 7) 31) (R 6));
  (9%nat, Ad (R 9) (R 27));
  (8%nat, Ad (R 8) (Ad (R 9) (R 26)));
  (9%nat, Xo (RLo (R 9) 12) (R 8));
  (11%nat, Ad (R 11) (R 29));
  (10%nat, Ad (R 10) (Ad (R 11) (R 28)));
  (11%nat, Xo (RLo (R 11) 47) (R 10));
  (13%nat, Ad (R 13) (Ad (R 31) (R 34)));
  (12%nat, Ad (R 12) (Ad (R 13) (R 30)));
  (13%nat, Xo (RLo (R 13) 44) (R 12));
  (15%nat, Ad (R 15) (Ad (R 16) (K 0x13)));
  (14%nat, Ad (R 14) (Ad (Ad (R 15) (R 32)) (R 35)));
  (15%nat, Xo (RLo (R 15) 30) (R 14));
  (0%nat, Ad (R 0) (R 9));
  (9%nat, Xo (RLo (R 9) 16) (R 0));
  (2%nat, Ad (R 2) (R 13));
  (13%nat, Xo (RLo (R 13) 34) (R 2));
  (6%nat, Ad (R 6) (R 11));
  (11%nat, Xo (RLo (R 11) 56) (R 6));
  (4%nat, Ad (R 4) (R 15));
  (15%nat, Xo (RLo (R 15) 51) (R 4));
  (10%nat, Ad (R 10) (R 7));
  (7%nat, Xo (RLo (R 7) 4) (R 10));
  (12%nat, Ad (R 12) (R 3));
  (3%nat, Xo (RLo (R 3) 53) (R 12));
  (14%nat, Ad (R 14) (R 5));
  (5%nat, Xo (RLo (R 5) 42) (R 14));
  (8%nat, Ad (R 8) (R 1));
  (1%nat, Xo (RLo (R 1) 41) (R 8));
  (0%nat, Ad (R 0) (R 7));
  (7%nat, Xo (RLo (R 7) 31) (R 0));
  (2%nat, Ad (R 2) (R 5));
  (5%nat, Xo (RLo (R 5) 44) (R 2));
  (4%nat, Ad (R 4) (R 3));
  (3%nat, Xo (RLo (R 3) 47) (R 4));
  (6%nat, Ad (R 6) (R 1));
  (1%nat, Xo (RLo (R 1) 46) (R 6));
  (12%nat, Ad (R 12) (R 15));
  (15%nat, Xo (RLo (R 15) 19) (R 12));
  (14%nat, Ad (R 14) (R 13));
  (13%nat, Xo (RLo (R 13) 42) (R 14));
  (8%nat, Ad (R 8) (R 11));
  (11%nat, Xo (RLo (R 11) 44) (R 8));
  (10%nat, Ad (R 10) (R 9));
  (9%nat, Xo (RLo (R 9) 25) (R 10));
  (0%nat, Ad (R 0) (R 15));
  (15%nat, Xo (RLo (R 15) 9) (R 0));
  (2%nat, Ad (R 2) (R 11));
  (11%nat, Xo (RLo (R 11) 48) (R 2));
  (6%nat, Ad (R 6) (R 13));
  (13%nat, Xo (RLo (R 13) 35) (R 6));
  (4%nat, Ad (R 4) (R 9));
  (9%nat, Xo (RLo (R 9) 52) (R 4));
  (14%nat, Ad (R 14) (R 1));
  (1%nat, Xo (RLo (R 1) 23) (R 14));
  (8%nat, Ad (R 8) (R 5));
  (5%nat, Xo (RLo (R 5) 31) (R 8));
  (10%nat, Ad (R 10) (R 3));
  (3%nat, Xo (RLo (R 3) 37) (R 10));
  (12%nat, Ad (R 12) (R 7));
  (7%nat, Xo (RLo (R 7) 20) (R 12));
  (1%nat, Ad (R 1) (R 20));
  (0%nat, Ad (R 0) (Ad (R 1) (R 19)));
  (1%nat, Xo (RLo (R 1) 24) (R 0));
  (3%nat, Ad (R 3) (R 22));
  (2%nat, Ad (R 2) (Ad (R 3) (R 21)));
  (3%nat, Xo (RLo (R 3) 13) (R 2));
  (5%nat, Ad (R 5) (R 24));
  (4%nat, Ad (R 4) (Ad (R 5) (R 23)));
  (5%nat, Xo (RLo (R 5) 8) (R 4));
  (7%nat, Ad (R 7) (R 26));
  (6%nat, Ad (R 6) (Ad (R 7) (R 25)));
  (7%nat, Xo (RLo (R 7) 47) (R 6));
  (9%nat, Ad (R 9) (R 28));
  (8%nat, Ad (R 8) (Ad (R 9) (R 27)));
  (9%nat, Xo (RLo (R 9) 8) (R 8));
  (11%nat, Ad (R 11) (R 30));
  (10%nat, Ad (R 10) (Ad (R 11) (R 29)));
  (11%nat, Xo (RLo (R 11) 17) (R 10));
  (13%nat, Ad (R 13) (Ad (R 32) (R 35)));
  (12%nat, Ad (R 12) (Ad (R 13) (R 31)));
  (13%nat, Xo (RLo (R 13) 22) (R 12));
  (15%nat, Ad (R 15) (Ad (R 17) (K 0x14)));
  (14%nat, Ad (R 14) (Ad (Ad (R 15) (R 16)) (R 33)));
  (15%nat, Xo (RLo (R 15) 37) (R 14));
  (0%nat, Ad (R 0) (R 9));
  (9%nat, Xo (RLo (R 9) 38) (R 0));
  (2%nat, Ad (R 2) (R 13));
  (13%nat, Xo (RLo (R 13) 19) (R 2));
  (6%nat, Ad (R 6) (R 11));
  (11%nat, Xo (RLo (R 11) 10) (R 6));
  (4%nat, Ad (R 4) (R 15));
  (15%nat, Xo (RLo (R 15) 55) (R 4));
  (10%nat, Ad (R 10) (R 7));
  (7%nat, Xo (RLo (R 7) 49) (R 10));
  (12%nat, Ad (R 12) (R 3));
  (3%nat, Xo (RLo (R 3) 18) (R 12));
  (14%nat, Ad (R 14) (R 5));
  (5%nat, Xo (RLo (R 5) 23) (R 14));
  (8%nat, Ad (R 8) (R 1));
  (1%nat, Xo (RLo (R 1) 52) (R 8));
  (0%nat, Ad (R 0) (R 7));
  (7%nat, Xo (RLo (R 7) 33) (R 0));
  (2%nat, Ad (R 2) (R 5));
  (5%nat, Xo (RLo (R 5) 4) (R 2));
  (4%nat, Ad (R 4) (R 3));
  (3%nat, Xo (RLo (R 3) 51) (R 4));
  (6%nat, Ad (R 6) (R 1));
  (1%nat, Xo (RLo (R 1) 13) (R 6));
  (12%nat, Ad (R 12) (R 15));
  (15%nat, Xo (RLo (R 15) 34) (R 12));
  (14%nat, Ad (R 14) (R 13));
  (13%nat, Xo (RLo (R 13) 41) (R 14));
  (8%nat, Ad (R 8) (R 11));
  (11%nat, Xo (RLo (R 11) 59) (R 8));
  (10%nat, Ad (R 10) (R 9));
  (9%nat, Xo (RLo (R 9) 17) (R 10));
  (0%nat, Ad (R 0) (R 15));
  (15%nat, Xo (RLo (R 15) 5) (R 0));
  (2%nat, Ad (R 2) (R 11));
  (11%nat, Xo (RLo (R 11) 20) (R 2));
  (6%nat, Ad (R 6) (R 13));
  (13%nat, Xo (RLo (R 13) 48) (R 6));
  (4%nat, Ad (R 4) (R 9));
  (9%nat, Xo (RLo (R 9) 41) (R 4));
  (14%nat, Ad (R 14) (R 1));
  (1%nat, Xo (RLo (R 1) 47) (R 14));
  (8%nat, Ad (R 8) (R 5));
  (5%nat, Xo (RLo (R 5) 28) (R 8));
  (10%nat, Ad (R 10) (R 3));
  (3%nat, Xo (RLo (R 3) 16) (R 10));
  (12%nat, Ad (R 12) (R 7));
  (7%nat, Xo (RLo (R 7) 25) (R 12));
  (1%nat, Ad (R 1) (R 21));
  (0%nat, Ad (R 0) (Ad (R 1) (R 20)));
  (1%nat, Xo (RLo (R 1) 41) (R 0));
  (3%nat, Ad (R 3) (R 23));
  (2%nat, Ad (R 2) (Ad (R 3) (R 22)));
  (3%nat, Xo (RLo (R 3) 9) (R 2));
  (5%nat, Ad (R 5) (R 25));
  (4%nat, Ad (R 4) (Ad (R 5) (R 24)));
  (5%nat, Xo (RLo (R 5) 37) (R 4));
  (7%nat, Ad (R 7) (R 27));
  (6%nat, Ad (R 6) (Ad (R 7) (R 26)));
  (7%nat, Xo (RLo (R 7) 31) (R 6));
  (9%nat, Ad (R 9) (R 29));
  (8%nat, Ad (R 8) (Ad (R 9) (R 28)));
  (9%nat, Xo (RLo (R 9) 12) (R 8));
  (11%nat, Ad (R 11) (R 31));
  (10%nat, Ad (R 10) (Ad (R 11) (R 30)));
  (11%nat, Xo (RLo (R 11) 47) (R 10));
  (13%nat, Ad (R 13) (Ad (R 16) (R 33)));
  (12%nat, Ad (R 12) (Ad (R 13) (R 32)));
  (13%nat, Xo (RLo (R 13) 44) (R 12));
  (15%nat, Ad (R 15) (Ad (R 18) (K 0x15)));
  (14%nat, Ad (R 14) (Ad (Ad (R 15) (R 17)) (R 34)));
  (15%nat, Xo (RLo (R 15) 30) (R 14));
  (0%nat, Ad (R 0) (R 9));
  (9%nat, Xo (RLo (R 9) 16) (R 0));
  (2%nat, Ad (R 2) (R 13));
  (13%nat, Xo (RLo (R 13) 34) (R 2));
  (6%nat, Ad (R 6) (R 11));
  (11%nat, Xo (RLo (R 11) 56) (R 6));
  (4%nat, Ad (R 4) (R 15));
  (15%nat, Xo (RLo (R 15) 51) (R 4));
  (10%nat, Ad (R 10) (R 7));
  (7%nat, Xo (RLo (R 7) 4) (R 10));
  (12%nat, Ad (R 12) (R 3));
  (3%nat, Xo (RLo (R 3) 53) (R 12));
  (14%nat, Ad (R 14) (R 5));
  (5%nat, Xo (RLo (R 5) 42) (R 14));
  (8%nat, Ad (R 8) (R 1));
  (1%nat, Xo (RLo (R 1) 41) (R 8));
  (0%nat, Ad (R 0) (R 7));
  (7%nat, Xo (RLo (R 7) 31) (R 0));
  (2%nat, Ad (R 2) (R 5));
  (5%nat, Xo (RLo (R 5) 44) (R 2));
  (4%nat, Ad (R 4) (R 3));
  (3%nat, Xo (RLo (R 3) 47) (R 4));
  (6%nat, Ad (R 6) (R 1));
  (1%nat, Xo (RLo (R 1) 46) (R 6));
  (12%nat, Ad (R 12) (R 15));
  (15%nat, Xo (RLo (R 15) 19) (R 12));
  (14%nat, Ad (R 14) (R 13));
  (13%nat, Xo (RLo (R 13) 42) (R 14));
  (8%nat, Ad (R 8) (R 11));
  (11%nat, Xo (RLo (R 11) 44) (R 8));
  (10%nat, Ad (R 10) (R 9));
  (9%nat, Xo (RLo (R 9) 25) (R 10));
  (0%nat, Ad (R 0) (R 15));
  (15%nat, Xo (RLo (R 15) 9) (R 0));
  (2%nat, Ad (R 2) (R 11));
  (11%nat, Xo (RLo (R 11) 48) (R 2));
  (6%nat, Ad (R 6) (R 13));
  (13%nat, Xo (RLo (R 13) 35) (R 6));
  (4%nat, Ad (R 4) (R 9));
  (9%nat, Xo (RLo (R 9) 52) (R 4));
  (14%nat, Ad (R 14) (R 1));
  (1%nat, Xo (RLo (R 1) 23) (R 14));
  (8%nat, Ad (R 8) (R 5));
  (5%nat, Xo (RLo (R 5) 31) (R 8));
  (10%nat, Ad (R 10) (R 3));
  (3%nat, Xo (RLo (R 3) 37) (R 10));
  (12%nat, Ad (R 12) (R 7));
  (7%nat, Xo (RLo (R 7) 20) (R 12));
  (1%nat, Ad (R 1) (R 22));
  (0%nat, Ad (R 0) (Ad (R 1) (R 21)));
  (1%nat, Xo (RLo (R 1) 24) (R 0));
  (3%nat, Ad (R 3) (R 24));
  (2%nat, Ad (R 2) (Ad (R 3) (R 23)));
  (3%nat, Xo (RLo (R 3) 13) (R 2));
  (5%nat, Ad (R 5) (R 26));
  (4%nat, Ad (R 4) (Ad (R 5) (R 25)));
  (5%nat, Xo (RLo (R 5) 8) (R 4));
  (7%nat, Ad (R 7) (R 28));
  (6%nat, Ad (R 6) (Ad (R 7) (R 27)));
  (7%nat, Xo (RLo (R 7) 47) (R 6));
  (9%nat, Ad (R 9) (R 30));
  (8%nat, Ad (R 8) (Ad (R 9) (R 29)));
  (9%nat, Xo (RLo (R 9) 8) (R 8));
  (11%nat, Ad (R 11) (R 32));
  (10%nat, Ad (R 10) (Ad (R 11) (R 31)));
  (11%nat, Xo (RLo (R 11) 17) (R 10));
  (13%nat, Ad (R 13) (Ad (R 17) (R 34)));
  (12%nat, Ad (R 12) (Ad (R 13) (R 16)));
  (13%nat, Xo (RLo (R 13) 22) (R 12));
  (15%nat, Ad (R 15) (Ad (R 19) (K 0x16)));
  (14%nat, Ad (R 14) (Ad (Ad (R 15) (R 18)) (R 35)));
  (15%nat, Xo (RLo (R 15) 37) (R 14));
  (0%nat, Ad (R 0) (R 9));
  (9%nat, Xo (RLo (R 9) 38) (R 0));
  (2%nat, Ad (R 2) (R 13));
  (13%nat, Xo (RLo (R 13) 19) (R 2));
  (6%nat, Ad (R 6) (R 11));
  (11%nat, Xo (RLo (R 11) 10) (R 6));
  (4%nat, Ad (R 4) (R 15));
  (15%nat, Xo (RLo (R 15) 55) (R 4));
  (10%nat, Ad (R 10) (R 7));
  (7%nat, Xo (RLo (R 7) 49) (R 10));
  (12%nat, Ad (R 12) (R 3));
  (3%nat, Xo (RLo (R 3) 18) (R 12));
  (14%nat, Ad (R 14) (R 5));
  (5%nat, Xo (RLo (R 5) 23) (R 14));
  (8%nat, Ad (R 8) (R 1));
  (1%nat, Xo (RLo (R 1) 52) (R 8));
  (0%nat, Ad (R 0) (R 7));
  (7%nat, Xo (RLo (R 7) 33) (R 0));
  (2%nat, Ad (R 2) (R 5));
  (5%nat, Xo (RLo (R 5) 4) (R 2));
  (4%nat, Ad (R 4) (R 3));
  (3%nat, Xo (RLo (R 3) 51) (R 4));
  (6%nat, Ad (R 6) (R 1));
  (1%nat, Xo (RLo (R 1) 13) (R 6));
  (12%nat, Ad (R 12) (R 15));
  (15%nat, Xo (RLo (R 15) 34) (R 12));
  (14%nat, Ad (R 14) (R 13));
  (13%nat, Xo (RLo (R 13) 41) (R 14));
  (8%nat, Ad (R 8) (R 11));
  (11%nat, Xo (RLo (R 11) 59) (R 8));
  (10%nat, Ad (R 10) (R 9));
  (9%nat, Xo (RLo (R 9) 17) (R 10));
  (0%nat, Ad (R 0) (R 15));
  (15%nat, Xo (RLo (R 15) 5) (R 0));
  (2%nat, Ad (R 2) (R 11));
  (11%nat, Xo (RLo (R 11) 20) (R 2));
  (6%nat, Ad (R 6) (R 13));
  (13%nat, Xo (RLo (R 13) 48) (R 6));
  (4%nat, Ad (R 4) (R 9));
  (9%nat, Xo (RLo (R 9) 41) (R 4));
  (14%nat, Ad (R 14) (R 1));
  (1%nat, Xo (RLo (R 1) 47) (R 14));
  (8%nat, Ad (R 8) (R 5));
  (5%nat, Xo (RLo (R 5) 28) (R 8));
  (10%nat, Ad (R 10) (R 3));
  (3%nat, Xo (RLo (R 3) 16) (R 10));
  (12%nat, Ad (R 12) (R 7));
  (7%nat, Xo (RLo (R 7) 25) (R 12));
  (1%nat, Ad (R 1) (R 23));
  (0%nat, Ad (R 0) (Ad (R 1) (R 22)));
  (1%nat, Xo (RLo (R 1) 41) (R 0));
  (3%nat, Ad (R 3) (R 25));
  (2%nat, Ad (R 2) (Ad (R 3) (R 24)));
  (3%nat, Xo (RLo (R 3) 9) (R 2));
  (5%nat, Ad (R 5) (R 27));
  (4%nat, Ad (R 4) (Ad (R 5) (R 26)));
  (5%nat, Xo (RLo (R 5) 37) (R 4));
  (7%nat, Ad (R 7) (R 29));
  (6%nat, Ad (R 6) (Ad (R 7) (R 28)));
  (7%nat, Xo (RLo (R 7) 31) (R 6));
  (9%nat, Ad (R 9) (R 31));
  (8%nat, Ad (R 8) (Ad (R 9) (R 30)));
  (9%nat, Xo (RLo (R 9) 12) (R 8));
  (11%nat, Ad (R 11) (R 16));
  (10%nat, Ad (R 10) (Ad (R 11) (R 32)));
  (11%nat, Xo (RLo (R 11) 47) (R 10));
  (13%nat, Ad (R 13) (Ad (R 18) (R 35)));
  (12%nat, Ad (R 12) (Ad (R 13) (R 17)));
  (13%nat, Xo (RLo (R 13) 44) (R 12));
  (15%nat, Ad (R 15) (Ad (R 20) (K 0x17)));
  (14%nat, Ad (R 14) (Ad (Ad (R 15) (R 19)) (R 33)));
  (15%nat, Xo (RLo (R 15) 30) (R 14));
  (0%nat, Ad (R 0) (R 9));
  (9%nat, Xo (RLo (R 9) 16) (R 0));
  (2%nat, Ad (R 2) (R 13));
  (13%nat, Xo (RLo (R 13) 34) (R 2));
  (6%nat, Ad (R 6) (R 11));
  (11%nat, Xo (RLo (R 11) 56) (R 6));
  (4%nat, Ad (R 4) (R 15));
  (15%nat, Xo (RLo (R 15) 51) (R 4));
  (10%nat, Ad (R 10) (R 7));
  (7%nat, Xo (RLo (R 7) 4) (R 10));
  (12%nat, Ad (R 12) (R 3));
  (3%nat, Xo (RLo (R 3) 53) (R 12));
  (14%nat, Ad (R 14) (R 5));
  (5%nat, Xo (RLo (R 5) 42) (R 14));
  (8%nat, Ad (R 8) (R 1));
  (1%nat, Xo (RLo (R 1) 41) (R 8));
  (0%nat, Ad (R 0) (R 7));
  (7%nat, Xo (RLo (R 7) 31) (R 0));
  (2%nat, Ad (R 2) (R 5));
  (5%nat, Xo (RLo (R 5) 44) (R 2));
  (4%nat, Ad (R 4) (R 3));
  (3%nat, Xo (RLo (R 3) 47) (R 4));
  (6%nat, Ad (R 6) (R 1));
  (1%nat, Xo (RLo (R 1) 46) (R 6));
  (12%nat, Ad (R 12) (R 15));
  (15%nat, Xo (RLo (R 15) 19) (R 12));
  (14%nat, Ad (R 14) (R 13));
  (13%nat, Xo (RLo (R 13) 42) (R 14));
  (8%nat, Ad (R 8) (R 11));
  (11%nat, Xo (RLo (R 11) 44) (R 8));
  (10%nat, Ad (R 10) (R 9));
  (9%nat, Xo (RLo (R 9) 25) (R 10));
  (0%nat, Ad (R 0) (R 15));
  (15%nat, Xo (RLo (R 15) 9) (R 0));
  (2%nat, Ad (R 2) (R 11));
  (11%nat, Xo (RLo (R 11) 48) (R 2));
  (6%nat, Ad (R 6) (R 13));
  (13%nat, Xo (RLo (R 13) 35) (R 6));
  (4%nat, Ad (R 4) (R 9));
  (9%nat, Xo (RLo (R 9) 52) (R 4));
  (14%nat, Ad (R 14) (R 1));
  (1%nat, Xo (RLo (R 1) 23) (R 14));
  (8%nat, Ad (R 8) (R 5));
  (5%nat, Xo (RLo (R 5) 31) (R 8));
  (10%nat, Ad (R 10) (R 3));
  (3%nat, Xo (RLo (R 3) 37) (R 10));
  (12%nat, Ad (R 12) (R 7));
  (7%nat, Xo (RLo (R 7) 20) (R 12));
  (1%nat, Ad (R 1) (R 24));
  (0%nat, Ad (R 0) (Ad (R 1) (R 23)));
  (1%nat, Xo (RLo (R 1) 24) (R 0));
  (3%nat, Ad (R 3) (R 26));
  (2%nat, Ad (R 2) (Ad (R 3) (R 25)));
  (3%nat, Xo (RLo (R 3) 13) (R 2));
  (5%nat, Ad (R 5) (R 28));
  (4%nat, Ad (R 4) (Ad (R 5) (R 27)));
  (5%nat, Xo (RLo (R 5) 8) (R 4));
  (7%nat, Ad (R 7) (R 30));
  (6%nat, Ad (R 6) (Ad (R 7) (R 29)));
  (7%nat, Xo (RLo (R 7) 47) (R 6));
  (9%nat, Ad (R 9) (R 32));
  (8%nat, Ad (R 8) (Ad (R 9) (R 31)));
  (9%nat, Xo (RLo (R 9) 8) (R 8));
  (11%nat, Ad (R 11) (R 17));
  (10%nat, Ad (R 10) (Ad (R 11) (R 16)));
  (11%nat, Xo (RLo (R 11) 17) (R 10));
  (13%nat, Ad (R 13) (Ad (R 19) (R 33)));
  (12%nat, Ad (R 12) (Ad (R 13) (R 18)));
  (13%nat, Xo (RLo (R 13) 22) (R 12));
  (15%nat, Ad (R 15) (Ad (R 21) (K 0x18)));
  (14%nat, Ad (R 14) (Ad (Ad (R 15) (R 20)) (R 34)));
  (15%nat, Xo (RLo (R 15) 37) (R 14));
  (0%nat, Ad (R 0) (R 9));
  (9%nat, Xo (RLo (R 9) 38) (R 0));
  (2%nat, Ad (R 2) (R 13));
  (13%nat, Xo (RLo (R 13) 19) (R 2));
  (6%nat, Ad (R 6) (R 11));
  (11%nat, Xo (RLo (R 11) 10) (R 6));
  (4%nat, Ad (R 4) (R 15));
  (15%nat, Xo (RLo (R 15) 55) (R 4));
  (10%nat, Ad (R 10) (R 7));
  (7%nat, Xo (RLo (R 7) 49) (R 10));
  (12%nat, Ad (R 12) (R 3));
  (3%nat, Xo (RLo (R 3) 18) (R 12));
  (14%nat, Ad (R 14) (R 5));
  (5%nat, Xo (RLo (R 5) 23) (R 14));
  (8%nat, Ad (R 8) (R 1));
  (1%nat, Xo (RLo (R 1) 52) (R 8));
  (0%nat, Ad (R 0) (R 7));
  (7%nat, Xo (RLo (R 7) 33) (R 0));
  (2%nat, Ad (R 2) (R 5));
  (5%nat, Xo (RLo (R 5) 4) (R 2));
  (4%nat, Ad (R 4) (R 3));
  (3%nat, Xo (RLo (R 3) 51) (R 4));
  (6%nat, Ad (R 6) (R 1));
  (1%nat, Xo (RLo (R 1) 13) (R 6));
  (12%nat, Ad (R 12) (R 15));
  (15%nat, Xo (RLo (R 15) 34) (R 12));
  (14%nat, Ad (R 14) (R 13));
  (13%nat, Xo (RLo (R 13) 41) (R 14));
  (8%nat, Ad (R 8) (R 11));
  (11%nat, Xo (RLo (R 11) 59) (R 8));
  (10%nat, Ad (R 10) (R 9));
  (9%nat, Xo (RLo (R 9) 17) (R 10));
  (0%nat, Ad (R 0) (R 15));
  (15%nat, Xo (RLo (R 15) 5) (R 0));
  (2%nat, Ad (R 2) (R 11));
  (11%nat, Xo (RLo (R 11) 20) (R 2));
  (6%nat, Ad (R 6) (R 13));
  (13%nat, Xo (RLo (R 13) 48) (R 6));
  (4%nat, Ad (R 4) (R 9));
  (9%nat, Xo (RLo (R 9) 41) (R 4));
  (14%nat, Ad (R 14) (R 1));
  (1%nat, Xo (RLo (R 1) 47) (R 14));
  (8%nat, Ad (R 8) (R 5));
  (5%nat, Xo (RLo (R 5) 28) (R 8));
  (10%nat, Ad (R 10) (R 3));
  (3%nat, Xo (RLo (R 3) 16) (R 10));
  (12%nat, Ad (R 12) (R 7));
  (7%nat, Xo (RLo (R 7) 25) (R 12));
  (1%nat, Ad (R 1) (R 25));
  (0%nat, Ad (R 0) (Ad (R 1) (R 24)));
  (1%nat, Xo (RLo (R 1) 41) (R 0));
  (3%nat, Ad (R 3) (R 27));
  (2%nat, Ad (R 2) (Ad (R 3) (R 26)));
  (3%nat, Xo (RLo (R 3) 9) (R 2));
  (5%nat, Ad (R 5) (R 29));
  (4%nat, Ad (R 4) (Ad (R 5) (R 28)));
  (5%nat, Xo (RLo (R 5) 37) (R 4));
  (7%nat, Ad (R 7) (R 31));
  (6%nat, Ad (R 6) (Ad (R 7) (R 30)));
  (7%nat, Xo (RLo (R 7) 31) (R 6));
  (9%nat, Ad (R 9) (R 16));
  (8%nat, Ad (R 8) (Ad (R 9) (R 32)));
  (9%nat, Xo (RLo (R 9) 12) (R 8));
  (11%nat, Ad (R 11) (R 18));
  (10%nat, Ad (R 10) (Ad (R 11) (R 17)));
  (11%nat, Xo (RLo (R 11) 47) (R 10));
  (13%nat, Ad (R 13) (Ad (R 20) (R 34)));
  (12%nat, Ad (R 12) (Ad (R 13) (R 19)));
  (13%nat, Xo (RLo (R 13) 44) (R 12));
  (15%nat, Ad (R 15) (Ad (R 22) (K 0x19)));
  (14%nat, Ad (R 14) (Ad (Ad (R 15) (R 21)) (R 35)));
  (15%nat, Xo (RLo (R 15) 30) (R 14));
  (0%nat, Ad (R 0) (R 9));
  (9%nat, Xo (RLo (R 9) 16) (R 0));
  (2%nat, Ad (R 2) (R 13));
  (13%nat, Xo (RLo (R 13) 34) (R 2));
  (6%nat, Ad (R 6) (R 11));
  (11%nat, Xo (RLo (R 11) 56) (R 6));
  (4%nat, Ad (R 4) (R 15));
  (15%nat, Xo (RLo (R 15) 51) (R 4));
  (10%nat, Ad (R 10) (R 7));
  (7%nat, Xo (RLo (R 7) 4) (R 10));
  (12%nat, Ad (R 12) (R 3));
  (3%nat, Xo (RLo (R 3) 53) (R 12));
  (14%nat, Ad (R 14) (R 5));
  (5%nat, Xo (RLo (R 5) 42) (R 14));
  (8%nat, Ad (R 8) (R 1));
  (1%nat, Xo (RLo (R 1) 41) (R 8));
  (0%nat, Ad (R 0) (R 7));
  (7%nat, Xo (RLo (R 7) 31) (R 0));
  (2%nat, Ad (R 2) (R 5));
  (5%nat, Xo (RLo (R 5) 44) (R 2));
  (4%nat, Ad (R 4) (R 3));
  (3%nat, Xo (RLo (R 3) 47) (R 4));
  (6%nat, Ad (R 6) (R 1));
  (1%nat, Xo (RLo (R 1) 46) (R 6));
  (12%nat, Ad (R 12) (R 15));
  (15%nat, Xo (RLo (R 15) 19) (R 12));
  (14%nat, Ad (R 14) (R 13));
  (13%nat, Xo (RLo (R 13) 42) (R 14));
  (8%nat, Ad (R 8) (R 11));
  (11%nat, Xo (RLo (R 11) 44) (R 8));
  (10%nat, Ad (R 10) (R 9));
  (9%nat, Xo (RLo (R 9) 25) (R 10));
  (0%nat, Ad (R 0) (R 15));
  (15%nat, Xo (RLo (R 15) 9) (R 0));
  (2%nat, Ad (R 2) (R 11));
  (11%nat, Xo (RLo (R 11) 48) (R 2));
  (6%nat, Ad (R 6) (R 13));
  (13%nat, Xo (RLo (R 13) 35) (R 6));
  (4%nat, Ad (R 4) (R 9));
  (9%nat, Xo (RLo (R 9) 52) (R 4));
  (14%nat, Ad (R 14) (R 1));
  (1%nat, Xo (RLo (R 1) 23) (R 14));
  (8%nat, Ad (R 8) (R 5));
  (5%nat, Xo (RLo (R 5) 31) (R 8));
  (10%nat, Ad (R 10) (R 3));
  (3%nat, Xo (RLo (R 3) 37) (R 10));
  (12%nat, Ad (R 12) (R 7));
  (7%nat, Xo (RLo (R 7) 20) (R 12));
  (1%nat, Ad (R 1) (R 26));
  (0%nat, Ad (R 0) (Ad (R 1) (R 25)));
  (1%nat, Xo (RLo (R 1) 24) (R 0));
  (3%nat, Ad (R 3) (R 28));
  (2%nat, Ad (R 2) (Ad (R 3) (R 27)));
  (3%nat, Xo (RLo (R 3) 13) (R 2));
  (5%nat, Ad (R 5) (R 30));
  (4%nat, Ad (R 4) (Ad (R 5) (R 29)));
  (5%nat, Xo (RLo (R 5) 8) (R 4));
  (7%nat, Ad (R 7) (R 32));
  (6%nat, Ad (R 6) (Ad (R 7) (R 31)));
  (7%nat, Xo (RLo (R 7) 47) (R 6));
  (9%nat, Ad (R 9) (R 17));
  (8%nat, Ad (R 8) (Ad (R 9) (R 16)));
  (9%nat, Xo (RLo (R 9) 8) (R 8));
  (11%nat, Ad (R 11) (R 19));
  (10%nat, Ad (R 10) (Ad (R 11) (R 18)));
  (11%nat, Xo (RLo (R 11) 17) (R 10));
  (13%nat, Ad (R 13) (Ad (R 21) (R 35)));
  (12%nat, Ad (R 12) (Ad (R 13) (R 20)));
  (13%nat, Xo (RLo (R 13) 22) (R 12));
  (15%nat, Ad (R 15) (Ad (R 23) (K 0x1A)));
  (14%nat, Ad (R 14) (Ad (Ad (R 15) (R 22)) (R 33)));
  (15%nat, Xo (RLo (R 15) 37) (R 14));
  (0%nat, Ad (R 0) (R 9));
  (9%nat, Xo (RLo (R 9) 38) (R 0));
  (2%nat, Ad (R 2) (R 13));
  (13%nat, Xo (RLo (R 13) 19) (R 2));
  (6%nat, Ad (R 6) (R 11));
  (11%nat, Xo (RLo (R 11) 10) (R 6));
  (4%nat, Ad (R 4) (R 15));
  (15%nat, Xo (RLo (R 15) 55) (R 4));
  (10%nat, Ad (R 10) (R 7));
  (7%nat, Xo (RLo (R 7) 49) (R 10));
  (12%nat, Ad (R 12) (R 3));
  (3%nat, Xo (RLo (R 3) 18) (R 12));
  (14%nat, Ad (R 14) (R 5));
  (5%nat, Xo (RLo (R 5) 23) (R 14));
  (8%nat, Ad (R 8) (R 1));
  (1%nat, Xo (RLo (R 1) 52) (R 8));
  (0%nat, Ad (R 0) (R 7));
  (7%nat, Xo (RLo (R 7) 33) (R 0));
  (2%nat, Ad (R 2) (R 5));
  (5%nat, Xo (RLo (R 5) 4) (R 2));
  (4%nat, Ad (R 4) (R 3));
  (3%nat, Xo (RLo (R 3) 51) (R 4));
  (6%nat, Ad (R 6) (R 1));
  (1%nat, Xo (RLo (R 1) 13) (R 6));
  (12%nat, Ad (R 12) (R 15));
  (15%nat, Xo (RLo (R 15) 34) (R 12));
  (14%nat, Ad (R 14) (R 13));
  (13%nat, Xo (RLo (R 13) 41) (R 14));
  (8%nat, Ad (R 8) (R 11));
  (11%nat, Xo (RLo (R 11) 59) (R 8));
  (10%nat, Ad (R 10) (R 9));
  (9%nat, Xo (RLo (R 9) 17) (R 10));
  (0%nat, Ad (R 0) (R 15));
  (15%nat, Xo (RLo (R 15) 5) (R 0));
  (2%nat, Ad (R 2) (R 11));
  (11%nat, Xo (RLo (R 11) 20) (R 2));
  (6%nat, Ad (R 6) (R 13));
  (13%nat, Xo (RLo (R 13) 48) (R 6));
  (4%nat, Ad (R 4) (R 9));
  (9%nat, Xo (RLo (R 9) 41) (R 4));
  (14%nat, Ad (R 14) (R 1));
  (1%nat, Xo (RLo (R 1) 47) (R 14));
  (8%nat, Ad (R 8) (R 5));
  (5%nat, Xo (RLo (R 5) 28) (R 8));
  (10%nat, Ad (R 10) (R 3));
  (3%nat, Xo (RLo (R 3) 16) (R 10));
  (12%nat, Ad (R 12) (R 7));
  (7%nat, Xo (RLo (R 7) 25) (R 12));
  (1%nat, Ad (R 1) (R 27));
  (0%nat, Ad (R 0) (Ad (R 1) (R 26)));
  (1%nat, Xo (RLo (R 1) 41) (R 0));
  (3%nat, Ad (R 3) (R 29));
  (2%nat, Ad (R 2) (Ad (R 3) (R 28)));
  (3%nat, Xo (RLo (R 3) 9) (R 2));
  (5%nat, Ad (R 5) (R 31));
  (4%nat, Ad (R 4) (Ad (R 5) (R 30)));
  (5%nat, Xo (RLo (R 5) 37) (R 4));
  (7%nat, Ad (R 7) (R 16));
  (6%nat, Ad (R 6) (Ad (R 7) (R 32)));
  (7%nat, Xo (RLo (R 7) 31) (R 6));
  (9%nat, Ad (R 9) (R 18));
  (8%nat, Ad (R 8) (Ad (R 9) (R 17)));
  (9%nat, Xo (RLo (R 9) 12) (R 8));
  (11%nat, Ad (R 11) (R 20));
  (10%nat, Ad (R 10) (Ad (R 11) (R 19)));
  (11%nat, Xo (RLo (R 11) 47) (R 10));
  (13%nat, Ad (R 13) (Ad (R 22) (R 33)));
  (12%nat, Ad (R 12) (Ad (R 13) (R 21)));
  (13%nat, Xo (RLo (R 13) 44) (R 12));
  (15%nat, Ad (R 15) (Ad (R 24) (K 0x1B)));
  (14%nat, Ad (R 14) (Ad (Ad (R 15) (R 23)) (R 34)));
  (15%nat, Xo (RLo (R 15) 30) (R 14));
  (0%nat, Ad (R 0) (R 9));
  (9%nat, Xo (RLo (R 9) 16) (R 0));
  (2%nat, Ad (R 2) (R 13));
  (13%nat, Xo (RLo (R 13) 34) (R 2));
  (6%nat, Ad (R 6) (R 11));
  (11%nat, Xo (RLo (R 11) 56) (R 6));
  (4%nat, Ad (R 4) (R 15));
  (15%nat, Xo (RLo (R 15) 51) (R 4));
  (10%nat, Ad (R 10) (R 7));
  (7%nat, Xo (RLo (R 7) 4) (R 10));
  (12%nat, Ad (R 12) (R 3));
  (3%nat, Xo (RLo (R 3) 53) (R 12));
  (14%nat, Ad (R 14) (R 5));
  (5%nat, Xo (RLo (R 5) 42) (R 14));
  (8%nat, Ad (R 8) (R 1));
  (1%nat, Xo (RLo (R 1) 41) (R 8));
  (0%nat, Ad (R 0) (R 7));
  (7%nat, Xo (RLo (R 7) 31) (R 0));
  (2%nat, Ad (R 2) (R 5));
  (5%nat, Xo (RLo (R 5) 44) (R 2));
  (4%nat, Ad (R 4) (R 3));
  (3%nat, Xo (RLo (R 3) 47) (R 4));
  (6%nat, Ad (R 6) (R 1));
  (1%nat, Xo (RLo (R 1) 46) (R 6));
  (12%nat, Ad (R 12) (R 15));
  (15%nat, Xo (RLo (R 15) 19) (R 12));
  (14%nat, Ad (R 14) (R 13));
  (13%nat, Xo (RLo (R 13) 42) (R 14));
  (8%nat, Ad (R 8) (R 11));
  (11%nat, Xo (RLo (R 11) 44) (R 8));
  (10%nat, Ad (R 10) (R 9));
  (9%nat, Xo (RLo (R 9) 25) (R 10));
  (0%nat, Ad (R 0) (R 15));
  (15%nat, Xo (RLo (R 15) 9) (R 0));
  (2%nat, Ad (R 2) (R 11));
  (11%nat, Xo (RLo (R 11) 48) (R 2));
  (6%nat, Ad (R 6) (R 13));
  (13%nat, Xo (RLo (R 13) 35) (R 6));
  (4%nat, Ad (R 4) (R 9));
  (9%nat, Xo (RLo (R 9) 52) (R 4));
  (14%nat, Ad (R 14) (R 1));
  (1%nat, Xo (RLo (R 1) 23) (R 14));
  (8%nat, Ad (R 8) (R 5));
  (5%nat, Xo (RLo (R 5) 31) (R 8));
  (10%nat, Ad (R 10) (R 3));
  (3%nat, Xo (RLo (R 3) 37) (R 10));
  (12%nat, Ad (R 12) (R 7));
  (7%nat, Xo (RLo (R 7) 20) (R 12));
  (1%nat, Ad (R 1) (R 28));
  (0%nat, Ad (R 0) (Ad (R 1) (R 27)));
  (1%nat, Xo (RLo (R 1) 24) (R 0));
  (3%nat, Ad (R 3) (R 30));
  (2%nat, Ad (R 2) (Ad (R 3) (R 29)));
  (3%nat, Xo (RLo (R 3) 13) (R 2));
  (5%nat, Ad (R 5) (R 32));
  (4%nat, Ad (R 4) (Ad (R 5) (R 31)));
  (5%nat, Xo (RLo (R 5) 8) (R 4));
  (7%nat, Ad (R 7) (R 17));
  (6%nat, Ad (R 6) (Ad (R 7) (R 16)));
  (7%nat, Xo (RLo (R 7) 47) (R 6));
  (9%nat, Ad (R 9) (R 19));
  (8%nat, Ad (R 8) (Ad (R 9) (R 18)));
  (9%nat, Xo (RLo (R 9) 8) (R 8));
  (11%nat, Ad (R 11) (R 21));
  (10%nat, Ad (R 10) (Ad (R 11) (R 20)));
  (11%nat, Xo (RLo (R 11) 17) (R 10));
  (13%nat, Ad (R 13) (Ad (R 23) (R 34)));
  (12%nat, Ad (R 12) (Ad (R 13) (R 22)));
  (13%nat, Xo (RLo (R 13) 22) (R 12));
  (15%nat, Ad (R 15) (Ad (R 25) (K 0x1C)));
  (14%nat, Ad (R 14) (Ad (Ad (R 15) (R 24)) (R 35)));
  (15%nat, Xo (RLo (R 15) 37) (R 14));
  (0%nat, Ad (R 0) (R 9));
  (9%nat, Xo (RLo (R 9) 38) (R 0));
  (2%nat, Ad (R 2) (R 13));
  (13%nat, Xo (RLo (R 13) 19) (R 2));
  (6%nat, Ad (R 6) (R 11));
  (11%nat, Xo (RLo (R 11) 10) (R 6));
  (4%nat, Ad (R 4) (R 15));
  (15%nat, Xo (RLo (R 15) 55) (R 4));
  (10%nat, Ad (R 10) (R 7));
  (7%nat, Xo (RLo (R 7) 49) (R 10));
  (12%nat, Ad (R 12) (R 3));
  (3%nat, Xo (RLo (R 3) 18) (R 12));
  (14%nat, Ad (R 14) (R 5));
  (5%nat, Xo (RLo (R 5) 23) (R 14));
  (8%nat, Ad (R 8) (R 1));
  (1%nat, Xo (RLo (R 1) 52) (R 8));
  (0%nat, Ad (R 0) (R 7));
  (7%nat, Xo (RLo (R 7) 33) (R 0));
  (2%nat, Ad (R 2) (R 5));
  (5%nat, Xo (RLo (R 5) 4) (R 2));
  (4%nat, Ad (R 4) (R 3));
  (3%nat, Xo (RLo (R 3) 51) (R 4));
  (6%nat, Ad (R 6) (R 1));
  (1%nat, Xo (RLo (R 1) 13) (R 6));
  (12%nat, Ad (R 12) (R 15));
  (15%nat, Xo (RLo (R 15) 34) (R 12));
  (14%nat, Ad (R 14) (R 13));
  (13%nat, Xo (RLo (R 13) 41) (R 14));
  (8%nat, Ad (R 8) (R 11));
  (11%nat, Xo (RLo (R 11) 59) (R 8));
  (10%nat, Ad (R 10) (R 9));
  (9%nat, Xo (RLo (R 9) 17) (R 10));
  (0%nat, Ad (R 0) (R 15));
  (15%nat, Xo (RLo (R 15) 5) (R 0));
  (2%nat, Ad (R 2) (R 11));
  (11%nat, Xo (RLo (R 11) 20) (R 2));
  (6%nat, Ad (R 6) (R 13));
  (13%nat, Xo (RLo (R 13) 48) (R 6));
  (4%nat, Ad (R 4) (R 9));
  (9%nat, Xo (RLo (R 9) 41) (R 4));
  (14%nat, Ad (R 14) (R 1));
  (1%nat, Xo (RLo (R 1) 47) (R 14));
  (8%nat, Ad (R 8) (R 5));
  (5%nat, Xo (RLo (R 5) 28) (R 8));
  (10%nat, Ad (R 10) (R 3));
  (3%nat, Xo (RLo (R 3) 16) (R 10));
  (12%nat, Ad (R 12) (R 7));
  (7%nat, Xo (RLo (R 7) 25) (R 12));
  (1%nat, Ad (R 1) (R 29));
  (0%nat, Ad (R 0) (Ad (R 1) (R 28)));
  (1%nat, Xo (RLo (R 1) 41) (R 0));
  (3%nat, Ad (R 3) (R 31));
  (2%nat, Ad (R 2) (Ad (R 3) (R 30)));
  (3%nat, Xo (RLo (R 3) 9) (R 2));
  (5%nat, Ad (R 5) (R 16));
  (4%nat, Ad (R 4) (Ad (R 5) (R 32)));
  (5%nat, Xo (RLo (R 5) 37) (R 4));
  (7%nat, Ad (R 7) (R 18));
  (6%nat, Ad (R 6) (Ad (R 7) (R 17)));
  (7%nat, Xo (RLo (R 7) 31) (R 6));
  (9%nat, Ad (R 9) (R 20));
  (8%nat, Ad (R 8) (Ad (R 9) (R 19)));
  (9%nat, Xo (RLo (R 9) 12) (R 8));
  (11%nat, Ad (R 11) (R 22));
  (10%nat, Ad (R 10) (Ad (R 11) (R 21)));
  (11%nat, Xo (RLo (R 11) 47) (R 10));
  (13%nat, Ad (R 13) (Ad (R 24) (R 35)));
  (12%nat, Ad (R 12) (Ad (R 13) (R 23)));
  (13%nat, Xo (RLo (R 13) 44) (R 12));
  (15%nat, Ad (R 15) (Ad (R 26) (K 0x1D)));
  (14%nat, Ad (R 14) (Ad (Ad (R 15) (R 25)) (R 33)));
  (15%nat, Xo (RLo (R 15) 30) (R 14));
  (0%nat, Ad (R 0) (R 9));
  (9%nat, Xo (RLo (R 9) 16) (R 0));
  (2%nat, Ad (R 2) (R 13));
  (13%nat, Xo (RLo (R 13) 34) (R 2));
  (6%nat, Ad (R 6) (R 11));
  (11%nat, Xo (RLo (R 11) 56) (R 6));
  (4%nat, Ad (R 4) (R 15));
  (15%nat, Xo (RLo (R 15) 51) (R 4));
  (10%nat, Ad (R 10) (R 7));
  (7%nat, Xo (RLo (R 7) 4) (R 10));
  (12%nat, Ad (R 12) (R 3));
  (3%nat, Xo (RLo (R 3) 53) (R 12));
  (14%nat, Ad (R 14) (R 5));
  (5%nat, Xo (RLo (R 5) 42) (R 14));
  (8%nat, Ad (R 8) (R 1));
  (1%nat, Xo (RLo (R 1) 41) (R 8));
  (0%nat, Ad (R 0) (R 7));
  (7%nat, Xo (RLo (R 7) 31) (R 0));
  (2%nat, Ad (R 2) (R 5));
  (5%nat, Xo (RLo (R 5) 44) (R 2));
  (4%nat, Ad (R 4) (R 3));
  (3%nat, Xo (RLo (R 3) 47) (R 4));
  (6%nat, Ad (R 6) (R 1));
  (1%nat, Xo (RLo (R 1) 46) (R 6));
  (12%nat, Ad (R 12) (R 15));
  (15%nat, Xo (RLo (R 15) 19) (R 12));
  (14%nat, Ad (R 14) (R 13));
  (13%nat, Xo (RLo (R 13) 42) (R 14));
  (8%nat, Ad (R 8) (R 11));
  (11%nat, Xo (RLo (R 11) 44) (R 8));
  (10%nat, Ad (R 10) (R 9));
  (9%nat, Xo (RLo (R 9) 25) (R 10));
  (0%nat, Ad (R 0) (R 15));
  (15%nat, Xo (RLo (R 15) 9) (R 0));
  (2%nat, Ad (R 2) (R 11));
  (11%nat, Xo (RLo (R 11) 48) (R 2));
  (6%nat, Ad (R 6) (R 13));
  (13%nat, Xo (RLo (R 13) 35) (R 6));
  (4%nat, Ad (R 4) (R 9));
  (9%nat, Xo (RLo (R 9) 52) (R 4));
  (14%nat, Ad (R 14) (R 1));
  (1%nat, Xo (RLo (R 1) 23) (R 14));
  (8%nat, Ad (R 8) (R 5));
  (5%nat, Xo (RLo (R 5) 31) (R 8));
  (10%nat, Ad (R 10) (R 3));
  (3%nat, Xo (RLo (R 3) 37) (R 10));
  (12%nat, Ad (R 12) (R 7));
  (7%nat, Xo (RLo (R 7) 20) (R 12));
  (56%nat, Ad (R 0) (R 19));
  (57%nat, Ad (R 1) (R 20));
  (58%nat, Ad (R 2) (R 21));
  (59%nat, Ad (R 3) (R 22));
  (60%nat, Ad (R 4) (R 23));
  (61%nat, Ad (R 5) (R 24));
  (62%nat, Ad (R 6) (R 25));
  (63%nat, Ad (R 7) (R 26));
  (64%nat, Ad (R 8) (R 27));
  (65%nat, Ad (R 9) (R 28));
  (66%nat, Ad (R 10) (R 29));
  (67%nat, Ad (R 11) (R 30));
  (68%nat, Ad (R 12) (R 31));
  (69%nat, Ad (Ad (R 13) (R 32)) (R 35));
  (70%nat, Ad (Ad (R 14) (R 16)) (R 33));
  (71%nat, Ad (Ad (R 15) (R 17)) (K 0x1E))
].

(** CEX/Skein.h:156-522, body of PemuteR72P256U: generated by tools/straight.py, one entry per statement.
    Registers: 0=B0, 1=B1, 2=B2, 3=B3, 4=K0, 5=K1, 6=K2, 7=K3, 8=K4, 9=T0, 10=T1, 11=T2, 12=Input[0], 13=Input[1], 14=Input[2], 15=Input[3], 16=Tweak[0], 17=Tweak[1], 18=State[0], 19=State[1], 20=State[2], 21=State[3]. *)
Definition skein256_U : prog := [
  (0%nat, R 12);
  (1%nat, R 13);
  (2%nat, R 14);
  (3%nat, R 15);
  (4%nat, R 18);
  (5%nat, R 19);
  (6%nat, R 20);
  (7%nat, R 21);
  (8%nat, Xo (Xo (Xo (Xo (R 4) (R 5)) (R 6)) (R 7)) (K 0x1BD11BDAA9FC1A22));
  (9%nat, R 16);
  (10%nat, R 17);
  (11%nat, Xo (R 16) (R 17));
  (1%nat, Ad (R 1) (Ad (R 5) (R 9)));
  (0%nat, Ad (R 0) (Ad (R 1) (R 4)));
  (1%nat, Xo (RLo (R 1) 14) (R 0));
  (3%nat, Ad (R 3) (R 7));
  (2%nat, Ad (R 2) (Ad (Ad (R 3) (R 6)) (R 10)));
  (3%nat, Xo (RLo (R 3) 16) (R 2));
  (0%nat, Ad (R 0) (R 3));
  (3%nat, Xo (RLo (R 3) 52) (R 0));
  (2%nat, Ad (R 2) (R 1));
  (1%nat, Xo (RLo (R 1) 57) (R 2));
  (0%nat, Ad (R 0) (R 1));
  (1%nat, Xo (RLo (R 1) 23) (R 0));
  (2%nat, Ad (R 2) (R 3));
  (3%nat, Xo (RLo (R 3) 40) (R 2));
  (0%nat, Ad (R 0) (R 3));
  (3%nat, Xo (RLo (R 3) 5) (R 0));
  (2%nat, Ad (R 2) (R 1));
  (1%nat, Xo (RLo (R 1) 37) (R 2));
  (1%nat, Ad (R 1) (Ad (R 6) (R 10)));
  (0%nat, Ad (R 0) (Ad (R 1) (R 5)));
  (1%nat, Xo (RLo (R 1) 25) (R 0));
  (3%nat, Ad (R 3) (Ad (R 8) (K 0x1)));
  (2%nat, Ad (R 2) (Ad (Ad (R 3) (R 7)) (R 11)));
  (3%nat, Xo (RLo (R 3) 33) (R 2));
  (0%nat, Ad (R 0) (R 3));
  (3%nat, Xo (RLo (R 3) 46) (R 0));
  (2%nat, Ad (R 2) (R 1));
  (1%nat, Xo (RLo (R 1) 12) (R 2));
  (0%nat, Ad (R 0) (R 1));
  (1%nat, Xo (RLo (R 1) 58) (R 0));
  (2%nat, Ad (R 2) (R 3));
  (3%nat, Xo (RLo (R 3) 22) (R 2));
  (0%nat, Ad (R 0) (R 3));
  (3%nat, Xo (RLo (R 3) 32) (R 0));
  (2%nat, Ad (R 2) (R 1));
  (1%nat, Xo (RLo (R 1) 32) (R 2));
  (1%nat, Ad (R 1) (Ad (R 7) (R 11)));
  (0%nat, Ad (R 0) (Ad (R 1) (R 6)));
  (1%nat, Xo (RLo (R 1) 14) (R 0));
  (3%nat, Ad (R 3) (Ad (R 4) (K 0x2)));
  (2%nat, Ad (R 2) (Ad (Ad (R 3) (R 8)) (R 9)));
  (3%nat, Xo (RLo (R 3) 16) (R 2));
  (0%nat, Ad (R 0) (R 3));
  (3%nat, Xo (RLo (R 3) 52) (R 0));
  (2%nat, Ad (R 2) (R 1));
  (1%nat, Xo (RLo (R 1) 57) (R 2));
  (0%nat, Ad (R 0) (R 1));
  (1%nat, Xo (RLo (R 1) 23) (R 0));
  (2%nat, Ad (R 2) (R 3));
  (3%nat, Xo (RLo (R 3) 40) (R 2));
  (0%nat, Ad (R 0) (R 3));
  (3%nat, Xo (RLo (R 3) 5) (R 0));
  (2%nat, Ad (R 2) (R 1));
  (1%nat, Xo (RLo (R 1) 37) (R 2));
  (1%nat, Ad (R 1) (Ad (R 8) (R 9)));
  (0%nat, Ad (R 0) (Ad (R 1) (R 7)));
  (1%nat, Xo (RLo (R 1) 25) (R 0));
  (3%nat, Ad (R 3) (Ad (R 5) (K 0x3)));
  (2%nat, Ad (R 2) (Ad (Ad (R 3) (R 4)) (R 10)));
  (3%nat, Xo (RLo (R 3) 33) (R 2));
  (0%nat, Ad (R 0) (R 3));
  (3%nat, Xo (RLo (R 3) 46) (R 0));
  (2%nat, Ad (R 2) (R 1));
  (1%nat, Xo (RLo (R 1) 12) (R 2));
  (0%nat, Ad (R 0) (R 1));
  (1%nat, Xo (RLo (R 1) 58) (R 0));
  (2%nat, Ad (R 2) (R 3));
  (3%nat, Xo (RLo (R 3) 22) (R 2));
  (0%nat, Ad (R 0) (R 3));
  (3%nat, Xo (RLo (R 3) 32) (R 0));
  (2%nat, Ad (R 2) (R 1));
  (1%nat, Xo (RLo (R 1) 32) (R 2));
  (1%nat, Ad (R 1) (Ad (R 4) (R 10)));
  (0%nat, Ad (R 0) (Ad (R 1) (R 8)));
  (1%nat, Xo (RLo (R 1) 14) (R 0));
  (3%nat, Ad (R 3) (Ad (R 6) (K 0x4)));
  (2%nat, Ad (R 2) (Ad (Ad (R 3) (R 5)) (R 11)));
  (3%nat, Xo (RLo (R 3) 16) (R 2));
  (0%nat, Ad (R 0) (R 3));
  (3%nat, Xo (RLo (R 3) 52) (R 0));
  (2%nat, Ad (R 2) (R 1));
  (1%nat, Xo (RLo (R 1) 57) (R 2));
  (0%nat, Ad (R 0) (R 1));
  (1%nat, Xo (RLo (R 1) 23) (R 0));
  (2%nat, Ad (R 2) (R 3));
  (3%nat, Xo (RLo (R 3) 40) (R 2));
  (0%nat, Ad (R 0) (R 3));
  (3%nat, Xo (RLo (R 3) 5) (R 0));
  (2%nat, Ad (R 2) (R 1));
  (1%nat, Xo (RLo (R 1) 37) (R 2));
  (1%nat, Ad (R 1) (Ad (R 5) (R 11)));
  (0%nat, Ad (R 0) (Ad (R 1) (R 4)));
  (1%nat, Xo (RLo (R 1) 25) (R 0));
  (3%nat, Ad (R 3) (Ad (R 7) (K 0x5)));
  (2%nat, Ad (R 2) (Ad (Ad (R 3) (R 6)) (R 9)));
  (3%nat, Xo (RLo (R 3) 33) (R 2));
  (0%nat, Ad (R 0) (R 3));
  (3%nat, Xo (RLo (R 3) 46) (R 0));
  (2%nat, Ad (R 2) (R 1));
  (1%nat, Xo (RLo (R 1) 12) (R 2));
  (0%nat, Ad (R 0) (R 1));
  (1%nat, Xo (RLo (R 1) 58) (R 0));
  (2%nat, Ad (R 2) (R 3));
  (3%nat, Xo (RLo (R 3) 22) (R 2));
  (0%nat, Ad (R 0) (R 3));
  (3%nat, Xo (RLo (R 3) 32) (R 0));
  (2%nat, Ad (R 2) (R 1));
  (1%nat, Xo (RLo (R 1) 32) (R 2));
  (1%nat, Ad (R 1) (Ad (R 6) (R 9)));
  (0%nat, Ad (R 0) (Ad (R 1) (R 5)));
  (1%nat, Xo (RLo (R 1) 14) (R 0));
  (3%nat, Ad (R 3) (Ad (R 8) (K 0x6)));
  (2%nat, Ad (R 2) (Ad (Ad (R 3) (R 7)) (R 10)));
  (3%nat, Xo (RLo (R 3) 16) (R 2));
  (0%nat, Ad (R 0) (R 3));
  (3%nat, Xo (RLo (R 3) 52) (R 0));
  (2%nat, Ad (R 2) (R 1));
  (1%nat, Xo (RLo (R 1) 57) (R 2));
  (0%nat, Ad (R 0) (R 1));
  (1%nat, Xo (RLo (R 1) 23) (R 0));
  (2%nat, Ad (R 2) (R 3));
  (3%nat, Xo (RLo (R 3) 40) (R 2));
  (0%nat, Ad (R 0) (R 3));
  (3%nat, Xo (RLo (R 3) 5) (R 0));
  (2%nat, Ad (R 2) (R 1));
  (1%nat, Xo (RLo (R 1) 37) (R 2));
  (1%nat, Ad (R 1) (Ad (R 7) (R 10)));
  (0%nat, Ad (R 0) (Ad (R 1) (R 6)));
  (1%nat, Xo (RLo (R 1) 25) (R 0));
  (3%nat, Ad (R 3) (Ad (R 4) (K 0x7)));
  (2%nat, Ad (R 2) (Ad (Ad (R 3) (R 8)) (R 11)));
  (3%nat, Xo (RLo (R 3) 33) (R 2));
  (0%nat, Ad (R 0) (R 3));
  (3%nat, Xo (RLo (R 3) 46) (R 0));
  (2%nat, Ad (R 2) (R 1));
  (1%nat, Xo (RLo (R 1) 12) (R 2));
  (0%nat, Ad (R 0) (R 1));
  (1%nat, Xo (RLo (R 1) 58) (R 0));
  (2%nat, Ad (R 2) (R 3));
  (3%nat, Xo (RLo (R 3) 22) (R 2));
  (0%nat, Ad (R 0) (R 3));
  (3%nat, Xo (RLo (R 3) 32) (R 0));
  (2%nat, Ad (R 2) (R 1));
  (1%nat, Xo (RLo (R 1) 32) (R 2));
  (1%nat, Ad (R 1) (Ad (R 8) (R 11)));
  (0%nat, Ad (R 0) (Ad (R 1) (R 7)));
  (1%nat, Xo (RLo (R 1) 14) (R 0));
  (3%nat, Ad (R 3) (Ad (R 5) (K 0x8)));
  (2%nat, Ad (R 2) (Ad (Ad (R 3) (R 4)) (R 9)));
  (3%nat, Xo (RLo (R 3) 16) (R 2));
  (0%nat, Ad (R 0) (R 3));
  (3%nat, Xo (RLo (R 3) 52) (R 0));
  (2%nat, Ad (R 2) (R 1));
  (1%nat, Xo (RLo (R 1) 57) (R 2));
  (0%nat, Ad (R 0) (R 1));
  (1%nat, Xo (RLo (R 1) 23) (R 0));
  (2%nat, Ad (R 2) (R 3));
  (3%nat, Xo (RLo (R 3) 40) (R 2));
  (0%nat, Ad (R 0) (R 3));
  (3%nat, Xo (RLo (R 3) 5) (R 0));
  (2%nat, Ad (R 2) (R 1));
  (1%nat, Xo (RLo (R 1) 37) (R 2));
  (1%nat, Ad (R 1) (Ad (R 4) (R 9)));
  (0%nat, Ad (R 0) (Ad (R 1) (R 8)));
  (1%nat, Xo (RLo (R 1) 25) (R 0));
  (3%nat, Ad (R 3) (Ad (R 6) (K 0x9)));
  (2%nat, Ad (R 2) (Ad (Ad (R 3) (R 5)) (R 10)));
  (3%nat, Xo (RLo (R 3) 33) (R 2));
  (0%nat, Ad (R 0) (R 3));
  (3%nat, Xo (RLo (R 3) 46) (R 0));
  (2%nat, Ad (R 2) (R 1));
  (1%nat, Xo (RLo (R 1) 12) (R 2));
  (0%nat, Ad (R 0) (R 1));
  (1%nat, Xo (RLo (R 1) 58) (R 0));
  (2%nat, Ad (R 2) (R 3));
  (3%nat, Xo (RLo (R 3) 22) (R 2));
  (0%nat, Ad (R 0) (R 3));
  (3%nat, Xo (RLo (R 3) 32) (R 0));
  (2%nat, Ad (R 2) (R 1));
  (1%nat, Xo (RLo (R 1) 32) (R 2));
  (1%nat, Ad (R 1) (Ad (R 5) (R 10)));
  (0%nat, Ad (R 0) (Ad (R 1) (R 4)));
  (1%nat, Xo (RLo (R 1) 14) (R 0));
  (3%nat, Ad (R 3) (Ad (R 7) (K 0xA)));
  (2%nat, Ad (R 2) (Ad (Ad (R 3) (R 6)) (R 11)));
  (3%nat, Xo (RLo (R 3) 16) (R 2));
  (0%nat, Ad (R 0) (R 3));
  (3%nat, Xo (RLo (R 3) 52) (R 0));
  (2%nat, Ad (R 2) (R 1));
  (1%nat, Xo (RLo (R 1) 57) (R 2));
  (0%nat, Ad (R 0) (R 1));
  (1%nat, Xo (RLo (R 1) 23) (R 0));
  (2%nat, Ad (R 2) (R 3));
  (3%nat, Xo (RLo (R 3) 40) (R 2));
  (0%nat, Ad (R 0) (R 3));
  (3%nat, Xo (RLo (R 3) 5) (R 0));
  (2%nat, Ad (R 2) (R 1));
  (1%nat, Xo (RLo (R 1) 37) (R 2));
  (1%nat, Ad (R 1) (Ad (R 6) (R 11)));
  (0%nat, Ad (R 0) (Ad (R 1) (R 5)));
  (1%nat, Xo (RLo (R 1) 25) (R 0));
  (3%nat, Ad (R 3) (Ad (R 8) (K 0xB)));
  (2%nat, Ad (R 2) (Ad (Ad (R 3) (R 7)) (R 9)));
  (3%nat, Xo (RLo (R 3) 33) (R 2));
  (0%nat, Ad (R 0) (R 3));
  (3%nat, Xo (RLo (R 3) 46) (R 0));
  (2%nat, Ad (R 2) (R 1));
  (1%nat, Xo (RLo (R 1) 12) (R 2));
  (0%nat, Ad (R 0) (R 1));
  (1%nat, Xo (RLo (R 1) 58) (R 0));
  (2%nat, Ad (R 2) (R 3));
  (3%nat, Xo (RLo (R 3) 22) (R 2));
  (0%nat, Ad (R 0) (R 3));
  (3%nat, Xo (RLo (R 3) 32) (R 0));
  (2%nat, Ad (R 2) (R 1));
  (1%nat, Xo (RLo (R 1) 32) (R 2));
  (1%nat, Ad (R 1) (Ad (R 7) (R 9)));
  (0%nat, Ad (R 0) (Ad (R 1) (R 6)));
  (1%nat, Xo (RLo (R 1) 14) (R 0));
  (3%nat, Ad (R 3) (Ad (R 4) (K 0xC)));
  (2%nat, Ad (R 2) (Ad (Ad (R 3) (R 8)) (R 10)));
  (3%nat, Xo (RLo (R 3) 16) (R 2));
  (0%nat, Ad (R 0) (R 3));
  (3%nat, Xo (RLo (R 3) 52) (R 0));
  (2%nat, Ad (R 2) (R 1));
  (1%nat, Xo (RLo (R 1) 57) (R 2));
  (0%nat, Ad (R 0) (R 1));
  (1%nat, Xo (RLo (R 1) 23) (R 0));
  (2%nat, Ad (R 2) (R 3));
  (3%nat, Xo (RLo (R 3) 40) (R 2));
  (0%nat, Ad (R 0) (R 3));
  (3%nat, Xo (RLo (R 3) 5) (R 0));
  (2%nat, Ad (R 2) (R 1));
  (1%nat, Xo (RLo (R 1) 37) (R 2));
  (1%nat, Ad (R 1) (Ad (R 8) (R 10)));
  (0%nat, Ad (R 0) (Ad (R 1) (R 7)));
  (1%nat, Xo (RLo (R 1) 25) (R 0));
  (3%nat, Ad (R 3) (Ad (R 5) (K 0xD)));
  (2%nat, Ad (R 2) (Ad (Ad (R 3) (R 4)) (R 11)));
  (3%nat, Xo (RLo (R 3) 33) (R 2));
  (0%nat, Ad (R 0) (R 3));
  (3%nat, Xo (RLo (R 3) 46) (R 0));
  (2%nat, Ad (R 2) (R 1));
  (1%nat, Xo (RLo (R 1) 12) (R 2));
  (0%nat, Ad (R 0) (R 1));
  (1%nat, Xo (RLo (R 1) 58) (R 0));
  (2%nat, Ad (R 2) (R 3));
  (3%nat, Xo (RLo (R 3) 22) (R 2));
  (0%nat, Ad (R 0) (R 3));
  (3%nat, Xo (RLo (R 3) 32) (R 0));
  (2%nat, Ad (R 2) (R 1));
  (1%nat, Xo (RLo (R 1) 32) (R 2));
  (1%nat, Ad (R 1) (Ad (R 4) (R 11)));
  (0%nat, Ad (R 0) (Ad (R 1) (R 8)));
  (1%nat, Xo (RLo (R 1) 14) (R 0));
  (3%nat, Ad (R 3) (Ad (R 6) (K 0xE)));
  (2%nat, Ad (R 2) (Ad (Ad (R 3) (R 5)) (R 9)));
  (3%nat, Xo (RLo (R 3) 16) (R 2));
  (0%nat, Ad (R 0) (R 3));
  (3%nat, Xo (RLo (R 3) 52) (R 0));
  (2%nat, Ad (R 2) (R 1));
  (1%nat, Xo (RLo (R 1) 57) (R 2));
  (0%nat, Ad (R 0) (R 1));
  (1%nat, Xo (RLo (R 1) 23) (R 0));
  (2%nat, Ad (R 2) (R 3));
  (3%nat, Xo (RLo (R 3) 40) (R 2));
  (0%nat, Ad (R 0) (R 3));
  (3%nat, Xo (RLo (R 3) 5) (R 0));
  (2%nat, Ad (R 2) (R 1));
  (1%nat, Xo (RLo (R 1) 37) (R 2));
  (1%nat, Ad (R 1) (Ad (R 5) (R 9)));
  (0%nat, Ad (R 0) (Ad (R 1) (R 4)));
  (1%nat, Xo (RLo (R 1) 25) (R 0));
  (3%nat, Ad (R 3) (Ad (R 7) (K 0xF)));
  (2%nat, Ad (R 2) (Ad (Ad (R 3) (R 6)) (R 10)));
  (3%nat, Xo (RLo (R 3) 33) (R 2));
  (0%nat, Ad (R 0) (R 3));
  (3%nat, Xo (RLo (R 3) 46) (R 0));
  (2%nat, Ad (R 2) (R 1));
  (1%nat, Xo (RLo (R 1) 12) (R 2));
  (0%nat, Ad (R 0) (R 1));
  (1%nat, Xo (RLo (R 1) 58) (R 0));
  (2%nat, Ad (R 2) (R 3));
  (3%nat, Xo (RLo (R 3) 22) (R 2));
  (0%nat, Ad (R 0) (R 3));
  (3%nat, Xo (RLo (R 3) 32) (R 0));
  (2%nat, Ad (R 2) (R 1));
  (1%nat, Xo (RLo (R 1) 32) (R 2));
  (1%nat, Ad (R 1) (Ad (R 6) (R 10)));
  (0%nat, Ad (R 0) (Ad (R 1) (R 5)));
  (1%nat, Xo (RLo (R 1) 14) (R 0));
  (3%nat, Ad (R 3) (Ad (R 8) (K 0x10)));
  (2%nat, Ad (R 2) (Ad (Ad (R 3) (R 7)) (R 11)));
  (3%nat, Xo (RLo (R 3) 16) (R 2));
  (0%nat, Ad (R 0) (R 3));
  (3%nat, Xo (RLo (R 3) 52) (R 0));
  (2%nat, Ad (R 2) (R 1));
  (1%nat, Xo (RLo (R 1) 57) (R 2));
  (0%nat, Ad (R 0) (R 1));
  (1%nat, Xo (RLo (R 1) 23) (R 0));
  (2%nat, Ad (R 2) (R 3));
  (3%nat, Xo (RLo (R 3) 40) (R 2));
  (0%nat, Ad (R 0) (R 3));
  (3%nat, Xo (RLo (R 3) 5) (R 0));
  (2%nat, Ad (R 2) (R 1));
  (1%nat, Xo (RLo (R 1) 37) (R 2));
  (1%nat, Ad (R 1) (Ad (R 7) (R 11)));
  (0%nat, Ad (R 0) (Ad (R 1) (R 6)));
  (1%nat, Xo (RLo (R 1) 25) (R 0));
  (3%nat, Ad (R 3) (Ad (R 4) (K 0x11)));
  (2%nat, Ad (R 2) (Ad (Ad (R 3) (R 8)) (R 9)));
  (3%nat, Xo (RLo (R 3) 33) (R 2));
  (0%nat, Ad (R 0) (R 3));
  (3%nat, Xo (RLo (R 3) 46) (R 0));
  (2%nat, Ad (R 2) (R 1));
  (1%nat, Xo (RLo (R 1) 12) (R 2));
  (0%nat, Ad (R 0) (R 1));
  (1%nat, Xo (RLo (R 1) 58) (R 0));
  (2%nat, Ad (R 2) (R 3));
  (3%nat, Xo (RLo (R 3) 22) (R 2));
  (0%nat, Ad (R 0) (R 3));
  (3%nat, Xo (RLo (R 3) 32) (R 0));
  (2%nat, Ad (R 2) (R 1));
  (1%nat, Xo (RLo (R 1) 32) (R 2));
  (18%nat, Ad (R 0) (R 7));
  (19%nat, Ad (Ad (R 1) (R 8)) (R 9));
  (20%nat, Ad (Ad (R 2) (R 4)) (R 10));
  (21%nat, Ad (Ad (R 3) (R 5)) (K 0x12))
].

(** CEX/Skein.h:678-1388, body of PemuteR72P512U: generated by tools/straight.py, one entry per statement.
    Registers: 0=B0, 1=B1, 2=B2, 3=B3, 4=B4, 5=B5, 6=B6, 7=B7, 8=K0, 9=K1, 10=K2, 11=K3, 12=K4, 13=K5, 14=K6, 15=K7, 16=K8, 17=T0, 18=T1, 19=T2, 20=Input[0], 21=Input[1], 22=Input[2], 23=Input[3], 24=Input[4], 25=Input[5], 26=Input[6], 27=Input[7], 28=Tweak[0], 29=Tweak[1], 30=State[0], 31=State[1], 32=State[2], 33=State[3], 34=State[4], 35=State[5], 36=State[6], 37=State[7]. *)
Definition skein512_U : prog := [
  (0%nat, R 20);
  (1%nat, R 21);
  (2%nat, R 22);
  (3%nat, R 23);
  (4%nat, R 24);
  (5%nat, R 25);
  (6%nat, R 26);
  (7%nat, R 27);
  (8%nat, R 30);
  (9%nat, R 31);
  (10%nat, R 32);
  (11%nat, R 33);
  (12%nat, R 34);
  (13%nat, R 35);
  (14%nat, R 36);
  (15%nat, R 37);
  (16%nat, Xo (Xo (Xo (Xo (Xo (Xo (Xo (Xo (R 8) (R 9)) (R 10)) (R 11)) (R 12)) (R 13)) (R 14)) (R 15)) (K 0x1BD11BDAA9FC1A22));
  (17%nat, R 28);
  (18%nat, R 29);
  (19%nat, Xo (R 28) (R 29));
  (1%nat, Ad (R 1) (R 9));
  (0%nat, Ad (R 0) (Ad (R 1) (R 8)));
  (1%nat, Xo (RLo (R 1) 46) (R 0));
  (3%nat, Ad (R 3) (R 11));
  (2%nat, Ad (R 2) (Ad (R 3) (R 10)));
  (3%nat, Xo (RLo (R 3) 36) (R 2));
  (5%nat, Ad (R 5) (Ad (R 13) (R 17)));
  (4%nat, Ad (R 4) (Ad (R 5) (R 12)));
  (5%nat, Xo (RLo (R 5) 19) (R 4));
  (7%nat, Ad (R 7) (R 15));
  (6%nat, Ad (R 6) (Ad (Ad (R 7) (R 14)) (R 18)));
  (7%nat, Xo (RLo (R 7) 37) (R 6));
  (2%nat, Ad (R 2) (R 1));
  (1%nat, Xo (RLo (R 1) 33) (R 2));
  (4%nat, Ad (R 4) (R 7));
  (7%nat, Xo (RLo (R 7) 27) (R 4));
  (6%nat, Ad (R 6) (R 5));
  (5%nat, Xo (RLo (R 5) 14) (R 6));
  (0%nat, Ad (R 0) (R 3));
  (3%nat, Xo (RLo (R 3) 42) (R 0));
  (4%nat, Ad (R 4) (R 1));
  (1%nat, Xo (RLo (R 1) 17) (R 4));
  (6%nat, Ad (R 6) (R 3));
  (3%nat, Xo (RLo (R 3) 49) (R 6));
  (0%nat, Ad (R 0) (R 5));
  (5%nat, Xo (RLo (R 5) 36) (R 0));
  (2%nat, Ad (R 2) (R 7));
  (7%nat, Xo (RLo (R 7) 39) (R 2));
  (6%nat, Ad (R 6) (R 1));
  (1%nat, Xo (RLo (R 1) 44) (R 6));
  (0%nat, Ad (R 0) (R 7));
  (7%nat, Xo (RLo (R 7) 9) (R 0));
  (2%nat, Ad (R 2) (R 5));
  (5%nat, Xo (RLo (R 5) 54) (R 2));
  (4%nat, Ad (R 4) (R 3));
  (3%nat, Xo (RLo (R 3) 56) (R 4));
  (1%nat, Ad (R 1) (R 10));
  (0%nat, Ad (R 0) (Ad (R 1) (R 9)));
  (1%nat, Xo (RLo (R 1) 39) (R 0));
  (3%nat, Ad (R 3) (R 12));
  (2%nat, Ad (R 2) (Ad (R 3) (R 11)));
  (3%nat, Xo (RLo (R 3) 30) (R 2));
  (5%nat, Ad (R 5) (Ad (R 14) (R 18)));
  (4%nat, Ad (R 4) (Ad (R 5) (R 13)));
  (5%nat, Xo (RLo (R 5) 34) (R 4));
  (7%nat, Ad (R 7) (Ad (R 16) (K 0x1)));
  (6%nat, Ad (R 6) (Ad (Ad (R 7) (R 15)) (R 19)));
  (7%nat, Xo (RLo (R 7) 24) (R 6));
  (2%nat, Ad (R 2) (R 1));
  (1%nat, Xo (RLo (R 1) 13) (R 2));
  (4%nat, Ad (R 4) (R 7));
  (7%nat, Xo (RLo (R 7) 50) (R 4));
  (6%nat, Ad (R 6) (R 5));
  (5%nat, Xo (RLo (R 5) 10) (R 6));
  (0%nat, Ad (R 0) (R 3));
  (3%nat, Xo (RLo (R 3) 17) (R 0));
  (4%nat, Ad (R 4) (R 1));
  (1%nat, Xo (RLo (R 1) 25) (R 4));
  (6%nat, Ad (R 6) (R 3));
  (3%nat, Xo (RLo (R 3) 29) (R 6));
  (0%nat, Ad (R 0) (R 5));
  (5%nat, Xo (RLo (R 5) 39) (R 0));
  (2%nat, Ad (R 2) (R 7));
  (7%nat, Xo (RLo (R 7) 43) (R 2));
  (6%nat, Ad (R 6) (R 1));
  (1%nat, Xo (RLo (R 1) 8) (R 6));
  (0%nat, Ad (R 0) (R 7));
  (7%nat, Xo (RLo (R 7) 35) (R 0));
  (2%nat, Ad (R 2) (R 5));
  (5%nat, Xo (RLo (R 5) 56) (R 2));
  (4%nat, Ad (R 4) (R 3));
  (3%nat, Xo (RLo (R 3) 22) (R 4));
  (1%nat, Ad (R 1) (R 11));
  (0%nat, Ad (R 0) (Ad (R 1) (R 10)));
  (1%nat, Xo (RLo (R 1) 46) (R 0));
  (3%nat, Ad (R 3) (R 13));
  (2%nat, Ad (R 2) (Ad (R 3) (R 12)));
  (3%nat, Xo (RLo (R 3) 36) (R 2));
  (5%nat, Ad (R 5) (Ad (R 15) (R 19)));
  (4%nat, Ad (R 4) (Ad (R 5) (R 14)));
  (5%nat, Xo (RLo (R 5) 19) (R 4));
  (7%nat, Ad (R 7) (Ad (R 8) (K 0x2)));
  (6%nat, Ad (R 6) (Ad (Ad (R 7) (R 16)) (R 17)));
  (7%nat, Xo (RLo (R 7) 37) (R 6));
  (2%nat, Ad (R 2) (R 1));
  (1%nat, Xo (RLo (R 1) 33) (R 2));
  (4%nat, Ad (R 4) (R 7));
  (7%nat, Xo (RLo (R 7) 27) (R 4));
  (6%nat, Ad (R 6) (R 5));
  (5%nat, Xo (RLo (R 5) 14) (R 6));
  (0%nat, Ad (R 0) (R 3));
  (3%nat, Xo (RLo (R 3) 42) (R 0));
  (4%nat, Ad (R 4) (R 1));
  (1%nat, Xo (RLo (R 1) 17) (R 4));
  (6%nat, Ad (R 6) (R 3));
  (3%nat, Xo (RLo (R 3) 49) (R 6));
  (0%nat, Ad (R 0) (R 5));
  (5%nat, Xo (RLo (R 5) 36) (R 0));
  (2%nat, Ad (R 2) (R 7));
  (7%nat, Xo (RLo (R 7) 39) (R 2));
  (6%nat, Ad (R 6) (R 1));
  (1%nat, Xo (RLo (R 1) 44) (R 6));
  (0%nat, Ad (R 0) (R 7));
  (7%nat, Xo (RLo (R 7) 9) (R 0));
  (2%nat, Ad (R 2) (R 5));
  (5%nat, Xo (RLo (R 5) 54) (R 2));
  (4%nat, Ad (R 4) (R 3));
  (3%nat, Xo (RLo (R 3) 56) (R 4));
  (1%nat, Ad (R 1) (R 12));
  (0%nat, Ad (R 0) (Ad (R 1) (R 11)));
  (1%nat, Xo (RLo (R 1) 39) (R 0));
  (3%nat, Ad (R 3) (R 14));
  (2%nat, Ad (R 2) (Ad (R 3) (R 13)));
  (3%nat, Xo (RLo (R 3) 30) (R 2));
  (5%nat, Ad (R 5) (Ad (R 16) (R 17)));
  (4%nat, Ad (R 4) (Ad (R 5) (R 15)));
  (5%nat, Xo (RLo (R 5) 34) (R 4));
  (7%nat, Ad (R 7) (Ad (R 9) (K 0x3)));
  (6%nat, Ad (R 6) (Ad (Ad (R 7) (R 8)) (R 18)));
  (7%nat, Xo (RLo (R 7) 24) (R 6));
  (2%nat, Ad (R 2) (R 1));
  (1%nat, Xo (RLo (R 1) 13) (R 2));
  (4%nat, Ad (R 4) (R 7));
  (7%nat, Xo (RLo (R 7) 50) (R 4));
  (6%nat, Ad (R 6) (R 5));
  (5%nat, Xo (RLo (R 5) 10) (R 6));
  (0%nat, Ad (R 0) (R 3));
  (3%nat, Xo (RLo (R 3) 17) (R 0));
  (4%nat, Ad (R 4) (R 1));
  (1%nat, Xo (RLo (R 1) 25) (R 4));
  (6%nat, Ad (R 6) (R 3));
  (3%nat, Xo (RLo (R 3) 29) (R 6));
  (0%nat, Ad (R 0) (R 5));
  (5%nat, Xo (RLo (R 5) 39) (R 0));
  (2%nat, Ad (R 2) (R 7));
  (7%nat, Xo (RLo (R 7) 43) (R 2));
  (6%nat, Ad (R 6) (R 1));
  (1%nat, Xo (RLo (R 1) 8) (R 6));
  (0%nat, Ad (R 0) (R 7));
  (7%nat, Xo (RLo (R 7) 35) (R 0));
  (2%nat, Ad (R 2) (R 5));
  (5%nat, Xo (RLo (R 5) 56) (R 2));
  (4%nat, Ad (R 4) (R 3));
  (3%nat, Xo (RLo (R 3) 22) (R 4));
  (1%nat, Ad (R 1) (R 13));
  (0%nat, Ad (R 0) (Ad (R 1) (R 12)));
  (1%nat, Xo (RLo (R 1) 46) (R 0));
  (3%nat, Ad (R 3) (R 15));
  (2%nat, Ad (R 2) (Ad (R 3) (R 14)));
  (3%nat, Xo (RLo (R 3) 36) (R 2));
  (5%nat, Ad (R 5) (Ad (R 8) (R 18)));
  (4%nat, Ad (R 4) (Ad (R 5) (R 16)));
  (5%nat, Xo (RLo (R 5) 19) (R 4));
  (7%nat, Ad (R 7) (Ad (R 10) (K 0x4)));
  (6%nat, Ad (R 6) (Ad (Ad (R 7) (R 9)) (R 19)));
  (7%nat, Xo (RLo (R 7) 37) (R 6));
  (2%nat, Ad (R 2) (R 1));
  (1%nat, Xo (RLo (R 1) 33) (R 2));
  (4%nat, Ad (R 4) (R 7));
  (7%nat, Xo (RLo (R 7) 27) (R 4));
  (6%nat, Ad (R 6) (R 5));
  (5%nat, Xo (RLo (R 5) 14) (R 6));
  (0%nat, Ad (R 0) (R 3));
  (3%nat, Xo (RLo (R 3) 42) (R 0));
  (4%nat, Ad (R 4) (R 1));
  (1%nat, Xo (RLo (R 1) 17) (R 4));
  (6%nat, Ad (R 6) (R 3));
  (3%nat, Xo (RLo (R 3) 49) (R 6));
  (0%nat, Ad (R 0) (R 5));
  (5%nat, Xo (RLo (R 5) 36) (R 0));
  (2%nat, Ad (R 2) (R 7));
  (7%nat, Xo (RLo (R 7) 39) (R 2));
  (6%nat, Ad (R 6) (R 1));
  (1%nat, Xo (RLo (R 1) 44) (R 6));
  (0%nat, Ad (R 0) (R 7));
  (7%nat, Xo (RLo (R 7) 9) (R 0));
  (2%nat, Ad (R 2) (R 5));
  (5%nat, Xo (RLo (R 5) 54) (R 2));
  (4%nat, Ad (R 4) (R 3));
  (3%nat, Xo (RLo (R 3) 56) (R 4));
  (1%nat, Ad (R 1) (R 14));
  (0%nat, Ad (R 0) (Ad (R 1) (R 13)));
  (1%nat, Xo (RLo (R 1) 39) (R 0));
  (3%nat, Ad (R 3) (R 16));
  (2%nat, Ad (R 2) (Ad (R 3) (R 15)));
  (3%nat, Xo (RLo (R 3) 30) (R 2));
  (5%nat, Ad (R 5) (Ad (R 9) (R 19)));
  (4%nat, Ad (R 4) (Ad (R 5) (R 8)));
  (5%nat, Xo (RLo (R 5) 34) (R 4));
  (7%nat, Ad (R 7) (Ad (R 11) (K 0x5)));
  (6%nat, Ad (R 6) (Ad (Ad (R 7) (R 10)) (R 17)));
  (7%nat, Xo (RLo (R 7) 24) (R 6));
  (2%nat, Ad (R 2) (R 1));
  (1%nat, Xo (RLo (R 1) 13) (R 2));
  (4%nat, Ad (R 4) (R 7));
  (7%nat, Xo (RLo (R 7) 50) (R 4));
  (6%nat, Ad (R 6) (R 5));
  (5%nat, Xo (RLo (R 5) 10) (R 6));
  (0%nat, Ad (R 0) (R 3));
  (3%nat, Xo (RLo (R 3) 17) (R 0));
  (4%nat, Ad (R 4) (R 1));
  (1%nat, Xo (RLo (R 1) 25) (R 4));
  (6%nat, Ad (R 6) (R 3));
  (3%nat, Xo (RLo (R 3) 29) (R 6));
  (0%nat, Ad (R 0) (R 5));
  (5%nat, Xo (RLo (R 5) 39) (R 0));
  (2%nat, Ad (R 2) (R 7));
  (7%nat, Xo (RLo (R 7) 43) (R 2));
  (6%nat, Ad (R 6) (R 1));
  (1%nat, Xo (RLo (R 1) 8) (R 6));
  (0%nat, Ad (R 0) (R 7));
  (7%nat, Xo (RLo (R 7) 35) (R 0));
  (2%nat, Ad (R 2) (R 5));
  (5%nat, Xo (RLo (R 5) 56) (R 2));
  (4%nat, Ad (R 4) (R 3));
  (3%nat, Xo (RLo (R 3) 22) (R 4));
  (1%nat, Ad (R 1) (R 15));
  (0%nat, Ad (R 0) (Ad (R 1) (R 14)));
  (1%nat, Xo (RLo (R 1) 46) (R 0));
  (3%nat, Ad (R 3) (R 8));
  (2%nat, Ad (R 2) (Ad (R 3) (R 16)));
  (3%nat, Xo (RLo (R 3) 36) (R 2));
  (5%nat, Ad (R 5) (Ad (R 10) (R 17)));
  (4%nat, Ad (R 4) (Ad (R 5) (R 9)));
  (5%nat, Xo (RLo (R 5) 19) (R 4));
  (7%nat, Ad (R 7) (Ad (R 12) (K 0x6)));
  (6%nat, Ad (R 6) (Ad (Ad (R 7) (R 11)) (R 18)));
  (7%nat, Xo (RLo (R 7) 37) (R 6));
  (2%nat, Ad (R 2) (R 1));
  (1%nat, Xo (RLo (R 1) 33) (R 2));
  (4%nat, Ad (R 4) (R 7));
  (7%nat, Xo (RLo (R 7) 27) (R 4));
  (6%nat, Ad (R 6) (R 5));
  (5%nat, Xo (RLo (R 5) 14) (R 6));
  (0%nat, Ad (R 0) (R 3));
  (3%nat, Xo (RLo (R 3) 42) (R 0));
  (4%nat, Ad (R 4) (R 1));
  (1%nat, Xo (RLo (R 1) 17) (R 4));
  (6%nat, Ad (R 6) (R 3));
  (3%nat, Xo (RLo (R 3) 49) (R 6));
  (0%nat, Ad (R 0) (R 5));
  (5%nat, Xo (RLo (R 5) 36) (R 0));
  (2%nat, Ad (R 2) (R 7));
  (7%nat, Xo (RLo (R 7) 39) (R 2));
  (6%nat, Ad (R 6) (R 1));
  (1%nat, Xo (RLo (R 1) 44) (R 6));
  (0%nat, Ad (R 0) (R 7));
  (7%nat, Xo (RLo (R 7) 9) (R 0));
  (2%nat, Ad (R 2) (R 5));
  (5%nat, Xo (RLo (R 5) 54) (R 2));
  (4%nat, Ad (R 4) (R 3));
  (3%nat, Xo (RLo (R 3) 56) (R 4));
  (1%nat, Ad (R 1) (R 16));
  (0%nat, Ad (R 0) (Ad (R 1) (R 15)));
  (1%nat, Xo (RLo (R 1) 39) (R 0));
  (3%nat, Ad (R 3) (R 9));
  (2%nat, Ad (R 2) (Ad (R 3) (R 8)));
  (3%nat, Xo (RLo (R 3) 30) (R 2));
  (5%nat, Ad (R 5) (Ad (R 11) (R 18)));
  (4%nat, Ad (R 4) (Ad (R 5) (R 10)));
  (5%nat, Xo (RLo (R 5) 34) (R 4));
  (7%nat, Ad (R 7) (Ad (R 13) (K 0x7)));
  (6%nat, Ad (R 6) (Ad (Ad (R 7) (R 12)) (R 19)));
  (7%nat, Xo (RLo (R 7) 24) (R 6));
  (2%nat, Ad (R 2) (R 1));
  (1%nat, Xo (RLo (R 1) 13) (R 2));
  (4%nat, Ad (R 4) (R 7));
  (7%nat, Xo (RLo (R 7) 50) (R 4));
  (6%nat, Ad (R 6) (R 5));
  (5%nat, Xo (RLo (R 5) 10) (R 6));
  (0%nat, Ad (R 0) (R 3));
  (3%nat, Xo (RLo (R 3) 17) (R 0));
  (4%nat, Ad (R 4) (R 1));
  (1%nat, Xo (RLo (R 1) 25) (R 4));
  (6%nat, Ad (R 6) (R 3));
  (3%nat, Xo (RLo (R 3) 29) (R 6));
  (0%nat, Ad (R 0) (R 5));
  (5%nat, Xo (RLo (R 5) 39) (R 0));
  (2%nat, Ad (R 2) (R 7));
  (7%nat, Xo (RLo (R 7) 43) (R 2));
  (6%nat, Ad (R 6) (R 1));
  (1%nat, Xo (RLo (R 1) 8) (R 6));
  (0%nat, Ad (R 0) (R 7));
  (7%nat, Xo (RLo (R 7) 35) (R 0));
  (2%nat, Ad (R 2) (R 5));
  (5%nat, Xo (RLo (R 5) 56) (R 2));
  (4%nat, Ad (R 4) (R 3));
  (3%nat, Xo (RLo (R 3) 22) (R 4));
  (1%nat, Ad (R 1) (R 8));
  (0%nat, Ad (R 0) (Ad (R 1) (R 16)));
  (1%nat, Xo (RLo (R 1) 46) (R 0));
  (3%nat, Ad (R 3) (R 10));
  (2%nat, Ad (R 2) (Ad (R 3) (R 9)));
  (3%nat, Xo (RLo (R 3) 36) (R 2));
  (5%nat, Ad (R 5) (Ad (R 12) (R 19)));
  (4%nat, Ad (R 4) (Ad (R 5) (R 11)));
  (5%nat, Xo (RLo (R 5) 19) (R 4));
  (7%nat, Ad (R 7) (Ad (R 14) (K 0x8)));
  (6%nat, Ad (R 6) (Ad (Ad (R 7) (R 13)) (R 17)));
  (7%nat, Xo (RLo (R 7) 37) (R 6));
  (2%nat, Ad (R 2) (R 1));
  (1%nat, Xo (RLo (R 1) 33) (R 2));
  (4%nat, Ad (R 4) (R 7));
  (7%nat, Xo (RLo (R 7) 27) (R 4));
  (6%nat, Ad (R 6) (R 5));
  (5%nat, Xo (RLo (R 5) 14) (R 6));
  (0%nat, Ad (R 0) (R 3));
  (3%nat, Xo (RLo (R 3) 42) (R 0));
  (4%nat, Ad (R 4) (R 1));
  (1%nat, Xo (RLo (R 1) 17) (R 4));
  (6%nat, Ad (R 6) (R 3));
  (3%nat, Xo (RLo (R 3) 49) (R 6));
  (0%nat, Ad (R 0) (R 5));
  (5%nat, Xo (RLo (R 5) 36) (R 0));
  (2%nat, Ad (R 2) (R 7));
  (7%nat, Xo (RLo (R 7) 39) (R 2));
  (6%nat, Ad (R 6) (R 1));
  (1%nat, Xo (RLo (R 1) 44) (R 6));
  (0%nat, Ad (R 0) (R 7));
  (7%nat, Xo (RLo (R 7) 9) (R 0));
  (2%nat, Ad (R 2) (R 5));
  (5%nat, Xo (RLo (R 5) 54) (R 2));
  (4%nat, Ad (R 4) (R 3));
  (3%nat, Xo (RLo (R 3) 56) (R 4));
  (1%nat, Ad (R 1) (R 9));
  (0%nat, Ad (R 0) (Ad (R 1) (R 8)));
  (1%nat, Xo (RLo (R 1) 39) (R 0));
  (3%nat, Ad (R 3) (R 11));
  (2%nat, Ad (R 2) (Ad (R 3) (R 10)));
  (3%nat, Xo (RLo (R 3) 30) (R 2));
  (5%nat, Ad (R 5) (Ad (R 13) (R 17)));
  (4%nat, Ad (R 4) (Ad (R 5) (R 12)));
  (5%nat, Xo (RLo (R 5) 34) (R 4));
  (7%nat, Ad (R 7) (Ad (R 15) (K 0x9)));
  (6%nat, Ad (R 6) (Ad (Ad (R 7) (R 14)) (R 18)));
  (7%nat, Xo (RLo (R 7) 24) (R 6));
  (2%nat, Ad (R 2) (R 1));
  (1%nat, Xo (RLo (R 1) 13) (R 2));
  (4%nat, Ad (R 4) (R 7));
  (7%nat, Xo (RLo (R 7) 50) (R 4));
  (6%nat, Ad (R 6) (R 5));
  (5%nat, Xo (RLo (R 5) 10) (R 6));
  (0%nat, Ad (R 0) (R 3));
  (3%nat, Xo (RLo (R 3) 17) (R 0));
  (4%nat, Ad (R 4) (R 1));
  (1%nat, Xo (RLo (R 1) 25) (R 4));
  (6%nat, Ad (R 6) (R 3));
  (3%nat, Xo (RLo (R 3) 29) (R 6));
  (0%nat, Ad (R 0) (R 5));
  (5%nat, Xo (RLo (R 5) 39) (R 0));
  (2%nat, Ad (R 2) (R 7));
  (7%nat, Xo (RLo (R 7) 43) (R 2));
  (6%nat, Ad (R 6) (R 1));
  (1%nat, Xo (RLo (R 1) 8) (R 6));
  (0%nat, Ad (R 0) (R 7));
  (7%nat, Xo (RLo (R 7) 35) (R 0));
  (2%nat, Ad (R 2) (R 5));
  (5%nat, Xo (RLo (R 5) 56) (R 2));
  (4%nat, Ad (R 4) (R 3));
  (3%nat, Xo (RLo (R 3) 22) (R 4));
  (1%nat, Ad (R 1) (R 10));
  (0%nat, Ad (R 0) (Ad (R 1) (R 9)));
  (1%nat, Xo (RLo (R 1) 46) (R 0));
  (3%nat, Ad (R 3) (R 12));
  (2%nat, Ad (R 2) (Ad (R 3) (R 11)));
  (3%nat, Xo (RLo (R 3) 36) (R 2));
  (5%nat, Ad (R 5) (Ad (R 14) (R 18)));
  (4%nat, Ad (R 4) (Ad (R 5) (R 13)));
  (5%nat, Xo (RLo (R 5) 19) (R 4));
  (7%nat, Ad (R 7) (Ad (R 16) (K 0xA)));
  (6%nat, Ad (R 6) (Ad (Ad (R 7) (R 15)) (R 19)));
  (7%nat, Xo (RLo (R 7) 37) (R 6));
  (2%nat, Ad (R 2) (R 1));
  (1%nat, Xo (RLo (R 1) 33) (R 2));
  (4%nat, Ad (R 4) (R 7));
  (7%nat, Xo (RLo (R 7) 27) (R 4));
  (6%nat, Ad (R 6) (R 5));
  (5%nat, Xo (RLo (R 5) 14) (R 6));
  (0%nat, Ad (R 0) (R 3));
  (3%nat, Xo (RLo (R 3) 42) (R 0));
  (4%nat, Ad (R 4) (R 1));
  (1%nat, Xo (RLo (R 1) 17) (R 4));
  (6%nat, Ad (R 6) (R 3));
  (3%nat, Xo (RLo (R 3) 49) (R 6));
  (0%nat, Ad (R 0) (R 5));
  (5%nat, Xo (RLo (R 5) 36) (R 0));
  (2%nat, Ad (R 2) (R 7));
  (7%nat, Xo (RLo (R 7) 39) (R 2));
  (6%nat, Ad (R 6) (R 1));
  (1%nat, Xo (RLo (R 1) 44) (R 6));
  (0%nat, Ad (R 0) (R 7));
  (7%nat, Xo (RLo (R 7) 9) (R 0));
  (2%nat, Ad (R 2) (R 5));
  (5%nat, Xo (RLo (R 5) 54) (R 2));
  (4%nat, Ad (R 4) (R 3));
  (3%nat, Xo (RLo (R 3) 56) (R 4));
  (1%nat, Ad (R 1) (R 11));
  (0%nat, Ad (R 0) (Ad (R 1) (R 10)));
  (1%nat, Xo (RLo (R 1) 39) (R 0));
  (3%nat, Ad (R 3) (R 13));
  (2%nat, Ad (R 2) (Ad (R 3) (R 12)));
  (3%nat, Xo (RLo (R 3) 30) (R 2));
  (5%nat, Ad (R 5) (Ad (R 15) (R 19)));
  (4%nat, Ad (R 4) (Ad (R 5) (R 14)));
  (5%nat, Xo (RLo (R 5) 34) (R 4));
  (7%nat, Ad (R 7) (Ad (R 8) (K 0xB)));
  (6%nat, Ad (R 6) (Ad (Ad (R 7) (R 16)) (R 17)));
  (7%nat, Xo (RLo (R 7) 24) (R 6));
  (2%nat, Ad (R 2) (R 1));
  (1%nat, Xo (RLo (R 1) 13) (R 2));
  (4%nat, Ad (R 4) (R 7));
  (7%nat, Xo (RLo (R 7) 50) (R 4));
  (6%nat, Ad (R 6) (R 5));
  (5%nat, Xo (RLo (R 5) 10) (R 6));
  (0%nat, Ad (R 0) (R 3));
  (3%nat, Xo (RLo (R 3) 17) (R 0));
  (4%nat, Ad (R 4) (R 1));
  (1%nat, Xo (RLo (R 1) 25) (R 4));
  (6%nat, Ad (R 6) (R 3));
  (3%nat, Xo (RLo (R 3) 29) (R 6));
  (0%nat, Ad (R 0) (R 5));
  (5%nat, Xo (RLo (R 5) 39) (R 0));
  (2%nat, Ad (R 2) (R 7));
  (7%nat, Xo (RLo (R 7) 43) (R 2));
  (6%nat, Ad (R 6) (R 1));
  (1%nat, Xo (RLo (R 1) 8) (R 6));
  (0%nat, Ad (R 0) (R 7));
  (7%nat, Xo (RLo (R 7) 35) (R 0));
  (2%nat, Ad (R 2) (R 5));
  (5%nat, Xo (RLo (R 5) 56) (R 2));
  (4%nat, Ad (R 4) (R 3));
  (3%nat, Xo (RLo (R 3) 22) (R 4));
  (1%nat, Ad (R 1) (R 12));
  (0%nat, Ad (R 0) (Ad (R 1) (R 11)));
  (1%nat, Xo (RLo (R 1) 46) (R 0));
  (3%nat, Ad (R 3) (R 14));
  (2%nat, Ad (R 2) (Ad (R 3) (R 13)));
  (3%nat, Xo (RLo (R 3) 36) (R 2));
  (5%nat, Ad (R 5) (Ad (R 16) (R 17)));
  (4%nat, Ad (R 4) (Ad (R 5) (R 15)));
  (5%nat, Xo (RLo (R 5) 19) (R 4));
  (7%nat, Ad (R 7) (Ad (R 9) (K 0xC)));
  (6%nat, Ad (R 6) (Ad (Ad (R 7) (R 8)) (R 18)));
  (7%nat, Xo (RLo (R 7) 37) (R 6));
  (2%nat, Ad (R 2) (R 1));
  (1%nat, Xo (RLo (R 1) 33) (R 2));
  (4%nat, Ad (R 4) (R 7));
  (7%nat, Xo (RLo (R 7) 27) (R 4));
  (6%nat, Ad (R 6) (R 5));
  (5%nat, Xo (RLo (R 5) 14) (R 6));
  (0%nat, Ad (R 0) (R 3));
  (3%nat, Xo (RLo (R 3) 42) (R 0));
  (4%nat, Ad (R 4) (R 1));
  (1%nat, Xo (RLo (R 1) 17) (R 4));
  (6%nat, Ad (R 6) (R 3));
  (3%nat, Xo (RLo (R 3) 49) (R 6));
  (0%nat, Ad (R 0) (R 5));
  (5%nat, Xo (RLo (R 5) 36) (R 0));
  (2%nat, Ad (R 2) (R 7));
  (7%nat, Xo (RLo (R 7) 39) (R 2));
  (6%nat, Ad (R 6) (R 1));
  (1%nat, Xo (RLo (R 1) 44) (R 6));
  (0%nat, Ad (R 0) (R 7));
  (7%nat, Xo (RLo (R 7) 9) (R 0));
  (2%nat, Ad (R 2) (R 5));
  (5%nat, Xo (RLo (R 5) 54) (R 2));
  (4%nat, Ad (R 4) (R 3));
  (3%nat, Xo (RLo (R 3) 56) (R 4));
  (1%nat, Ad (R 1) (R 13));
  (0%nat, Ad (R 0) (Ad (R 1) (R 12)));
  (1%nat, Xo (RLo (R 1) 39) (R 0));
  (3%nat, Ad (R 3) (R 15));
  (2%nat, Ad (R 2) (Ad (R 3) (R 14)));
  (3%nat, Xo (RLo (R 3) 30) (R 2));
  (5%nat, Ad (R 5) (Ad (R 8) (R 18)));
  (4%nat, Ad (R 4) (Ad (R 5) (R 16)));
  (5%nat, Xo (RLo (R 5) 34) (R 4));
  (7%nat, Ad (R 7) (Ad (R 10) (K 0xD)));
  (6%nat, Ad (R 6) (Ad (Ad (R 7) (R 9)) (R 19)));
  (7%nat, Xo (RLo (R 7) 24) (R 6));
  (2%nat, Ad (R 2) (R 1));
  (1%nat, Xo (RLo (R 1) 13) (R 2));
  (4%nat, Ad (R 4) (R 7));
  (7%nat, Xo (RLo (R 7) 50) (R 4));
  (6%nat, Ad (R 6) (R 5));
  (5%nat, Xo (RLo (R 5) 10) (R 6));
  (0%nat, Ad (R 0) (R 3));
  (3%nat, Xo (RLo (R 3) 17) (R 0));
  (4%nat, Ad (R 4) (R 1));
  (1%nat, Xo (RLo (R 1) 25) (R 4));
  (6%nat, Ad (R 6) (R 3));
  (3%nat, Xo (RLo (R 3) 29) (R 6));
  (0%nat, Ad (R 0) (R 5));
  (5%nat, Xo (RLo (R 5) 39) (R 0));
  (2%nat, Ad (R 2) (R 7));
  (7%nat, Xo (RLo (R 7) 43) (R 2));
  (6%nat, Ad (R 6) (R 1));
  (1%nat, Xo (RLo (R 1) 8) (R 6));
  (0%nat, Ad (R 0) (R 7));
  (7%nat, Xo (RLo (R 7) 35) (R 0));
  (2%nat, Ad (R 2) (R 5));
  (5%nat, Xo (RLo (R 5) 56) (R 2));
  (4%nat, Ad (R 4) (R 3));
  (3%nat, Xo (RLo (R 3) 22) (R 4));
  (1%nat, Ad (R 1) (R 14));
  (0%nat, Ad (R 0) (Ad (R 1) (R 13)));
  (1%nat, Xo (RLo (R 1) 46) (R 0));
  (3%nat, Ad (R 3) (R 16));
  (2%nat, Ad (R 2) (Ad (R 3) (R 15)));
  (3%nat, Xo (RLo (R 3) 36) (R 2));
  (5%nat, Ad (R 5) (Ad (R 9) (R 19)));
  (4%nat, Ad (R 4) (Ad (R 5) (R 8)));
  (5%nat, Xo (RLo (R 5) 19) (R 4));
  (7%nat, Ad (R 7) (Ad (R 11) (K 0xE)));
  (6%nat, Ad (R 6) (Ad (Ad (R 7) (R 10)) (R 17)));
  (7%nat, Xo (RLo (R 7) 37) (R 6));
  (2%nat, Ad (R 2) (R 1));
  (1%nat, Xo (RLo (R 1) 33) (R 2));
  (4%nat, Ad (R 4) (R 7));
  (7%nat, Xo (RLo (R 7) 27) (R 4));
  (6%nat, Ad (R 6) (R 5));
  (5%nat, Xo (RLo (R 5) 14) (R 6));
  (0%nat, Ad (R 0) (R 3));
  (3%nat, Xo (RLo (R 3) 42) (R 0));
  (4%nat, Ad (R 4) (R 1));
  (1%nat, Xo (RLo (R 1) 17) (R 4));
  (6%nat, Ad (R 6) (R 3));
  (3%nat, Xo (RLo (R 3) 49) (R 6));
  (0%nat, Ad (R 0) (R 5));
  (5%nat, Xo (RLo (R 5) 36) (R 0));
  (2%nat, Ad (R 2) (R 7));
  (7%nat, Xo (RLo (R 7) 39) (R 2));
  (6%nat, Ad (R 6) (R 1));
  (1%nat, Xo (RLo (R 1) 44) (R 6));
  (0%nat, Ad (R 0) (R 7));
  (7%nat, Xo (RLo (R 7) 9) (R 0));
  (2%nat, Ad (R 2) (R 5));
  (5%nat, Xo (RLo (R 5) 54) (R 2));
  (4%nat, Ad (R 4) (R 3));
  (3%nat, Xo (RLo (R 3) 56) (R 4));
  (1%nat, Ad (R 1) (R 15));
  (0%nat, Ad (R 0) (Ad (R 1) (R 14)));
  (1%nat, Xo (RLo (R 1) 39) (R 0));
  (3%nat, Ad (R 3) (R 8));
  (2%nat, Ad (R 2) (Ad (R 3) (R 16)));
  (3%nat, Xo (RLo (R 3) 30) (R 2));
  (5%nat, Ad (R 5) (Ad (R 10) (R 17)));
  (4%nat, Ad (R 4) (Ad (R 5) (R 9)));
  (5%nat, Xo (RLo (R 5) 34) (R 4));
  (7%nat, Ad (R 7) (Ad (R 12) (K 0xF)));
  (6%nat, Ad (R 6) (Ad (Ad (R 7) (R 11)) (R 18)));
  (7%nat, Xo (RLo (R 7) 24) (R 6));
  (2%nat, Ad (R 2) (R 1));
  (1%nat, Xo (RLo (R 1) 13) (R 2));
  (4%nat, Ad (R 4) (R 7));
  (7%nat, Xo (RLo (R 7) 50) (R 4));
  (6%nat, Ad (R 6) (R 5));
  (5%nat, Xo (RLo (R 5) 10) (R 6));
  (0%nat, Ad (R 0) (R 3));
  (3%nat, Xo (RLo (R 3) 17) (R 0));
  (4%nat, Ad (R 4) (R 1));
  (1%nat, Xo (RLo (R 1) 25) (R 4));
  (6%nat, Ad (R 6) (R 3));
  (3%nat, Xo (RLo (R 3) 29) (R 6));
  (0%nat, Ad (R 0) (R 5));
  (5%nat, Xo (RLo (R 5) 39) (R 0));
  (2%nat, Ad (R 2) (R 7));
  (7%nat, Xo (RLo (R 7) 43) (R 2));
  (6%nat, Ad (R 6) (R 1));
  (1%nat, Xo (RLo (R 1) 8) (R 6));
  (0%nat, Ad (R 0) (R 7));
  (7%nat, Xo (RLo (R 7) 35) (R 0));
  (2%nat, Ad (R 2) (R 5));
  (5%nat, Xo (RLo (R 5) 56) (R 2));
  (4%nat, Ad (R 4) (R 3));
  (3%nat, Xo (RLo (R 3) 22) (R 4));
  (1%nat, Ad (R 1) (R 16));
  (0%nat, Ad (R 0) (Ad (R 1) (R 15)));
  (1%nat, Xo (RLo (R 1) 46) (R 0));
  (3%nat, Ad (R 3) (R 9));
  (2%nat, Ad (R 2) (Ad (R 3) (R 8)));
  (3%nat, Xo (RLo (R 3) 36) (R 2));
  (5%nat, Ad (R 5) (Ad (R 11) (R 18)));
  (4%nat, Ad (R 4) (Ad (R 5) (R 10)));
  (5%nat, Xo (RLo (R 5) 19) (R 4));
  (7%nat, Ad (R 7) (Ad (R 13) (K 0x10)));
  (6%nat, Ad (R 6) (Ad (Ad (R 7) (R 12)) (R 19)));
  (7%nat, Xo (RLo (R 7) 37) (R 6));
  (2%nat, Ad (R 2) (R 1));
  (1%nat, Xo (RLo (R 1) 33) (R 2));
  (4%nat, Ad (R 4) (R 7));
  (7%nat, Xo (RLo (R 7) 27) (R 4));
  (6%nat, Ad (R 6) (R 5));
  (5%nat, Xo (RLo (R 5) 14) (R 6));
  (0%nat, Ad (R 0) (R 3));
  (3%nat, Xo (RLo (R 3) 42) (R 0));
  (4%nat, Ad (R 4) (R 1));
  (1%nat, Xo (RLo (R 1) 17) (R 4));
  (6%nat, Ad (R 6) (R 3));
  (3%nat, Xo (RLo (R 3) 49) (R 6));
  (0%nat, Ad (R 0) (R 5));
  (5%nat, Xo (RLo (R 5) 36) (R 0));
  (2%nat, Ad (R 2) (R 7));
  (7%nat, Xo (RLo (R 7) 39) (R 2));
  (6%nat, Ad (R 6) (R 1));
  (1%nat, Xo (RLo (R 1) 44) (R 6));
  (0%nat, Ad (R 0) (R 7));
  (7%nat, Xo (RLo (R 7) 9) (R 0));
  (2%nat, Ad (R 2) (R 5));
  (5%nat, Xo (RLo (R 5) 54) (R 2));
  (4%nat, Ad (R 4) (R 3));
  (3%nat, Xo (RLo (R 3) 56) (R 4));
  (1%nat, Ad (R 1) (R 8));
  (0%nat, Ad (R 0) (Ad (R 1) (R 16)));
  (1%nat, Xo (RLo (R 1) 39) (R 0));
  (3%nat, Ad (R 3) (R 10));
  (2%nat, Ad (R 2) (Ad (R 3) (R 9)));
  (3%nat, Xo (RLo (R 3) 30) (R 2));
  (5%nat, Ad (R 5) (Ad (R 12) (R 19)));
  (4%nat, Ad (R 4) (Ad (R 5) (R 11)));
  (5%nat, Xo (RLo (R 5) 34) (R 4));
  (7%nat, Ad (R 7) (Ad (R 14) (K 0x11)));
  (6%nat, Ad (R 6) (Ad (Ad (R 7) (R 13)) (R 17)));
  (7%nat, Xo (RLo (R 7) 24) (R 6));
  (2%nat, Ad (R 2) (R 1));
  (1%nat, Xo (RLo (R 1) 13) (R 2));
  (4%nat, Ad (R 4) (R 7));
  (7%nat, Xo (RLo (R 7) 50) (R 4));
  (6%nat, Ad (R 6) (R 5));
  (5%nat, Xo (RLo (R 5) 10) (R 6));
  (0%nat, Ad (R 0) (R 3));
  (3%nat, Xo (RLo (R 3) 17) (R 0));
  (4%nat, Ad (R 4) (R 1));
  (1%nat, Xo (RLo (R 1) 25) (R 4));
  (6%nat, Ad (R 6) (R 3));
  (3%nat, Xo (RLo (R 3) 29) (R 6));
  (0%nat, Ad (R 0) (R 5));
  (5%nat, Xo (RLo (R 5) 39) (R 0));
  (2%nat, Ad (R 2) (R 7));
  (7%nat, Xo (RLo (R 7) 43) (R 2));
  (6%nat, Ad (R 6) (R 1));
  (1%nat, Xo (RLo (R 1) 8) (R 6));
  (0%nat, Ad (R 0) (R 7));
  (7%nat, Xo (RLo (R 7) 35) (R 0));
  (2%nat, Ad (R 2) (R 5));
  (5%nat, Xo (RLo (R 5) 56) (R 2));
  (4%nat, Ad (R 4) (R 3));
  (3%nat, Xo (RLo (R 3) 22) (R 4));
  (30%nat, Ad (R 0) (R 8));
  (31%nat, Ad (R 1) (R 9));
  (32%nat, Ad (R 2) (R 10));
  (33%nat, Ad (R 3) (R 11));
  (34%nat, Ad (R 4) (R 12));
  (35%nat, Ad (Ad (R 5) (R 13)) (R 17));
  (36%nat, Ad (Ad (R 6) (R 14)) (R 18));
  (37%nat, Ad (Ad (R 7) (R 15)) (K 0x12))
].

(** CEX/Skein.h:3227-4771, body of PemuteR80P1024U: generated by tools/straight.py, one entry per statement.
    Registers: 0=B0, 1=B1, 2=B2, 3=B3, 4=B4, 5=B5, 6=B6, 7=B7, 8=B8, 9=B9, 10=B10, 11=B11, 12=B12, 13=B13, 14=B14, 15=B15, 16=K0, 17=K1, 18=K2, 19=K3, 20=K4, 21=K5, 22=K6, 23=K7, 24=K8, 25=K9, 26=K10, 27=K11, 28=K12, 29=K13, 30=K14, 31=K15, 32=K16, 33=T0, 34=T1, 35=T2, 36=Input[0], 37=Input[1], 38=Input[2], 39=Input[3], 40=Input[4], 41=Input[5], 42=Input[6], 43=Input[7], 44=Input[8], 45=Input[9], 46=Input[10], 47=Input[11], 48=Input[12], 49=Input[13], 50=Input[14], 51=Input[15], 52=Tweak[0], 53=Tweak[1], 54=State[0], 55=State[1], 56=State[2], 57=State[3], 58=State[4], 59=State[5], 60=State[6], 61=State[7], 62=State[8], 63=State[9], 64=State[10], 65=State[11], 66=State[12], 67=State[13], 68=State[14], 69=State[15]. *)
Definition skein1024_U : prog := [
  (0%nat, R 36);
  (1%nat, R 37);
  (2%nat, R 38);
  (3%nat, R 39);
  (4%nat, R 40);
  (5%nat, R 41);
  (6%nat, R 42);
  (7%nat, R 43);
  (8%nat, R 44);
  (9%nat, R 45);
  (10%nat, R 46);
  (11%nat, R 47);
  (12%nat, R 48);
  (13%nat, R 49);
  (14%nat, R 50);
  (15%nat, R 51);
  (16%nat, R 54);
  (17%nat, R 55);
  (18%nat, R 56);
  (19%nat, R 57);
  (20%nat, R 58);
  (21%nat, R 59);
  (22%nat, R 60);
  (23%nat, R 61);
  (24%nat, R 62);
  (25%nat, R 63);
  (26%nat, R 64);
  (27%nat, R 65);
  (28%nat, R 66);
  (29%nat, R 67);
  (30%nat, R 68);
  (31%nat, R 69);
  (32%nat, Xo (Xo (Xo (Xo (Xo (Xo (Xo (Xo (Xo (Xo (Xo (Xo (Xo (Xo (Xo (Xo (R 16) (R 17)) (R 18)) (R 19)) (R 20)) (R 21)) (R 22)) (R 23)) (R 24)) (R 25)) (R 26)) (R 27)) (R 28)) (R 29)) (R 30)) (R 31)) (K 0x1BD11BDAA9FC1A22));
  (33%nat, R 52);
  (34%nat, R 53);
  (35%nat, Xo (R 52) (R 53));
  (1%nat, Ad (R 1) (R 17));
  (0%nat, Ad (R 0) (Ad (R 1) (R 16)));
  (1%nat, Xo (RLo (R 1) 24) (R 0));
  (3%nat, Ad (R 3) (R 19));
  (2%nat, Ad (R 2) (Ad (R 3) (R 18)));
  (3%nat, Xo (RLo (R 3) 13) (R 2));
  (5%nat, Ad (R 5) (R 21));
  (4%nat, Ad (R 4) (Ad (R 5) (R 20)));
  (5%nat, Xo (RLo (R 5) 8) (R 4));
  (7%nat, Ad (R 7) (R 23));
  (6%nat, Ad (R 6) (Ad (R 7) (R 22)));
  (7%nat, Xo (RLo (R 7) 47) (R 6));
  (9%nat, Ad (R 9) (R 25));
  (8%nat, Ad (R 8) (Ad (R 9) (R 24)));
  (9%nat, Xo (RLo (R 9) 8) (R 8));
  (11%nat, Ad (R 11) (R 27));
  (10%nat, Ad (R 10) (Ad (R 11) (R 26)));
  (11%nat, Xo (RLo (R 11) 17) (R 10));
  (13%nat, Ad (R 13) (Ad (R 29) (R 33)));
  (12%nat, Ad (R 12) (Ad (R 13) (R 28)));
  (13%nat, Xo (RLo (R 13) 22) (R 12));
  (15%nat, Ad (R 15) (R 31));
  (14%nat, Ad (R 14) (Ad (Ad (R 15) (R 30)) (R 34)));
  (15%nat, Xo (RLo (R 15) 37) (R 14));
  (0%nat, Ad (R 0) (R 9));
  (9%nat, Xo (RLo (R 9) 38) (R 0));
  (2%nat, Ad (R 2) (R 13));
  (13%nat, Xo (RLo (R 13) 19) (R 2));
  (6%nat, Ad (R 6) (R 11));
  (11%nat, Xo (RLo (R 11) 10) (R 6));
  (4%nat, Ad (R 4) (R 15));
  (15%nat, Xo (RLo (R 15) 55) (R 4));
  (10%nat, Ad (R 10) (R 7));
  (7%nat, Xo (RLo (R 7) 49) (R 10));
  (12%nat, Ad (R 12) (R 3));
  (3%nat, Xo (RLo (R 3) 18) (R 12));
  (14%nat, Ad (R 14) (R 5));
  (5%nat, Xo (RLo (R 5) 23) (R 14));
  (8%nat, Ad (R 8) (R 1));
  (1%nat, Xo (RLo (R 1) 52) (R 8));
  (0%nat, Ad (R 0) (R 7));
  (7%nat, Xo (RLo (R 7) 33) (R 0));
  (2%nat, Ad (R 2) (R 5));
  (5%nat, Xo (RLo (R 5) 4) (R 2));
  (4%nat, Ad (R 4) (R 3));
  (3%nat, Xo (RLo (R 3) 51) (R 4));
  (6%nat, Ad (R 6) (R 1));
  (1%nat, Xo (RLo (R 1) 13) (R 6));
  (12%nat, Ad (R 12) (R 15));
  (15%nat, Xo (RLo (R 15) 34) (R 12));
  (14%nat, Ad (R 14) (R 13));
  (13%nat, Xo (RLo (R 13) 41) (R 14));
  (8%nat, Ad (R 8) (R 11));
  (11%nat, Xo (RLo (R 11) 59) (R 8));
  (10%nat, Ad (R 10) (R 9));
  (9%nat, Xo (RLo (R 9) 17) (R 10));
  (0%nat, Ad (R 0) (R 15));
  (15%nat, Xo (RLo (R 15) 5) (R 0));
  (2%nat, Ad (R 2) (R 11));
  (11%nat, Xo (RLo (R 11) 20) (R 2));
  (6%nat, Ad (R 6) (R 13));
  (13%nat, Xo (RLo (R 13) 48) (R 6));
  (4%nat, Ad (R 4) (R 9));
  (9%nat, Xo (RLo (R 9) 41) (R 4));
  (14%nat, Ad (R 14) (R 1));
  (1%nat, Xo (RLo (R 1) 47) (R 14));
  (8%nat, Ad (R 8) (R 5));
  (5%nat, Xo (RLo (R 5) 28) (R 8));
  (10%nat, Ad (R 10) (R 3));
  (3%nat, Xo (RLo (R 3) 16) (R 10));
  (12%nat, Ad (R 12) (R 7));
  (7%nat, Xo (RLo (R 7) 25) (R 12));
  (1%nat, Ad (R 1) (R 18));
  (0%nat, Ad (R 0) (Ad (R 1) (R 17)));
  (1%nat, Xo (RLo (R 1) 41) (R 0));
  (3%nat, Ad (R 3) (R 20));
  (2%nat, Ad (R 2) (Ad (R 3) (R 19)));
  (3%nat, Xo (RLo (R 3) 9) (R 2));
  (5%nat, Ad (R 5) (R 22));
  (4%nat, Ad (R 4) (Ad (R 5) (R 21)));
  (5%nat, Xo (RLo (R 5) 37) (R 4));
  (7%nat, Ad (R 7) (R 24));
  (6%nat, Ad (R 6) (Ad (R 7) (R 23)));
  (7%nat, Xo (RLo (R 7) 31) (R 6));
  (9%nat, Ad (R 9) (R 26));
  (8%nat, Ad (R 8) (Ad (R 9) (R 25)));
  (9%nat, Xo (RLo (R 9) 12) (R 8));
  (11%nat, Ad (R 11) (R 28));
  (10%nat, Ad (R 10) (Ad (R 11) (R 27)));
  (11%nat, Xo (RLo (R 11) 47) (R 10));
  (13%nat, Ad (R 13) (Ad (R 30) (R 34)));
  (12%nat, Ad (R 12) (Ad (R 13) (R 29)));
  (13%nat, Xo (RLo (R 13) 44) (R 12));
  (15%nat, Ad (R 15) (Ad (R 32) (K 0x1)));
  (14%nat, Ad (R 14) (Ad (Ad (R 15) (R 31)) (R 35)));
  (15%nat, Xo (RLo (R 15) 30) (R 14));
  (0%nat, Ad (R 0) (R 9));
  (9%nat, Xo (RLo (R 9) 16) (R 0));
  (2%nat, Ad (R 2) (R 13));
  (13%nat, Xo (RLo (R 13) 34) (R 2));
  (6%nat, Ad (R 6) (R 11));
  (11%nat, Xo (RLo (R 11) 56) (R 6));
  (4%nat, Ad (R 4) (R 15));
  (15%nat, Xo (RLo (R 15) 51) (R 4));
  (10%nat, Ad (R 10) (R 7));
  (7%nat, Xo (RLo (R 7) 4) (R 10));
  (12%nat, Ad (R 12) (R 3));
  (3%nat, Xo (RLo (R 3) 53) (R 12));
  (14%nat, Ad (R 14) (R 5));
  (5%nat, Xo (RLo (R 5) 42) (R 14));
  (8%nat, Ad (R 8) (R 1));
  (1%nat, Xo (RLo (R 1) 41) (R 8));
  (0%nat, Ad (R 0) (R 7));
  (7%nat, Xo (RLo (R 7) 31) (R 0));
  (2%nat, Ad (R 2) (R 5));
  (5%nat, Xo (RLo (R 5) 44) (R 2));
  (4%nat, Ad (R 4) (R 3));
  (3%nat, Xo (RLo (R 3) 47) (R 4));
  (6%nat, Ad (R 6) (R 1));
  (1%nat, Xo (RLo (R 1) 46) (R 6));
  (12%nat, Ad (R 12) (R 15));
  (15%nat, Xo (RLo (R 15) 19) (R 12));
  (14%nat, Ad (R 14) (R 13));
  (13%nat, Xo (RLo (R 13) 42) (R 14));
  (8%nat, Ad (R 8) (R 11));
  (11%nat, Xo (RLo (R 11) 44) (R 8));
  (10%nat, Ad (R 10) (R 9));
  (9%nat, Xo (RLo (R 9) 25) (R 10));
  (0%nat, Ad (R 0) (R 15));
  (15%nat, Xo (RLo (R 15) 9) (R 0));
  (2%nat, Ad (R 2) (R 11));
  (11%nat, Xo (RLo (R 11) 48) (R 2));
  (6%nat, Ad (R 6) (R 13));
  (13%nat, Xo (RLo (R 13) 35) (R 6));
  (4%nat, Ad (R 4) (R 9));
  (9%nat, Xo (RLo (R 9) 52) (R 4));
  (14%nat, Ad (R 14) (R 1));
  (1%nat, Xo (RLo (R 1) 23) (R 14));
  (8%nat, Ad (R 8) (R 5));
  (5%nat, Xo (RLo (R 5) 31) (R 8));
  (10%nat, Ad (R 10) (R 3));
  (3%nat, Xo (RLo (R 3) 37) (R 10));
  (12%nat, Ad (R 12) (R 7));
  (7%nat, Xo (RLo (R 7) 20) (R 12));
  (1%nat, Ad (R 1) (R 19));
  (0%nat, Ad (R 0) (Ad (R 1) (R 18)));
  (1%nat, Xo (RLo (R 1) 24) (R 0));
  (3%nat, Ad (R 3) (R 21));
  (2%nat, Ad (R 2) (Ad (R 3) (R 20)));
  (3%nat, Xo (RLo (R 3) 13) (R 2));
  (5%nat, Ad (R 5) (R 23));
  (4%nat, Ad (R 4) (Ad (R 5) (R 22)));
  (5%nat, Xo (RLo (R 5) 8) (R 4));
  (7%nat, Ad (R 7) (R 25));
  (6%nat, Ad (R 6) (Ad (R 7) (R 24)));
  (7%nat, Xo (RLo (R 7) 47) (R 6));
  (9%nat, Ad (R 9) (R 27));
  (8%nat, Ad (R 8) (Ad (R 9) (R 26)));
  (9%nat, Xo (RLo (R 9) 8) (R 8));
  (11%nat, Ad (R 11) (R 29));
  (10%nat, Ad (R 10) (Ad (R 11) (R 28)));
  (11%nat, Xo (RLo (R 11) 17) (R 10));
  (13%nat, Ad (R 13) (Ad (R 31) (R 35)));
  (12%nat, Ad (R 12) (Ad (R 13) (R 30)));
  (13%nat, Xo (RLo (R 13) 22) (R 12));
  (15%nat, Ad (R 15) (Ad (R 16) (K 0x2)));
  (14%nat, Ad (R 14) (Ad (Ad (R 15) (R 32)) (R 33)));
  (15%nat, Xo (RLo (R 15) 37) (R 14));
  (0%nat, Ad (R 0) (R 9));
  (9%nat, Xo (RLo (R 9) 38) (R 0));
  (2%nat, Ad (R 2) (R 13));
  (13%nat, Xo (RLo (R 13) 19) (R 2));
  (6%nat, Ad (R 6) (R 11));
  (11%nat, Xo (RLo (R 11) 10) (R 6));
  (4%nat, Ad (R 4) (R 15));
  (15%nat, Xo (RLo (R 15) 55) (R 4));
  (10%nat, Ad (R 10) (R 7));
  (7%nat, Xo (RLo (R 7) 49) (R 10));
  (12%nat, Ad (R 12) (R 3));
  (3%nat, Xo (RLo (R 3) 18) (R 12));
  (14%nat, Ad (R 14) (R 5));
  (5%nat, Xo (RLo (R 5) 23) (R 14));
  (8%nat, Ad (R 8) (R 1));
  (1%nat, Xo (RLo (R 1) 52) (R 8));
  (0%nat, Ad (R 0) (R 7));
  (7%nat, Xo (RLo (R 7) 33) (R 0));
  (2%nat, Ad (R 2) (R 5));
  (5%nat, Xo (RLo (R 5) 4) (R 2));
  (4%nat, Ad (R 4) (R 3));
  (3%nat, Xo (RLo (R 3) 51) (R 4));
  (6%nat, Ad (R 6) (R 1));
  (1%nat, Xo (RLo (R 1) 13) (R 6));
  (12%nat, Ad (R 12) (R 15));
  (15%nat, Xo (RLo (R 15) 34) (R 12));
  (14%nat, Ad (R 14) (R 13));
  (13%nat, Xo (RLo (R 13) 41) (R 14));
  (8%nat, Ad (R 8) (R 11));
  (11%nat, Xo (RLo (R 11) 59) (R 8));
  (10%nat, Ad (R 10) (R 9));
  (9%nat, Xo (RLo (R 9) 17) (R 10));
  (0%nat, Ad (R 0) (R 15));
  (15%nat, Xo (RLo (R 15) 5) (R 0));
  (2%nat, Ad (R 2) (R 11));
  (11%nat, Xo (RLo (R 11) 20) (R 2));
  (6%nat, Ad (R 6) (R 13));
  (13%nat, Xo (RLo (R 13) 48) (R 6));
  (4%nat, Ad (R 4) (R 9));
  (9%nat, Xo (RLo (R 9) 41) (R 4));
  (14%nat, Ad (R 14) (R 1));
  (1%nat, Xo (RLo (R 1) 47) (R 14));
  (8%nat, Ad (R 8) (R 5));
  (5%nat, Xo (RLo (R 5) 28) (R 8));
  (10%nat, Ad (R 10) (R 3));
  (3%nat, Xo (RLo (R 3) 16) (R 10));
  (12%nat, Ad (R 12) (R 7));
  (7%nat, Xo (RLo (R 7) 25) (R 12));
  (1%nat, Ad (R 1) (R 20));
  (0%nat, Ad (R 0) (Ad (R 1) (R 19)));
  (1%nat, Xo (RLo (R 1) 41) (R 0));
  (3%nat, Ad (R 3) (R 22));
  (2%nat, Ad (R 2) (Ad (R 3) (R 21)));
  (3%nat, Xo (RLo (R 3) 9) (R 2));
  (5%nat, Ad (R 5) (R 24));
  (4%nat, Ad (R 4) (Ad (R 5) (R 23)));
  (5%nat, Xo (RLo (R 5) 37) (R 4));
  (7%nat, Ad (R 7) (R 26));
  (6%nat, Ad (R 6) (Ad (R 7) (R 25)));
  (7%nat, Xo (RLo (R 7) 31) (R 6));
  (9%nat, Ad (R 9) (R 28));
  (8%nat, Ad (R 8) (Ad (R 9) (R 27)));
  (9%nat, Xo (RLo (R 9) 12) (R 8));
  (11%nat, Ad (R 11) (R 30));
  (10%nat, Ad (R 10) (Ad (R 11) (R 29)));
  (11%nat, Xo (RLo (R 11) 47) (R 10));
  (13%nat, Ad (R 13) (Ad (R 32) (R 33)));
  (12%nat, Ad (R 12) (Ad (R 13) (R 31)));
  (13%nat, Xo (RLo (R 13) 44) (R 12));
  (15%nat, Ad (R 15) (Ad (R 17) (K 0x3)));
  (14%nat, Ad (R 14) (Ad (Ad (R 15) (R 16)) (R 34)));
  (15%nat, Xo (RLo (R 15) 30) (R 14));
  (0%nat, Ad (R 0) (R 9));
  (9%nat, Xo (RLo (R 9) 16) (R 0));
  (2%nat, Ad (R 2) (R 13));
  (13%nat, Xo (RLo (R 13) 34) (R 2));
  (6%nat, Ad (R 6) (R 11));
  (11%nat, Xo (RLo (R 11) 56) (R 6));
  (4%nat, Ad (R 4) (R 15));
  (15%nat, Xo (RLo (R 15) 51) (R 4));
  (10%nat, Ad (R 10) (R 7));
  (7%nat, Xo (RLo (R 7) 4) (R 10));
  (12%nat, Ad (R 12) (R 3));
  (3%nat, Xo (RLo (R 3) 53) (R 12));
  (14%nat, Ad (R 14) (R 5));
  (5%nat, Xo (RLo (R 5) 42) (R 14));
  (8%nat, Ad (R 8) (R 1));
  (1%nat, Xo (RLo (R 1) 41) (R 8));
  (0%nat, Ad (R 0) (R 7));
  (7%nat, Xo (RLo (R 7) 31) (R 0));
  (2%nat, Ad (R 2) (R 5));
  (5%nat, Xo (RLo (R 5) 44) (R 2));
  (4%nat, Ad (R 4) (R 3));
  (3%nat, Xo (RLo (R 3) 47) (R 4));
  (6%nat, Ad (R 6) (R 1));
  (1%nat, Xo (RLo (R 1) 46) (R 6));
  (12%nat, Ad (R 12) (R 15));
  (15%nat, Xo (RLo (R 15) 19) (R 12));
  (14%nat, Ad (R 14) (R 13));
  (13%nat, Xo (RLo (R 13) 42) (R 14));
  (8%nat, Ad (R 8) (R 11));
  (11%nat, Xo (RLo (R 11) 44) (R 8));
  (10%nat, Ad (R 10) (R 9));
  (9%nat, Xo (RLo (R 9) 25) (R 10));
  (0%nat, Ad (R 0) (R 15));
  (15%nat, Xo (RLo (R 15) 9) (R 0));
  (2%nat, Ad (R 2) (R 11));
  (11%nat, Xo (RLo (R 11) 48) (R 2));
  (6%nat, Ad (R 6) (R 13));
  (13%nat, Xo (RLo (R 13) 35) (R 6));
  (4%nat, Ad (R 4) (R 9));
  (9%nat, Xo (RLo (R 9) 52) (R 4));
  (14%nat, Ad (R 14) (R 1));
  (1%nat, Xo (RLo (R 1) 23) (R 14));
  (8%nat, Ad (R 8) (R 5));
  (5%nat, Xo (RLo (R 5) 31) (R 8));
  (10%nat, Ad (R 10) (R 3));
  (3%nat, Xo (RLo (R 3) 37) (R 10));
  (12%nat, Ad (R 12) (R 7));
  (7%nat, Xo (RLo (R 7) 20) (R 12));
  (1%nat, Ad (R 1) (R 21));
  (0%nat, Ad (R 0) (Ad (R 1) (R 20)));
  (1%nat, Xo (RLo (R 1) 24) (R 0));
  (3%nat, Ad (R 3) (R 23));
  (2%nat, Ad (R 2) (Ad (R 3) (R 22)));
  (3%nat, Xo (RLo (R 3) 13) (R 2));
  (5%nat, Ad (R 5) (R 25));
  (4%nat, Ad (R 4) (Ad (R 5) (R 24)));
  (5%nat, Xo (RLo (R 5) 8) (R 4));
  (7%nat, Ad (R 7) (R 27));
  (6%nat, Ad (R 6) (Ad (R 7) (R 26)));
  (7%nat, Xo (RLo (R 7) 47) (R 6));
  (9%nat, Ad (R 9) (R 29));
  (8%nat, Ad (R 8) (Ad (R 9) (R 28)));
  (9%nat, Xo (RLo (R 9) 8) (R 8));
  (11%nat, Ad (R 11) (R 31));
  (10%nat, Ad (R 10) (Ad (R 11) (R 30)));
  (11%nat, Xo (RLo (R 11) 17) (R 10));
  (13%nat, Ad (R 13) (Ad (R 16) (R 34)));
  (12%nat, Ad (R 12) (Ad (R 13) (R 32)));
  (13%nat, Xo (RLo (R 13) 22) (R 12));
  (15%nat, Ad (R 15) (Ad (R 18) (K 0x4)));
  (14%nat, Ad (R 14) (Ad (Ad (R 15) (R 17)) (R 35)));
  (15%nat, Xo (RLo (R 15) 37) (R 14));
  (0%nat, Ad (R 0) (R 9));
  (9%nat, Xo (RLo (R 9) 38) (R 0));
  (2%nat, Ad (R 2) (R 13));
  (13%nat, Xo (RLo (R 13) 19) (R 2));
  (6%nat, Ad (R 6) (R 11));
  (11%nat, Xo (RLo (R 11) 10) (R 6));
  (4%nat, Ad (R 4) (R 15));
  (15%nat, Xo (RLo (R 15) 55) (R 4));
  (10%nat, Ad (R 10) (R 7));
  (7%nat, Xo (RLo (R 7) 49) (R 10));
  (12%nat, Ad (R 12) (R 3));
  (3%nat, Xo (RLo (R 3) 18) (R 12));
  (14%nat, Ad (R 14) (R 5));
  (5%nat, Xo (RLo (R 5) 23) (R 14));
  (8%nat, Ad (R 8) (R 1));
  (1%nat, Xo (RLo (R 1) 52) (R 8));
  (0%nat, Ad (R 0) (R 7));
  (7%nat, Xo (RLo (R 7) 33) (R 0));
  (2%nat, Ad (R 2) (R 5));
  (5%nat, Xo (RLo (R 5) 4) (R 2));
  (4%nat, Ad (R 4) (R 3));
  (3%nat, Xo (RLo (R 3) 51) (R 4));
  (6%nat, Ad (R 6) (R 1));
  (1%nat, Xo (RLo (R 1) 13) (R 6));
  (12%nat, Ad (R 12) (R 15));
  (15%nat, Xo (RLo (R 15) 34) (R 12));
  (14%nat, Ad (R 14) (R 13));
  (13%nat, Xo (RLo (R 13) 41) (R 14));
  (8%nat, Ad (R 8) (R 11));
  (11%nat, Xo (RLo (R 11) 59) (R 8));
  (10%nat, Ad (R 10) (R 9));
  (9%nat, Xo (RLo (R 9) 17) (R 10));
  (0%nat, Ad (R 0) (R 15));
  (15%nat, Xo (RLo (R 15) 5) (R 0));
  (2%nat, Ad (R 2) (R 11));
  (11%nat, Xo (RLo (R 11) 20) (R 2));
  (6%nat, Ad (R 6) (R 13));
  (13%nat, Xo (RLo (R 13) 48) (R 6));
  (4%nat, Ad (R 4) (R 9));
  (9%nat, Xo (RLo (R 9) 41) (R 4));
  (14%nat, Ad (R 14) (R 1));
  (1%nat, Xo (RLo (R 1) 47) (R 14));
  (8%nat, Ad (R 8) (R 5));
  (5%nat, Xo (RLo (R 5) 28) (R 8));
  (10%nat, Ad (R 10) (R 3));
  (3%nat, Xo (RLo (R 3) 16) (R 10));
  (12%nat, Ad (R 12) (R 7));
  (7%nat, Xo (RLo (R 7) 25) (R 12));
  (1%nat, Ad (R 1) (R 22));
  (0%nat, Ad (R 0) (Ad (R 1) (R 21)));
  (1%nat, Xo (RLo (R 1) 41) (R 0));
  (3%nat, Ad (R 3) (R 24));
  (2%nat, Ad (R 2) (Ad (R 3) (R 23)));
  (3%nat, Xo (RLo (R 3) 9) (R 2));
  (5%nat, Ad (R 5) (R 26));
  (4%nat, Ad (R 4) (Ad (R 5) (R 25)));
  (5%nat, Xo (RLo (R 5) 37) (R 4));
  (7%nat, Ad (R 7) (R 28));
  (6%nat, Ad (R 6) (Ad (R 7) (R 27)));
  (7%nat, Xo (RLo (R 7) 31) (R 6));
  (9%nat, Ad (R 9) (R 30));
  (8%nat, Ad (R 8) (Ad (R 9) (R 29)));
  (9%nat, Xo (RLo (R 9) 12) (R 8));
  (11%nat, Ad (R 11) (R 32));
  (10%nat, Ad (R 10) (Ad (R 11) (R 31)));
  (11%nat, Xo (RLo (R 11) 47) (R 10));
  (13%nat, Ad (R 13) (Ad (R 17) (R 35)));
  (12%nat, Ad (R 12) (Ad (R 13) (R 16)));
  (13%nat, Xo (RLo (R 13) 44) (R 12));
  (15%nat, Ad (R 15) (Ad (R 19) (K 0x5)));
  (14%nat, Ad (R 14) (Ad (Ad (R 15) (R 18)) (R 33)));
  (15%nat, Xo (RLo (R 15) 30) (R 14));
  (0%nat, Ad (R 0) (R 9));
  (9%nat, Xo (RLo (R 9) 16) (R 0));
  (2%nat, Ad (R 2) (R 13));
  (13%nat, Xo (RLo (R 13) 34) (R 2));
  (6%nat, Ad (R 6) (R 11));
  (11%nat, Xo (RLo (R 11) 56) (R 6));
  (4%nat, Ad (R 4) (R 15));
  (15%nat, Xo (RLo (R 15) 51) (R 4));
  (10%nat, Ad (R 10) (R 7));
  (7%nat, Xo (RLo (R 7) 4) (R 10));
  (12%nat, Ad (R 12) (R 3));
  (3%nat, Xo (RLo (R 3) 53) (R 12));
  (14%nat, Ad (R 14) (R 5));
  (5%nat, Xo (RLo (R 5) 42) (R 14));
  (8%nat, Ad (R 8) (R 1));
  (1%nat, Xo (RLo (R 1) 41) (R 8));
  (0%nat, Ad (R 0) (R 7));
  (7%nat, Xo (RLo (R 7) 31) (R 0));
  (2%nat, Ad (R 2) (R 5));
  (5%nat, Xo (RLo (R 5) 44) (R 2));
  (4%nat, Ad (R 4) (R 3));
  (3%nat, Xo (RLo (R 3) 47) (R 4));
  (6%nat, Ad (R 6) (R 1));
  (1%nat, Xo (RLo (R 1) 46) (R 6));
  (12%nat, Ad (R 12) (R 15));
  (15%nat, Xo (RLo (R 15) 19) (R 12));
  (14%nat, Ad (R 14) (R 13));
  (13%nat, Xo (RLo (R 13) 42) (R 14));
  (8%nat, Ad (R 8) (R 11));
  (11%nat, Xo (RLo (R 11) 44) (R 8));
  (10%nat, Ad (R 10) (R 9));
  (9%nat, Xo (RLo (R 9) 25) (R 10));
  (0%nat, Ad (R 0) (R 15));
  (15%nat, Xo (RLo (R 15) 9) (R 0));
  (2%nat, Ad (R 2) (R 11));
  (11%nat, Xo (RLo (R 11) 48) (R 2));
  (6%nat, Ad (R 6) (R 13));
  (13%nat, Xo (RLo (R 13) 35) (R 6));
  (4%nat, Ad (R 4) (R 9));
  (9%nat, Xo (RLo (R 9) 52) (R 4));
  (14%nat, Ad (R 14) (R 1));
  (1%nat, Xo (RLo (R 1) 23) (R 14));
  (8%nat, Ad (R 8) (R 5));
  (5%nat, Xo (RLo (R 5) 31) (R 8));
  (10%nat, Ad (R 10) (R 3));
  (3%nat, Xo (RLo (R 3) 37) (R 10));
  (12%nat, Ad (R 12) (R 7));
  (7%nat, Xo (RLo (R 7) 20) (R 12));
  (1%nat, Ad (R 1) (R 23));
  (0%nat, Ad (R 0) (Ad (R 1) (R 22)));
  (1%nat, Xo (RLo (R 1) 24) (R 0));
  (3%nat, Ad (R 3) (R 25));
  (2%nat, Ad (R 2) (Ad (R 3) (R 24)));
  (3%nat, Xo (RLo (R 3) 13) (R 2));
  (5%nat, Ad (R 5) (R 27));
  (4%nat, Ad (R 4) (Ad (R 5) (R 26)));
  (5%nat, Xo (RLo (R 5) 8) (R 4));
  (7%nat, Ad (R 7) (R 29));
  (6%nat, Ad (R 6) (Ad (R 7) (R 28)));
  (7%nat, Xo (RLo (R 7) 47) (R 6));
  (9%nat, Ad (R 9) (R 31));
  (8%nat, Ad (R 8) (Ad (R 9) (R 30)));
  (9%nat, Xo (RLo (R 9) 8) (R 8));
  (11%nat, Ad (R 11) (R 16));
  (10%nat, Ad (R 10) (Ad (R 11) (R 32)));
  (11%nat, Xo (RLo (R 11) 17) (R 10));
  (13%nat, Ad (R 13) (Ad (R 18) (R 33)));
  (12%nat, Ad (R 12) (Ad (R 13) (R 17)));
  (13%nat, Xo (RLo (R 13) 22) (R 12));
  (15%nat, Ad (R 15) (Ad (R 20) (K 0x6)));
  (14%nat, Ad (R 14) (Ad (Ad (R 15) (R 19)) (R 34)));
  (15%nat, Xo (RLo (R 15) 37) (R 14));
  (0%nat, Ad (R 0) (R 9));
  (9%nat, Xo (RLo (R 9) 38) (R 0));
  (2%nat, Ad (R 2) (R 13));
  (13%nat, Xo (RLo (R 13) 19) (R 2));
  (6%nat, Ad (R 6) (R 11));
  (11%nat, Xo (RLo (R 11) 10) (R 6));
  (4%nat, Ad (R 4) (R 15));
  (15%nat, Xo (RLo (R 15) 55) (R 4));
  (10%nat, Ad (R 10) (R 7));
  (7%nat, Xo (RLo (R 7) 49) (R 10));
  (12%nat, Ad (R 12) (R 3));
  (3%nat, Xo (RLo (R 3) 18) (R 12));
  (14%nat, Ad (R 14) (R 5));
  (5%nat, Xo (RLo (R 5) 23) (R 14));
  (8%nat, Ad (R 8) (R 1));
  (1%nat, Xo (RLo (R 1) 52) (R 8));
  (0%nat, Ad (R 0) (R 7));
  (7%nat, Xo (RLo (R 7) 33) (R 0));
  (2%nat, Ad (R 2) (R 5));
  (5%nat, Xo (RLo (R 5) 4) (R 2));
  (4%nat, Ad (R 4) (R 3));
  (3%nat, Xo (RLo (R 3) 51) (R 4));
  (6%nat, Ad (R 6) (R 1));
  (1%nat, Xo (RLo (R 1) 13) (R 6));
  (12%nat, Ad (R 12) (R 15));
  (15%nat, Xo (RLo (R 15) 34) (R 12));
  (14%nat, Ad (R 14) (R 13));
  (13%nat, Xo (RLo (R 13) 41) (R 14));
  (8%nat, Ad (R 8) (R 11));
  (11%nat, Xo (RLo (R 11) 59) (R 8));
  (10%nat, Ad (R 10) (R 9));
  (9%nat, Xo (RLo (R 9) 17) (R 10));
  (0%nat, Ad (R 0) (R 15));
  (15%nat, Xo (RLo (R 15) 5) (R 0));
  (2%nat, Ad (R 2) (R 11));
  (11%nat, Xo (RLo (R 11) 20) (R 2));
  (6%nat, Ad (R 6) (R 13));
  (13%nat, Xo (RLo (R 13) 48) (R 6));
  (4%nat, Ad (R 4) (R 9));
  (9%nat, Xo (RLo (R 9) 41) (R 4));
  (14%nat, Ad (R 14) (R 1));
  (1%nat, Xo (RLo (R 1) 47) (R 14));
  (8%nat, Ad (R 8) (R 5));
  (5%nat, Xo (RLo (R 5) 28) (R 8));
  (10%nat, Ad (R 10) (R 3));
  (3%nat, Xo (RLo (R 3) 16) (R 10));
  (12%nat, Ad (R 12) (R 7));
  (7%nat, Xo (RLo (R 7) 25) (R 12));
  (1%nat, Ad (R 1) (R 24));
  (0%nat, Ad (R 0) (Ad (R 1) (R 23)));
  (1%nat, Xo (RLo (R 1) 41) (R 0));
  (3%nat, Ad (R 3) (R 26));
  (2%nat, Ad (R 2) (Ad (R 3) (R 25)));
  (3%nat, Xo (RLo (R 3) 9) (R 2));
  (5%nat, Ad (R 5) (R 28));
  (4%nat, Ad (R 4) (Ad (R 5) (R 27)));
  (5%nat, Xo (RLo (R 5) 37) (R 4));
  (7%nat, Ad (R 7) (R 30));
  (6%nat, Ad (R 6) (Ad (R 7) (R 29)));
  (7%nat, Xo (RLo (R 7) 31) (R 6));
  (9%nat, Ad (R 9) (R 32));
  (8%nat, Ad (R 8) (Ad (R 9) (R 31)));
  (9%nat, Xo (RLo (R 9) 12) (R 8));
  (11%nat, Ad (R 11) (R 17));
  (10%nat, Ad (R 10) (Ad (R 11) (R 16)));
  (11%nat, Xo (RLo (R 11) 47) (R 10));
  (13%nat, Ad (R 13) (Ad (R 19) (R 34)));
  (12%nat, Ad (R 12) (Ad (R 13) (R 18)));
  (13%nat, Xo (RLo (R 13) 44) (R 12));
  (15%nat, Ad (R 15) (Ad (R 21) (K 0x7)));
  (14%nat, Ad (R 14) (Ad (Ad (R 15) (R 20)) (R 35)));
  (15%nat, Xo (RLo (R 15) 30) (R 14));
  (0%nat, Ad (R 0) (R 9));
  (9%nat, Xo (RLo (R 9) 16) (R 0));
  (2%nat, Ad (R 2) (R 13));
  (13%nat, Xo (RLo (R 13) 34) (R 2));
  (6%nat, Ad (R 6) (R 11));
  (11%nat, Xo (RLo (R 11) 56) (R 6));
  (4%nat, Ad (R 4) (R 15));
  (15%nat, Xo (RLo (R 15) 51) (R 4));
  (10%nat, Ad (R 10) (R 7));
  (7%nat, Xo (RLo (R 7) 4) (R 10));
  (12%nat, Ad (R 12) (R 3));
  (3%nat, Xo (RLo (R 3) 53) (R 12));
  (14%nat, Ad (R 14) (R 5));
  (5%nat, Xo (RLo (R 5) 42) (R 14));
  (8%nat, Ad (R 8) (R 1));
  (1%nat, Xo (RLo (R 1) 41) (R 8));
  (0%nat, Ad (R 0) (R 7));
  (7%nat, Xo (RLo (R 7) 31) (R 0));
  (2%nat, Ad (R 2) (R 5));
  (5%nat, Xo (RLo (R 5) 44) (R 2));
  (4%nat, Ad (R 4) (R 3));
  (3%nat, Xo (RLo (R 3) 47) (R 4));
  (6%nat, Ad (R 6) (R 1));
  (1%nat, Xo (RLo (R 1) 46) (R 6));
  (12%nat, Ad (R 12) (R 15));
  (15%nat, Xo (RLo (R 15) 19) (R 12));
  (14%nat, Ad (R 14) (R 13));
  (13%nat, Xo (RLo (R 13) 42) (R 14));
  (8%nat, Ad (R 8) (R 11));
  (11%nat, Xo (RLo (R 11) 44) (R 8));
  (10%nat, Ad (R 10) (R 9));
  (9%nat, Xo (RLo (R 9) 25) (R 10));
  (0%nat, Ad (R 0) (R 15));
  (15%nat, Xo (RLo (R 15) 9) (R 0));
  (2%nat, Ad (R 2) (R 11));
  (11%nat, Xo (RLo (R 11) 48) (R 2));
  (6%nat, Ad (R 6) (R 13));
  (13%nat, Xo (RLo (R 13) 35) (R 6));
  (4%nat, Ad (R 4) (R 9));
  (9%nat, Xo (RLo (R 9) 52) (R 4));
  (14%nat, Ad (R 14) (R 1));
  (1%nat, Xo (RLo (R 1) 23) (R 14));
  (8%nat, Ad (R 8) (R 5));
  (5%nat, Xo (RLo (R 5) 31) (R 8));
  (10%nat, Ad (R 10) (R 3));
  (3%nat, Xo (RLo (R 3) 37) (R 10));
  (12%nat, Ad (R 12) (R 7));
  (7%nat, Xo (RLo (R 7) 20) (R 12));
  (1%nat, Ad (R 1) (R 25));
  (0%nat, Ad (R 0) (Ad (R 1) (R 24)));
  (1%nat, Xo (RLo (R 1) 24) (R 0));
  (3%nat, Ad (R 3) (R 27));
  (2%nat, Ad (R 2) (Ad (R 3) (R 26)));
  (3%nat, Xo (RLo (R 3) 13) (R 2));
  (5%nat, Ad (R 5) (R 29));
  (4%nat, Ad (R 4) (Ad (R 5) (R 28)));
  (5%nat, Xo (RLo (R 5) 8) (R 4));
  (7%nat, Ad (R 7) (R 31));
  (6%nat, Ad (R 6) (Ad (R 7) (R 30)));
  (7%nat, Xo (RLo (R 7) 47) (R 6));
  (9%nat, Ad (R 9) (R 16));
  (8%nat, Ad (R 8) (Ad (R 9) (R 32)));
  (9%nat, Xo (RLo (R 9) 8) (R 8));
  (11%nat, Ad (R 11) (R 18));
  (10%nat, Ad (R 10) (Ad (R 11) (R 17)));
  (11%nat, Xo (RLo (R 11) 17) (R 10));
  (13%nat, Ad (R 13) (Ad (R 20) (R 35)));
  (12%nat, Ad (R 12) (Ad (R 13) (R 19)));
  (13%nat, Xo (RLo (R 13) 22) (R 12));
  (15%nat, Ad (R 15) (Ad (R 22) (K 0x8)));
  (14%nat, Ad (R 14) (Ad (Ad (R 15) (R 21)) (R 33)));
  (15%nat, Xo (RLo (R 15) 37) (R 14));
  (0%nat, Ad (R 0) (R 9));
  (9%nat, Xo (RLo (R 9) 38) (R 0));
  (2%nat, Ad (R 2) (R 13));
  (13%nat, Xo (RLo (R 13) 19) (R 2));
  (6%nat, Ad (R 6) (R 11));
  (11%nat, Xo (RLo (R 11) 10) (R 6));
  (4%nat, Ad (R 4) (R 15));
  (15%nat, Xo (RLo (R 15) 55) (R 4));
  (10%nat, Ad (R 10) (R 7));
  (7%nat, Xo (RLo (R 7) 49) (R 10));
  (12%nat, Ad (R 12) (R 3));
  (3%nat, Xo (RLo (R 3) 18) (R 12));
  (14%nat, Ad (R 14) (R 5));
  (5%nat, Xo (RLo (R 5) 23) (R 14));
  (8%nat, Ad (R 8) (R 1));
  (1%nat, Xo (RLo (R 1) 52) (R 8));
  (0%nat, Ad (R 0) (R 7));
  (7%nat, Xo (RLo (R 7) 33) (R 0));
  (2%nat, Ad (R 2) (R 5));
  (5%nat, Xo (RLo (R 5) 4) (R 2));
  (4%nat, Ad (R 4) (R 3));
  (3%nat, Xo (RLo (R 3) 51) (R 4));
  (6%nat, Ad (R 6) (R 1));
  (1%nat, Xo (RLo (R 1) 13) (R 6));
  (12%nat, Ad (R 12) (R 15));
  (15%nat, Xo (RLo (R 15) 34) (R 12));
  (14%nat, Ad (R 14) (R 13));
  (13%nat, Xo (RLo (R 13) 41) (R 14));
  (8%nat, Ad (R 8) (R 11));
  (11%nat, Xo (RLo (R 11) 59) (R 8));
  (10%nat, Ad (R 10) (R 9));
  (9%nat, Xo (RLo (R 9) 17) (R 10));
  (0%nat, Ad (R 0) (R 15));
  (15%nat, Xo (RLo (R 15) 5) (R 0));
  (2%nat, Ad (R 2) (R 11));
  (11%nat, Xo (RLo (R 11) 20) (R 2));
  (6%nat, Ad (R 6) (R 13));
  (13%nat, Xo (RLo (R 13) 48) (R 6));
  (4%nat, Ad (R 4) (R 9));
  (9%nat, Xo (RLo (R 9) 41) (R 4));
  (14%nat, Ad (R 14) (R 1));
  (1%nat, Xo (RLo (R 1) 47) (R 14));
  (8%nat, Ad (R 8) (R 5));
  (5%nat, Xo (RLo (R 5) 28) (R 8));
  (10%nat, Ad (R 10) (R 3));
  (3%nat, Xo (RLo (R 3) 16) (R 10));
  (12%nat, Ad (R 12) (R 7));
  (7%nat, Xo (RLo (R 7) 25) (R 12));
  (1%nat, Ad (R 1) (R 26));
  (0%nat, Ad (R 0) (Ad (R 1) (R 25)));
  (1%nat, Xo (RLo (R 1) 41) (R 0));
  (3%nat, Ad (R 3) (R 28));
  (2%nat, Ad (R 2) (Ad (R 3) (R 27)));
  (3%nat, Xo (RLo (R 3) 9) (R 2));
  (5%nat, Ad (R 5) (R 30));
  (4%nat, Ad (R 4) (Ad (R 5) (R 29)));
  (5%nat, Xo (RLo (R 5) 37) (R 4));
  (7%nat, Ad (R 7) (R 32));
  (6%nat, Ad (R 6) (Ad (R 7) (R 31)));
  (7%nat, Xo (RLo (R 7) 31) (R 6));
  (9%nat, Ad (R 9) (R 17));
  (8%nat, Ad (R 8) (Ad (R 9) (R 16)));
  (9%nat, Xo (RLo (R 9) 12) (R 8));
  (11%nat, Ad (R 11) (R 19));
  (10%nat, Ad (R 10) (Ad (R 11) (R 18)));
  (11%nat, Xo (RLo (R 11) 47) (R 10));
  (13%nat, Ad (R 13) (Ad (R 21) (R 33)));
  (12%nat, Ad (R 12) (Ad (R 13) (R 20)));
  (13%nat, Xo (RLo (R 13) 44) (R 12));
  (15%nat, Ad (R 15) (Ad (R 23) (K 0x9)));
  (14%nat, Ad (R 14) (Ad (Ad (R 15) (R 22)) (R 34)));
  (15%nat, Xo (RLo (R 15) 30) (R 14));
  (0%nat, Ad (R 0) (R 9));
  (9%nat, Xo (RLo (R 9) 16) (R 0));
  (2%nat, Ad (R 2) (R 13));
  (13%nat, Xo (RLo (R 13) 34) (R 2));
  (6%nat, Ad (R 6) (R 11));
  (11%nat, Xo (RLo (R 11) 56) (R 6));
  (4%nat, Ad (R 4) (R 15));
  (15%nat, Xo (RLo (R 15) 51) (R 4));
  (10%nat, Ad (R 10) (R 7));
  (7%nat, Xo (RLo (R 7) 4) (R 10));
  (12%nat, Ad (R 12) (R 3));
  (3%nat, Xo (RLo (R 3) 53) (R 12));
  (14%nat, Ad (R 14) (R 5));
  (5%nat, Xo (RLo (R 5) 42) (R 14));
  (8%nat, Ad (R 8) (R 1));
  (1%nat, Xo (RLo (R 1) 41) (R 8));
  (0%nat, Ad (R 0) (R 7));
  (7%nat, Xo (RLo (R 7) 31) (R 0));
  (2%nat, Ad (R 2) (R 5));
  (5%nat, Xo (RLo (R 5) 44) (R 2));
  (4%nat, Ad (R 4) (R 3));
  (3%nat, Xo (RLo (R 3) 47) (R 4));
  (6%nat, Ad (R 6) (R 1));
  (1%nat, Xo (RLo (R 1) 46) (R 6));
  (12%nat, Ad (R 12) (R 15));
  (15%nat, Xo (RLo (R 15) 19) (R 12));
  (14%nat, Ad (R 14) (R 13));
  (13%nat, Xo (RLo (R 13) 42) (R 14));
  (8%nat, Ad (R 8) (R 11));
  (11%nat, Xo (RLo (R 11) 44) (R 8));
  (10%nat, Ad (R 10) (R 9));
  (9%nat, Xo (RLo (R 9) 25) (R 10));
  (0%nat, Ad (R 0) (R 15));
  (15%nat, Xo (RLo (R 15) 9) (R 0));
  (2%nat, Ad (R 2) (R 11));
  (11%nat, Xo (RLo (R 11) 48) (R 2));
  (6%nat, Ad (R 6) (R 13));
  (13%nat, Xo (RLo (R 13) 35) (R 6));
  (4%nat, Ad (R 4) (R 9));
  (9%nat, Xo (RLo (R 9) 52) (R 4));
  (14%nat, Ad (R 14) (R 1));
  (1%nat, Xo (RLo (R 1) 23) (R 14));
  (8%nat, Ad (R 8) (R 5));
  (5%nat, Xo (RLo (R 5) 31) (R 8));
  (10%nat, Ad (R 10) (R 3));
  (3%nat, Xo (RLo (R 3) 37) (R 10));
  (12%nat, Ad (R 12) (R 7));
  (7%nat, Xo (RLo (R 7) 20) (R 12));
  (1%nat, Ad (R 1) (R 27));
  (0%nat, Ad (R 0) (Ad (R 1) (R 26)));
  (1%nat, Xo (RLo (R 1) 24) (R 0));
  (3%nat, Ad (R 3) (R 29));
  (2%nat, Ad (R 2) (Ad (R 3) (R 28)));
  (3%nat, Xo (RLo (R 3) 13) (R 2));
  (5%nat, Ad (R 5) (R 31));
  (4%nat, Ad (R 4) (Ad (R 5) (R 30)));
  (5%nat, Xo (RLo (R 5) 8) (R 4));
  (7%nat, Ad (R 7) (R 16));
  (6%nat, Ad (R 6) (Ad (R 7) (R 32)));
  (7%nat, Xo (RLo (R 7) 47) (R 6));
  (9%nat, Ad (R 9) (R 18));
  (8%nat, Ad (R 8) (Ad (R 9) (R 17)));
  (9%nat, Xo (RLo (R 9) 8) (R 8));
  (11%nat, Ad (R 11) (R 20));
  (10%nat, Ad (R 10) (Ad (R 11) (R 19)));
  (11%nat, Xo (RLo (R 11) 17) (R 10));
  (13%nat, Ad (R 13) (Ad (R 22) (R 34)));
  (12%nat, Ad (R 12) (Ad (R 13) (R 21)));
  (13%nat, Xo (RLo (R 13) 22) (R 12));
  (15%nat, Ad (R 15) (Ad (R 24) (K 0xA)));
  (14%nat, Ad (R 14) (Ad (Ad (R 15) (R 23)) (R 35)));
  (15%nat, Xo (RLo (R 15) 37) (R 14));
  (0%nat, Ad (R 0) (R 9));
  (9%nat, Xo (RLo (R 9) 38) (R 0));
  (2%nat, Ad (R 2) (R 13));
  (13%nat, Xo (RLo (R 13) 19) (R 2));
  (6%nat, Ad (R 6) (R 11));
  (11%nat, Xo (RLo (R 11) 10) (R 6));
  (4%nat, Ad (R 4) (R 15));
  (15%nat, Xo (RLo (R 15) 55) (R 4));
  (10%nat, Ad (R 10) (R 7));
  (7%nat, Xo (RLo (R 7) 49) (R 10));
  (12%nat, Ad (R 12) (R 3));
  (3%nat, Xo (RLo (R 3) 18) (R 12));
  (14%nat, Ad (R 14) (R 5));
  (5%nat, Xo (RLo (R 5) 23) (R 14));
  (8%nat, Ad (R 8) (R 1));
  (1%nat, Xo (RLo (R 1) 52) (R 8));
  (0%nat, Ad (R 0) (R 7));
  (7%nat, Xo (RLo (R 7) 33) (R 0));
  (2%nat, Ad (R 2) (R 5));
  (5%nat, Xo (RLo (R 5) 4) (R 2));
  (4%nat, Ad (R 4) (R 3));
  (3%nat, Xo (RLo (R 3) 51) (R 4));
  (6%nat, Ad (R 6) (R 1));
  (1%nat, Xo (RLo (R 1) 13) (R 6));
  (12%nat, Ad (R 12) (R 15));
  (15%nat, Xo (RLo (R 15) 34) (R 12));
  (14%nat, Ad (R 14) (R 13));
  (13%nat, Xo (RLo (R 13) 41) (R 14));
  (8%nat, Ad (R 8) (R 11));
  (11%nat, Xo (RLo (R 11) 59) (R 8));
  (10%nat, Ad (R 10) (R 9));
  (9%nat, Xo (RLo (R 9) 17) (R 10));
  (0%nat, Ad (R 0) (R 15));
  (15%nat, Xo (RLo (R 15) 5) (R 0));
  (2%nat, Ad (R 2) (R 11));
  (11%nat, Xo (RLo (R 11) 20) (R 2));
  (6%nat, Ad (R 6) (R 13));
  (13%nat, Xo (RLo (R 13) 48) (R 6));
  (4%nat, Ad (R 4) (R 9));
  (9%nat, Xo (RLo (R 9) 41) (R 4));
  (14%nat, Ad (R 14) (R 1));
  (1%nat, Xo (RLo (R 1) 47) (R 14));
  (8%nat, Ad (R 8) (R 5));
  (5%nat, Xo (RLo (R 5) 28) (R 8));
  (10%nat, Ad (R 10) (R 3));
  (3%nat, Xo (RLo (R 3) 16) (R 10));
  (12%nat, Ad (R 12) (R 7));
  (7%nat, Xo (RLo (R 7) 25) (R 12));
  (1%nat, Ad (R 1) (R 28));
  (0%nat, Ad (R 0) (Ad (R 1) (R 27)));
  (1%nat, Xo (RLo (R 1) 41) (R 0));
  (3%nat, Ad (R 3) (R 30));
  (2%nat, Ad (R 2) (Ad (R 3) (R 29)));
  (3%nat, Xo (RLo (R 3) 9) (R 2));
  (5%nat, Ad (R 5) (R 32));
  (4%nat, Ad (R 4) (Ad (R 5) (R 31)));
  (5%nat, Xo (RLo (R 5) 37) (R 4));
  (7%nat, Ad (R 7) (R 17));
  (6%nat, Ad (R 6) (Ad (R 7) (R 16)));
  (7%nat, Xo (RLo (R 7) 31) (R 6));
  (9%nat, Ad (R 9) (R 19));
  (8%nat, Ad (R 8) (Ad (R 9) (R 18)));
  (9%nat, Xo (RLo (R 9) 12) (R 8));
  (11%nat, Ad (R 11) (R 21));
  (10%nat, Ad (R 10) (Ad (R 11) (R 20)));
  (11%nat, Xo (RLo (R 11) 47) (R 10));
  (13%nat, Ad (R 13) (Ad (R 23) (R 35)));
  (12%nat, Ad (R 12) (Ad (R 13) (R 22)));
  (13%nat, Xo (RLo (R 13) 44) (R 12));
  (15%nat, Ad (R 15) (Ad (R 25) (K 0xB)));
  (14%nat, Ad (R 14) (Ad (Ad (R 15) (R 24)) (R 33)));
  (15%nat, Xo (RLo (R 15) 30) (R 14));
  (0%nat, Ad (R 0) (R 9));
  (9%nat, Xo (RLo (R 9) 16) (R 0));
  (2%nat, Ad (R 2) (R 13));
  (13%nat, Xo (RLo (R 13) 34) (R 2));
  (6%nat, Ad (R 6) (R 11));
  (11%nat, Xo (RLo (R 11) 56) (R 6));
  (4%nat, Ad (R 4) (R 15));
  (15%nat, Xo (RLo (R 15) 51) (R 4));
  (10%nat, Ad (R 10) (R 7));
  (7%nat, Xo (RLo (R 7) 4) (R 10));
  (12%nat, Ad (R 12) (R 3));
  (3%nat, Xo (RLo (R 3) 53) (R 12));
  (14%nat, Ad (R 14) (R 5));
  (5%nat, Xo (RLo (R 5) 42) (R 14));
  (8%nat, Ad (R 8) (R 1));
  (1%nat, Xo (RLo (R 1) 41) (R 8));
  (0%nat, Ad (R 0) (R 7));
  (7%nat, Xo (RLo (R 7) 31) (R 0));
  (2%nat, Ad (R 2) (R 5));
  (5%nat, Xo (RLo (R 5) 44) (R 2));
  (4%nat, Ad (R 4) (R 3));
  (3%nat, Xo (RLo (R 3) 47) (R 4));
  (6%nat, Ad (R 6) (R 1));
  (1%nat, Xo (RLo (R 1) 46) (R 6));
  (12%nat, Ad (R 12) (R 15));
  (15%nat, Xo (RLo (R 15) 19) (R 12));
  (14%nat, Ad (R 14) (R 13));
  (13%nat, Xo (RLo (R 13) 42) (R 14));
  (8%nat, Ad (R 8) (R 11));
  (11%nat, Xo (RLo (R 11) 44) (R 8));
  (10%nat, Ad (R 10) (R 9));
  (9%nat, Xo (RLo (R 9) 25) (R 10));
  (0%nat, Ad (R 0) (R 15));
  (15%nat, Xo (RLo (R 15) 9) (R 0));
  (2%nat, Ad (R 2) (R 11));
  (11%nat, Xo (RLo (R 11) 48) (R 2));
  (6%nat, Ad (R 6) (R 13));
  (13%nat, Xo (RLo (R 13) 35) (R 6));
  (4%nat, Ad (R 4) (R 9));
  (9%nat, Xo (RLo (R 9) 52) (R 4));
  (14%nat, Ad (R 14) (R 1));
  (1%nat, Xo (RLo (R 1) 23) (R 14));
  (8%nat, Ad (R 8) (R 5));
  (5%nat, Xo (RLo (R 5) 31) (R 8));
  (10%nat, Ad (R 10) (R 3));
  (3%nat, Xo (RLo (R 3) 37) (R 10));
  (12%nat, Ad (R 12) (R 7));
  (7%nat, Xo (RLo (R 7) 20) (R 12));
  (1%nat, Ad (R 1) (R 29));
  (0%nat, Ad (R 0) (Ad (R 1) (R 28)));
  (1%nat, Xo (RLo (R 1) 24) (R 0));
  (3%nat, Ad (R 3) (R 31));
  (2%nat, Ad (R 2) (Ad (R 3) (R 30)));
  (3%nat, Xo (RLo (R 3) 13) (R 2));
  (5%nat, Ad (R 5) (R 16));
  (4%nat, Ad (R 4) (Ad (R 5) (R 32)));
  (5%nat, Xo (RLo (R 5) 8) (R 4));
  (7%nat, Ad (R 7) (R 18));
  (6%nat, Ad (R 6) (Ad (R 7) (R 17)));
  (7%nat, Xo (RLo (R 7) 47) (R 6));
  (9%nat, Ad (R 9) (R 20));
  (8%nat, Ad (R 8) (Ad (R 9) (R 19)));
  (9%nat, Xo (RLo (R 9) 8) (R 8));
  (11%nat, Ad (R 11) (R 22));
  (10%nat, Ad (R 10) (Ad (R 11) (R 21)));
  (11%nat, Xo (RLo (R 11) 17) (R 10));
  (13%nat, Ad (R 13) (Ad (R 24) (R 33)));
  (12%nat, Ad (R 12) (Ad (R 13) (R 23)));
  (13%nat, Xo (RLo (R 13) 22) (R 12));
  (15%nat, Ad (R 15) (Ad (R 26) (K 0xC)));
  (14%nat, Ad (R 14) (Ad (Ad (R 15) (R 25)) (R 34)));
  (15%nat, Xo (RLo (R 15) 37) (R 14));
  (0%nat, Ad (R 0) (R 9));
  (9%nat, Xo (RLo (R 9) 38) (R 0));
  (2%nat, Ad (R 2) (R 13));
  (13%nat, Xo (RLo (R 13) 19) (R 2));
  (6%nat, Ad (R 6) (R 11));
  (11%nat, Xo (RLo (R 11) 10) (R 6));
  (4%nat, Ad (R 4) (R 15));
  (15%nat, Xo (RLo (R 15) 55) (R 4));
  (10%nat, Ad (R 10) (R 7));
  (7%nat, Xo (RLo (R 7) 49) (R 10));
  (12%nat, Ad (R 12) (R 3));
  (3%nat, Xo (RLo (R 3) 18) (R 12));
  (14%nat, Ad (R 14) (R 5));
  (5%nat, Xo (RLo (R 5) 23) (R 14));
  (8%nat, Ad (R 8) (R 1));
  (1%nat, Xo (RLo (R 1) 52) (R 8));
  (0%nat, Ad (R 0) (R 7));
  (7%nat, Xo (RLo (R 7) 33) (R 0));
  (2%nat, Ad (R 2) (R 5));
  (5%nat, Xo (RLo (R 5) 4) (R 2));
  (4%nat, Ad (R 4) (R 3));
  (3%nat, Xo (RLo (R 3) 51) (R 4));
  (6%nat, Ad (R 6) (R 1));
  (1%nat, Xo (RLo (R 1) 13) (R 6));
  (12%nat, Ad (R 12) (R 15));
  (15%nat, Xo (RLo (R 15) 34) (R 12));
  (14%nat, Ad (R 14) (R 13));
  (13%nat, Xo (RLo (R 13) 41) (R 14));
  (8%nat, Ad (R 8) (R 11));
  (11%nat, Xo (RLo (R 11) 59) (R 8));
  (10%nat, Ad (R 10) (R 9));
  (9%nat, Xo (RLo (R 9) 17) (R 10));
  (0%nat, Ad (R 0) (R 15));
  (15%nat, Xo (RLo (R 15) 5) (R 0));
  (2%nat, Ad (R 2) (R 11));
  (11%nat, Xo (RLo (R 11) 20) (R 2));
  (6%nat, Ad (R 6) (R 13));
  (13%nat, Xo (RLo (R 13) 48) (R 6));
  (4%nat, Ad (R 4) (R 9));
  (9%nat, Xo (RLo (R 9) 41) (R 4));
  (14%nat, Ad (R 14) (R 1));
  (1%nat, Xo (RLo (R 1) 47) (R 14));
  (8%nat, Ad (R 8) (R 5));
  (5%nat, Xo (RLo (R 5) 28) (R 8));
  (10%nat, Ad (R 10) (R 3));
  (3%nat, Xo (RLo (R 3) 16) (R 10));
  (12%nat, Ad (R 12) (R 7));
  (7%nat, Xo (RLo (R 7) 25) (R 12));
  (1%nat, Ad (R 1) (R 30));
  (0%nat, Ad (R 0) (Ad (R 1) (R 29)));
  (1%nat, Xo (RLo (R 1) 41) (R 0));
  (3%nat, Ad (R 3) (R 32));
  (2%nat, Ad (R 2) (Ad (R 3) (R 31)));
  (3%nat, Xo (RLo (R 3) 9) (R 2));
  (5%nat, Ad (R 5) (R 17));
  (4%nat, Ad (R 4) (Ad (R 5) (R 16)));
  (5%nat, Xo (RLo (R 5) 37) (R 4));
  (7%nat, Ad (R 7) (R 19));
  (6%nat, Ad (R 6) (Ad (R 7) (R 18)));
  (7%nat, Xo (RLo (R 7) 31) (R 6));
  (9%nat, Ad (R 9) (R 21));
  (8%nat, Ad (R 8) (Ad (R 9) (R 20)));
  (9%nat, Xo (RLo (R 9) 12) (R 8));
  (11%nat, Ad (R 11) (R 23));
  (10%nat, Ad (R 10) (Ad (R 11) (R 22)));
  (11%nat, Xo (RLo (R 11) 47) (R 10));
  (13%nat, Ad (R 13) (Ad (R 25) (R 34)));
  (12%nat, Ad (R 12) (Ad (R 13) (R 24)));
  (13%nat, Xo (RLo (R 13) 44) (R 12));
  (15%nat, Ad (R 15) (Ad (R 27) (K 0xD)));
  (14%nat, Ad (R 14) (Ad (Ad (R 15) (R 26)) (R 35)));
  (15%nat, Xo (RLo (R 15) 30) (R 14));
  (0%nat, Ad (R 0) (R 9));
  (9%nat, Xo (RLo (R 9) 16) (R 0));
  (2%nat, Ad (R 2) (R 13));
  (13%nat, Xo (RLo (R 13) 34) (R 2));
  (6%nat, Ad (R 6) (R 11));
  (11%nat, Xo (RLo (R 11) 56) (R 6));
  (4%nat, Ad (R 4) (R 15));
  (15%nat, Xo (RLo (R 15) 51) (R 4));
  (10%nat, Ad (R 10) (R 7));
  (7%nat, Xo (RLo (R 7) 4) (R 10));
  (12%nat, Ad (R 12) (R 3));
  (3%nat, Xo (RLo (R 3) 53) (R 12));
  (14%nat, Ad (R 14) (R 5));
  (5%nat, Xo (RLo (R 5) 42) (R 14));
  (8%nat, Ad (R 8) (R 1));
  (1%nat, Xo (RLo (R 1) 41) (R 8));
  (0%nat, Ad (R 0) (R 7));
  (7%nat, Xo (RLo (R 7) 31) (R 0));
  (2%nat, Ad (R 2) (R 5));
  (5%nat, Xo (RLo (R 5) 44) (R 2));
  (4%nat, Ad (R 4) (R 3));
  (3%nat, Xo (RLo (R 3) 47) (R 4));
  (6%nat, Ad (R 6) (R 1));
  (1%nat, Xo (RLo (R 1) 46) (R 6));
  (12%nat, Ad (R 12) (R 15));
  (15%nat, Xo (RLo (R 15) 19) (R 12));
  (14%nat, Ad (R 14) (R 13));
  (13%nat, Xo (RLo (R 13) 42) (R 14));
  (8%nat, Ad (R 8) (R 11));
  (11%nat, Xo (RLo (R 11) 44) (R 8));
  (10%nat, Ad (R 10) (R 9));
  (9%nat, Xo (RLo (R 9) 25) (R 10));
  (0%nat, Ad (R 0) (R 15));
  (15%nat, Xo (RLo (R 15) 9) (R 0));
  (2%nat, Ad (R 2) (R 11));
  (11%nat, Xo (RLo (R 11) 48) (R 2));
  (6%nat, Ad (R 6) (R 13));
  (13%nat, Xo (RLo (R 13) 35) (R 6));
  (4%nat, Ad (R 4) (R 9));
  (9%nat, Xo (RLo (R 9) 52) (R 4));
  (14%nat, Ad (R 14) (R 1));
  (1%nat, Xo (RLo (R 1) 23) (R 14));
  (8%nat, Ad (R 8) (R 5));
  (5%nat, Xo (RLo (R 5) 31) (R 8));
  (10%nat, Ad (R 10) (R 3));
  (3%nat, Xo (RLo (R 3) 37) (R 10));
  (12%nat, Ad (R 12) (R 7));
  (7%nat, Xo (RLo (R 7) 20) (R 12));
  (1%nat, Ad (R 1) (R 31));
  (0%nat, Ad (R 0) (Ad (R 1) (R 30)));
  (1%nat, Xo (RLo (R 1) 24) (R 0));
  (3%nat, Ad (R 3) (R 16));
  (2%nat, Ad (R 2) (Ad (R 3) (R 32)));
  (3%nat, Xo (RLo (R 3) 13) (R 2));
  (5%nat, Ad (R 5) (R 18));
  (4%nat, Ad (R 4) (Ad (R 5) (R 17)));
  (5%nat, Xo (RLo (R 5) 8) (R 4));
  (7%nat, Ad (R 7) (R 20));
  (6%nat, Ad (R 6) (Ad (R 7) (R 19)));
  (7%nat, Xo (RLo (R 7) 47) (R 6));
  (9%nat, Ad (R 9) (R 22));
  (8%nat, Ad (R 8) (Ad (R 9) (R 21)));
  (9%nat, Xo (RLo (R 9) 8) (R 8));
  (11%nat, Ad (R 11) (R 24));
  (10%nat, Ad (R 10) (Ad (R 11) (R 23)));
  (11%nat, Xo (RLo (R 11) 17) (R 10));
  (13%nat, Ad (R 13) (Ad (R 26) (R 35)));
  (12%nat, Ad (R 12) (Ad (R 13) (R 25)));
  (13%nat, Xo (RLo (R 13) 22) (R 12));
  (15%nat, Ad (R 15) (Ad (R 28) (K 0xE)));
  (14%nat, Ad (R 14) (Ad (Ad (R 15) (R 27)) (R 33)));
  (15%nat, Xo (RLo (R 15) 37) (R 14));
  (0%nat, Ad (R 0) (R 9));
  (9%nat, Xo (RLo (R 9) 38) (R 0));
  (2%nat, Ad (R 2) (R 13));
  (13%nat, Xo (RLo (R 13) 19) (R 2));
  (6%nat, Ad (R 6) (R 11));
  (11%nat, Xo (RLo (R 11) 10) (R 6));
  (4%nat, Ad (R 4) (R 15));
  (15%nat, Xo (RLo (R 15) 55) (R 4));
  (10%nat, Ad (R 10) (R 7));
  (7%nat, Xo (RLo (R 7) 49) (R 10));
  (12%nat, Ad (R 12) (R 3));
  (3%nat, Xo (RLo (R 3) 18) (R 12));
  (14%nat, Ad (R 14) (R 5));
  (5%nat, Xo (RLo (R 5) 23) (R 14));
  (8%nat, Ad (R 8) (R 1));
  (1%nat, Xo (RLo (R 1) 52) (R 8));
  (0%nat, Ad (R 0) (R 7));
  (7%nat, Xo (RLo (R 7) 33) (R 0));
  (2%nat, Ad (R 2) (R 5));
  (5%nat, Xo (RLo (R 5) 4) (R 2));
  (4%nat, Ad (R 4) (R 3));
  (3%nat, Xo (RLo (R 3) 51) (R 4));
  (6%nat, Ad (R 6) (R 1));
  (1%nat, Xo (RLo (R 1) 13) (R 6));
  (12%nat, Ad (R 12) (R 15));
  (15%nat, Xo (RLo (R 15) 34) (R 12));
  (14%nat, Ad (R 14) (R 13));
  (13%nat, Xo (RLo (R 13) 41) (R 14));
  (8%nat, Ad (R 8) (R 11));
  (11%nat, Xo (RLo (R 11) 59) (R 8));
  (10%nat, Ad (R 10) (R 9));
  (9%nat, Xo (RLo (R 9) 17) (R 10));
  (0%nat, Ad (R 0) (R 15));
  (15%nat, Xo (RLo (R 15) 5) (R 0));
  (2%nat, Ad (R 2) (R 11));
  (11%nat, Xo (RLo (R 11) 20) (R 2));
  (6%nat, Ad (R 6) (R 13));
  (13%nat, Xo (RLo (R 13) 48) (R 6));
  (4%nat, Ad (R 4) (R 9));
  (9%nat, Xo (RLo (R 9) 41) (R 4));
  (14%nat, Ad (R 14) (R 1));
  (1%nat, Xo (RLo (R 1) 47) (R 14));
  (8%nat, Ad (R 8) (R 5));
  (5%nat, Xo (RLo (R 5) 28) (R 8));
  (10%nat, Ad (R 10) (R 3));
  (3%nat, Xo (RLo (R 3) 16) (R 10));
  (12%nat, Ad (R 12) (R 7));
  (7%nat, Xo (RLo (R 7) 25) (R 12));
  (1%nat, Ad (R 1) (R 32));
  (0%nat, Ad (R 0) (Ad (R 1) (R 31)));
  (1%nat, Xo (RLo (R 1) 41) (R 0));
  (3%nat, Ad (R 3) (R 17));
  (2%nat, Ad (R 2) (Ad (R 3) (R 16)));
  (3%nat, Xo (RLo (R 3) 9) (R 2));
  (5%nat, Ad (R 5) (R 19));
  (4%nat, Ad (R 4) (Ad (R 5) (R 18)));
  (5%nat, Xo (RLo (R 5) 37) (R 4));
  (7%nat, Ad (R 7) (R 21));
  (6%nat, Ad (R 6) (Ad (R 7) (R 20)));
  (7%nat, Xo (RLo (R 7) 31) (R 6));
  (9%nat, Ad (R 9) (R 23));
  (8%nat, Ad (R 8) (Ad (R 9) (R 22)));
  (9%nat, Xo (RLo (R 9) 12) (R 8));
  (11%nat, Ad (R 11) (R 25));
  (10%nat, Ad (R 10) (Ad (R 11) (R 24)));
  (11%nat, Xo (RLo (R 11) 47) (R 10));
  (13%nat, Ad (R 13) (Ad (R 27) (R 33)));
  (12%nat, Ad (R 12) (Ad (R 13) (R 26)));
  (13%nat, Xo (RLo (R 13) 44) (R 12));
  (15%nat, Ad (R 15) (Ad (R 29) (K 0xF)));
  (14%nat, Ad (R 14) (Ad (Ad (R 15) (R 28)) (R 34)));
  (15%nat, Xo (RLo (R 15) 30) (R 14));
  (0%nat, Ad (R 0) (R 9));
  (9%nat, Xo (RLo (R 9) 16) (R 0));
  (2%nat, Ad (R 2) (R 13));
  (13%nat, Xo (RLo (R 13) 34) (R 2));
  (6%nat, Ad (R 6) (R 11));
  (11%nat, Xo (RLo (R 11) 56) (R 6));
  (4%nat, Ad (R 4) (R 15));
  (15%nat, Xo (RLo (R 15) 51) (R 4));
  (10%nat, Ad (R 10) (R 7));
  (7%nat, Xo (RLo (R 7) 4) (R 10));
  (12%nat, Ad (R 12) (R 3));
  (3%nat, Xo (RLo (R 3) 53) (R 12));
  (14%nat, Ad (R 14) (R 5));
  (5%nat, Xo (RLo (R 5) 42) (R 14));
  (8%nat, Ad (R 8) (R 1));
  (1%nat, Xo (RLo (R 1) 41) (R 8));
  (0%nat, Ad (R 0) (R 7));
  (7%nat, Xo (RLo (R 7) 31) (R 0));
  (2%nat, Ad (R 2) (R 5));
  (5%nat, Xo (RLo (R 5) 44) (R 2));
  (4%nat, Ad (R 4) (R 3));
  (3%nat, Xo (RLo (R 3) 47) (R 4));
  (6%nat, Ad (R 6) (R 1));
  (1%nat, Xo (RLo (R 1) 46) (R 6));
  (12%nat, Ad (R 12) (R 15));
  (15%nat, Xo (RLo (R 15) 19) (R 12));
  (14%nat, Ad (R 14) (R 13));
  (13%nat, Xo (RLo (R 13) 42) (R 14));
  (8%nat, Ad (R 8) (R 11));
  (11%nat, Xo (RLo (R 11) 44) (R 8));
  (10%nat, Ad (R 10) (R 9));
  (9%nat, Xo (RLo (R 9) 25) (R 10));
  (0%nat, Ad (R 0) (R 15));
  (15%nat, Xo (RLo (R 15) 9) (R 0));
  (2%nat, Ad (R 2) (R 11));
  (11%nat, Xo (RLo (R 11) 48) (R 2));
  (6%nat, Ad (R 6) (R 13));
  (13%nat, Xo (RLo (R 13) 35) (R 6));
  (4%nat, Ad (R 4) (R 9));
  (9%nat, Xo (RLo (R 9) 52) (R 4));
  (14%nat, Ad (R 14) (R 1));
  (1%nat, Xo (RLo (R 1) 23) (R 14));
  (8%nat, Ad (R 8) (R 5));
  (5%nat, Xo (RLo (R 5) 31) (R 8));
  (10%nat, Ad (R 10) (R 3));
  (3%nat, Xo (RLo (R 3) 37) (R 10));
  (12%nat, Ad (R 12) (R 7));
  (7%nat, Xo (RLo (R 7) 20) (R 12));
  (1%nat, Ad (R 1) (R 16));
  (0%nat, Ad (R 0) (Ad (R 1) (R 32)));
  (1%nat, Xo (RLo (R 1) 24) (R 0));
  (3%nat, Ad (R 3) (R 18));
  (2%nat, Ad (R 2) (Ad (R 3) (R 17)));
  (3%nat, Xo (RLo (R 3) 13) (R 2));
  (5%nat, Ad (R 5) (R 20));
  (4%nat, Ad (R 4) (Ad (R 5) (R 19)));
  (5%nat, Xo (RLo (R 5) 8) (R 4));
  (7%nat, Ad (R 7) (R 22));
  (6%nat, Ad (R 6) (Ad (R 7) (R 21)));
  (7%nat, Xo (RLo (R 7) 47) (R 6));
  (9%nat, Ad (R 9) (R 24));
  (8%nat, Ad (R 8) (Ad (R 9) (R 23)));
  (9%nat, Xo (RLo (R 9) 8) (R 8));
  (11%nat, Ad (R 11) (R 26));
  (10%nat, Ad (R 10) (Ad (R 11) (R 25)));
  (11%nat, Xo (RLo (R 11) 17) (R 10));
  (13%nat, Ad (R 13) (Ad (R 28) (R 34)));
  (12%nat, Ad (R 12) (Ad (R 13) (R 27)));
  (13%nat, Xo (RLo (R 13) 22) (R 12));
  (15%nat, Ad (R 15) (Ad (R 30) (K 0x10)));
  (14%nat, Ad (R 14) (Ad (Ad (R 15) (R 29)) (R 35)));
  (15%nat, Xo (RLo (R 15) 37) (R 14));
  (0%nat, Ad (R 0) (R 9));
  (9%nat, Xo (RLo (R 9) 38) (R 0));
  (2%nat, Ad (R 2) (R 13));
  (13%nat, Xo (RLo (R 13) 19) (R 2));
  (6%nat, Ad (R 6) (R 11));
  (11%nat, Xo (RLo (R 11) 10) (R 6));
  (4%nat, Ad (R 4) (R 15));
  (15%nat, Xo (RLo (R 15) 55) (R 4));
  (10%nat, Ad (R 10) (R 7));
  (7%nat, Xo (RLo (R 7) 49) (R 10));
  (12%nat, Ad (R 12) (R 3));
  (3%nat, Xo (RLo (R 3) 18) (R 12));
  (14%nat, Ad (R 14) (R 5));
  (5%nat, Xo (RLo (R 5) 23) (R 14));
  (8%nat, Ad (R 8) (R 1));
  (1%nat, Xo (RLo (R 1) 52) (R 8));
  (0%nat, Ad (R 0) (R 7));
  (7%nat, Xo (RLo (R 7) 33) (R 0));
  (2%nat, Ad (R 2) (R 5));
  (5%nat, Xo (RLo (R 5) 4) (R 2));
  (4%nat, Ad (R 4) (R 3));
  (3%nat, Xo (RLo (R 3) 51) (R 4));
  (6%nat, Ad (R 6) (R 1));
  (1%nat, Xo (RLo (R 1) 13) (R 6));
  (12%nat, Ad (R 12) (R 15));
  (15%nat, Xo (RLo (R 15) 34) (R 12));
  (14%nat, Ad (R 14) (R 13));
  (13%nat, Xo (RLo (R 13) 41) (R 14));
  (8%nat, Ad (R 8) (R 11));
  (11%nat, Xo (RLo (R 11) 59) (R 8));
  (10%nat, Ad (R 10) (R 9));
  (9%nat, Xo (RLo (R 9) 17) (R 10));
  (0%nat, Ad (R 0) (R 15));
  (15%nat, Xo (RLo (R 15) 5) (R 0));
  (2%nat, Ad (R 2) (R 11));
  (11%nat, Xo (RLo (R 11) 20) (R 2));
  (6%nat, Ad (R 6) (R 13));
  (13%nat, Xo (RLo (R 13) 48) (R 6));
  (4%nat, Ad (R 4) (R 9));
  (9%nat, Xo (RLo (R 9) 41) (R 4));
  (14%nat, Ad (R 14) (R 1));
  (1%nat, Xo (RLo (R 1) 47) (R 14));
  (8%nat, Ad (R 8) (R 5));
  (5%nat, Xo (RLo (R 5) 28) (R 8));
  (10%nat, Ad (R 10) (R 3));
  (3%nat, Xo (RLo (R 3) 16) (R 10));
  (12%nat, Ad (R 12) (R 7));
  (7%nat, Xo (RLo (R 7) 25) (R 12));
  (1%nat, Ad (R 1) (R 17));
  (0%nat, Ad (R 0) (Ad (R 1) (R 16)));
  (1%nat, Xo (RLo (R 1) 41) (R 0));
  (3%nat, Ad (R 3) (R 19));
  (2%nat, Ad (R 2) (Ad (R 3) (R 18)));
  (3%nat, Xo (RLo (R 3) 9) (R 2));
  (5%nat, Ad (R 5) (R 21));
  (4%nat, Ad (R 4) (Ad (R 5) (R 20)));
  (5%nat, Xo (RLo (R 5) 37) (R 4));
  (7%nat, Ad (R 7) (R 23));
  (6%nat, Ad (R 6) (Ad (R 7) (R 22)));
  (7%nat, Xo (RLo (R 7) 31) (R 6));
  (9%nat, Ad (R 9) (R 25));
  (8%nat, Ad (R 8) (Ad (R 9) (R 24)));
  (9%nat, Xo (RLo (R 9) 12) (R 8));
  (11%nat, Ad (R 11) (R 27));
  (10%nat, Ad (R 10) (Ad (R 11) (R 26)));
  (11%nat, Xo (RLo (R 11) 47) (R 10));
  (13%nat, Ad (R 13) (Ad (R 29) (R 35)));
  (12%nat, Ad (R 12) (Ad (R 13) (R 28)));
  (13%nat, Xo (RLo (R 13) 44) (R 12));
  (15%nat, Ad (R 15) (Ad (R 31) (K 0x11)));
  (14%nat, Ad (R 14) (Ad (Ad (R 15) (R 30)) (R 33)));
  (15%nat, Xo (RLo (R 15) 30) (R 14));
  (0%nat, Ad (R 0) (R 9));
  (9%nat, Xo (RLo (R 9) 16) (R 0));
  (2%nat, Ad (R 2) (R 13));
  (13%nat, Xo (RLo (R 13) 34) (R 2));
  (6%nat, Ad (R 6) (R 11));
  (11%nat, Xo (RLo (R 11) 56) (R 6));
  (4%nat, Ad (R 4) (R 15));
  (15%nat, Xo (RLo (R 15) 51) (R 4));
  (10%nat, Ad (R 10) (R 7));
  (7%nat, Xo (RLo (R 7) 4) (R 10));
  (12%nat, Ad (R 12) (R 3));
  (3%nat, Xo (RLo (R 3) 53) (R 12));
  (14%nat, Ad (R 14) (R 5));
  (5%nat, Xo (RLo (R 5) 42) (R 14));
  (8%nat, Ad (R 8) (R 1));
  (1%nat, Xo (RLo (R 1) 41) (R 8));
  (0%nat, Ad (R 0) (R 7));
  (7%nat, Xo (RLo (R 7) 31) (R 0));
  (2%nat, Ad (R 2) (R 5));
  (5%nat, Xo (RLo (R 5) 44) (R 2));
  (4%nat, Ad (R 4) (R 3));
  (3%nat, Xo (RLo (R 3) 47) (R 4));
  (6%nat, Ad (R 6) (R 1));
  (1%nat, Xo (RLo (R 1) 46) (R 6));
  (12%nat, Ad (R 12) (R 15));
  (15%nat, Xo (RLo (R 15) 19) (R 12));
  (14%nat, Ad (R 14) (R 13));
  (13%nat, Xo (RLo (R 13) 42) (R 14));
  (8%nat, Ad (R 8) (R 11));
  (11%nat, Xo (RLo (R 11) 44) (R 8));
  (10%nat, Ad (R 10) (R 9));
  (9%nat, Xo (RLo (R 9) 25) (R 10));
  (0%nat, Ad (R 0) (R 15));
  (15%nat, Xo (RLo (R 15) 9) (R 0));
  (2%nat, Ad (R 2) (R 11));
  (11%nat, Xo (RLo (R 11) 48) (R 2));
  (6%nat, Ad (R 6) (R 13));
  (13%nat, Xo (RLo (R 13) 35) (R 6));
  (4%nat, Ad (R 4) (R 9));
  (9%nat, Xo (RLo (R 9) 52) (R 4));
  (14%nat, Ad (R 14) (R 1));
  (1%nat, Xo (RLo (R 1) 23) (R 14));
  (8%nat, Ad (R 8) (R 5));
  (5%nat, Xo (RLo (R 5) 31) (R 8));
  (10%nat, Ad (R 10) (R 3));
  (3%nat, Xo (RLo (R 3) 37) (R 10));
  (12%nat, Ad (R 12) (R 7));
  (7%nat, Xo (RLo (R 7) 20) (R 12));
  (1%nat, Ad (R 1) (R 18));
  (0%nat, Ad (R 0) (Ad (R 1) (R 17)));
  (1%nat, Xo (RLo (R 1) 24) (R 0));
  (3%nat, Ad (R 3) (R 20));
  (2%nat, Ad (R 2) (Ad (R 3) (R 19)));
  (3%nat, Xo (RLo (R 3) 13) (R 2));
  (5%nat, Ad (R 5) (R 22));
  (4%nat, Ad (R 4) (Ad (R 5) (R 21)));
  (5%nat, Xo (RLo (R 5) 8) (R 4));
  (7%nat, Ad (R 7) (R 24));
  (6%nat, Ad (R 6) (Ad (R 7) (R 23)));
  (7%nat, Xo (RLo (R 7) 47) (R 6));
  (9%nat, Ad (R 9) (R 26));
  (8%nat, Ad (R 8) (Ad (R 9) (R 25)));
  (9%nat, Xo (RLo (R 9) 8) (R 8));
  (11%nat, Ad (R 11) (R 28));
  (10%nat, Ad (R 10) (Ad (R 11) (R 27)));
  (11%nat, Xo (RLo (R 11) 17) (R 10));
  (13%nat, Ad (R 13) (Ad (R 30) (R 33)));
  (12%nat, Ad (R 12) (Ad (R 13) (R 29)));
  (13%nat, Xo (RLo (R 13) 22) (R 12));
  (15%nat, Ad (R 15) (Ad (R 32) (K 0x12)));
  (14%nat, Ad (R 14) (Ad (Ad (R 15) (R 31)) (R 34)));
  (15%nat, Xo (RLo (R 15) 37) (R 14));
  (0%nat, Ad (R 0) (R 9));
  (9%nat, Xo (RLo (R 9) 38) (R 0));
  (2%nat, Ad (R 2) (R 13));
  (13%nat, Xo (RLo (R 13) 19) (R 2));
  (6%nat, Ad (R 6) (R 11));
  (11%nat, Xo (RLo (R 11) 10) (R 6));
  (4%nat, Ad (R 4) (R 15));
  (15%nat, Xo (RLo (R 15) 55) (R 4));
  (10%nat, Ad (R 10) (R 7));
  (7%nat, Xo (RLo (R 7) 49) (R 10));
  (12%nat, Ad (R 12) (R 3));
  (3%nat, Xo (RLo (R 3) 18) (R 12));
  (14%nat, Ad (R 14) (R 5));
  (5%nat, Xo (RLo (R 5) 23) (R 14));
  (8%nat, Ad (R 8) (R 1));
  (1%nat, Xo (RLo (R 1) 52) (R 8));
  (0%nat, Ad (R 0) (R 7));
  (7%nat, Xo (RLo (R 7) 33) (R 0));
  (2%nat, Ad (R 2) (R 5));
  (5%nat, Xo (RLo (R 5) 4) (R 2));
  (4%nat, Ad (R 4) (R 3));
  (3%nat, Xo (RLo (R 3) 51) (R 4));
  (6%nat, Ad (R 6) (R 1));
  (1%nat, Xo (RLo (R 1) 13) (R 6));
  (12%nat, Ad (R 12) (R 15));
  (15%nat, Xo (RLo (R 15) 34) (R 12));
  (14%nat, Ad (R 14) (R 13));
  (13%nat, Xo (RLo (R 13) 41) (R 14));
  (8%nat, Ad (R 8) (R 11));
  (11%nat, Xo (RLo (R 11) 59) (R 8));
  (10%nat, Ad (R 10) (R 9));
  (9%nat, Xo (RLo (R 9) 17) (R 10));
  (0%nat, Ad (R 0) (R 15));
  (15%nat, Xo (RLo (R 15) 5) (R 0));
  (2%nat, Ad (R 2) (R 11));
  (11%nat, Xo (RLo (R 11) 20) (R 2));
  (6%nat, Ad (R 6) (R 13));
  (13%nat, Xo (RLo (R 13) 48) (R 6));
  (4%nat, Ad (R 4) (R 9));
  (9%nat, Xo (RLo (R 9) 41) (R 4));
  (14%nat, Ad (R 14) (R 1));
  (1%nat, Xo (RLo (R 1) 47) (R 14));
  (8%nat, Ad (R 8) (R 5));
  (5%nat, Xo (RLo (R 5) 28) (R 8));
  (10%nat, Ad (R 10) (R 3));
  (3%nat, Xo (RLo (R 3) 16) (R 10));
  (12%nat, Ad (R 12) (R 7));
  (7%nat, Xo (RLo (R 7) 25) (R 12));
  (1%nat, Ad (R 1) (R 19));
  (0%nat, Ad (R 0) (Ad (R 1) (R 18)));
  (1%nat, Xo (RLo (R 1) 41) (R 0));
  (3%nat, Ad (R 3) (R 21));
  (2%nat, Ad (R 2) (Ad (R 3) (R 20)));
  (3%nat, Xo (RLo (R 3) 9) (R 2));
  (5%nat, Ad (R 5) (R 23));
  (4%nat, Ad (R 4) (Ad (R 5) (R 22)));
  (5%nat, Xo (RLo (R 5) 37) (R 4));
  (7%nat, Ad (R 7) (R 25));
  (6%nat, Ad (R 6) (Ad (R 7) (R 24)));
  (7%nat, Xo (RLo (R 7) 31) (R 6));
  (9%nat, Ad (R 9) (R 27));
  (8%nat, Ad (R 8) (Ad (R 9) (R 26)));
  (9%nat, Xo (RLo (R 9) 12) (R 8));
  (11%nat, Ad (R 11) (R 29));
  (10%nat, Ad (R 10) (Ad (R 11) (R 28)));
  (11%nat, Xo (RLo (R 11) 47) (R 10));
  (13%nat, Ad (R 13) (Ad (R 31) (R 34)));
  (12%nat, Ad (R 12) (Ad (R 13) (R 30)));
  (13%nat, Xo (RLo (R 13) 44) (R 12));
  (15%nat, Ad (R 15) (Ad (R 16) (K 0x13)));
  (14%nat, Ad (R 14) (Ad (Ad (R 15) (R 32)) (R 35)));
  (15%nat, Xo (RLo (R 15) 30) (R 14));
  (0%nat, Ad (R 0) (R 9));
  (9%nat, Xo (RLo (R 9) 16) (R 0));
  (2%nat, Ad (R 2) (R 13));
  (13%nat, Xo (RLo (R 13) 34) (R 2));
  (6%nat, Ad (R 6) (R 11));
  (11%nat, Xo (RLo (R 11) 56) (R 6));
  (4%nat, Ad (R 4) (R 15));
  (15%nat, Xo (RLo (R 15) 51) (R 4));
  (10%nat, Ad (R 10) (R 7));
  (7%nat, Xo (RLo (R 7) 4) (R 10));
  (12%nat, Ad (R 12) (R 3));
  (3%nat, Xo (RLo (R 3) 53) (R 12));
  (14%nat, Ad (R 14) (R 5));
  (5%nat, Xo (RLo (R 5) 42) (R 14));
  (8%nat, Ad (R 8) (R 1));
  (1%nat, Xo (RLo (R 1) 41) (R 8));
  (0%nat, Ad (R 0) (R 7));
  (7%nat, Xo (RLo (R 7) 31) (R 0));
  (2%nat, Ad (R 2) (R 5));
  (5%nat, Xo (RLo (R 5) 44) (R 2));
  (4%nat, Ad (R 4) (R 3));
  (3%nat, Xo (RLo (R 3) 47) (R 4));
  (6%nat, Ad (R 6) (R 1));
  (1%nat, Xo (RLo (R 1) 46) (R 6));
  (12%nat, Ad (R 12) (R 15));
  (15%nat, Xo (RLo (R 15) 19) (R 12));
  (14%nat, Ad (R 14) (R 13));
  (13%nat, Xo (RLo (R 13) 42) (R 14));
  (8%nat, Ad (R 8) (R 11));
  (11%nat, Xo (RLo (R 11) 44) (R 8));
  (10%nat, Ad (R 10) (R 9));
  (9%nat, Xo (RLo (R 9) 25) (R 10));
  (0%nat, Ad (R 0) (R 15));
  (15%nat, Xo (RLo (R 15) 9) (R 0));
  (2%nat, Ad (R 2) (R 11));
  (11%nat, Xo (RLo (R 11) 48) (R 2));
  (6%nat, Ad (R 6) (R 13));
  (13%nat, Xo (RLo (R 13) 35) (R 6));
  (4%nat, Ad (R 4) (R 9));
  (9%nat, Xo (RLo (R 9) 52) (R 4));
  (14%nat, Ad (R 14) (R 1));
  (1%nat, Xo (RLo (R 1) 23) (R 14));
  (8%nat, Ad (R 8) (R 5));
  (5%nat, Xo (RLo (R 5) 31) (R 8));
  (10%nat, Ad (R 10) (R 3));
  (3%nat, Xo (RLo (R 3) 37) (R 10));
  (12%nat, Ad (R 12) (R 7));
  (7%nat, Xo (RLo (R 7) 20) (R 12));
  (54%nat, Ad (R 0) (R 19));
  (55%nat, Ad (R 1) (R 20));
  (56%nat, Ad (R 2) (R 21));
  (57%nat, Ad (R 3) (R 22));
  (58%nat, Ad (R 4) (R 23));
  (59%nat, Ad (R 5) (R 24));
  (60%nat, Ad (R 6) (R 25));
  (61%nat, Ad (R 7) (R 26));
  (62%nat, Ad (R 8) (R 27));
  (63%nat, Ad (R 9) (R 28));
  (64%nat, Ad (R 10) (R 29));
  (65%nat, Ad (R 11) (R 30));
  (66%nat, Ad (R 12) (R 31));
  (67%nat, Ad (Ad (R 13) (R 32)) (R 35));
  (68%nat, Ad (Ad (R 14) (R 16)) (R 33));
  (69%nat, Ad (Ad (R 15) (R 17)) (K 0x14))
].
