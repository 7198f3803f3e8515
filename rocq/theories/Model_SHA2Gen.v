(** The unrolled SHA-2 block functions as statement lists (see Model_Straight.v).
    GENERATED by tools/gen_sha2.py from CEX/SHA2.h; do not edit. *)
From Verif Require Import Base Model_Straight.
Open Scope Z_scope.

(** CEX/SHA2.h:345-648, body of SHA2::PermuteR64P512U: generated by tools/straight.py, one entry per statement.
    Registers: 0=A, 1=B, 2=C, 3=D, 4=E, 5=F, 6=G, 7=H, 8=R, 9=W0, 10=W1, 11=W2, 12=W3, 13=W4, 14=W5, 15=W6, 16=W7, 17=W8, 18=W9, 19=W10, 20=W11, 21=W12, 22=W13, 23=W14, 24=W15, 25=State[0], 26=State[1], 27=State[2], 28=State[3], 29=State[4], 30=State[5], 31=State[6], 32=State[7], 33=Input[0], 34=Input[1], 35=Input[2], 36=Input[3], 37=Input[4], 38=Input[5], 39=Input[6], 40=Input[7], 41=Input[8], 42=Input[9], 43=Input[10], 44=Input[11], 45=Input[12], 46=Input[13], 47=Input[14], 48=Input[15]. *)
Definition sha256_U : prog := [
  (0%nat, R 25);
  (1%nat, R 26);
  (2%nat, R 27);
  (3%nat, R 28);
  (4%nat, R 29);
  (5%nat, R 30);
  (6%nat, R 31);
  (7%nat, R 32);
  (9%nat, R 33);
  (10%nat, R 34);
  (11%nat, R 35);
  (12%nat, R 36);
  (13%nat, R 37);
  (14%nat, R 38);
  (15%nat, R 39);
  (16%nat, R 40);
  (17%nat, R 41);
  (18%nat, R 42);
  (19%nat, R 43);
  (20%nat, R 44);
  (21%nat, R 45);
  (22%nat, R 46);
  (23%nat, R 47);
  (24%nat, R 48);
  (8%nat, Ad (Ad (Ad (Ad (R 7) (Xo (Xo (Or (SR (R 4) 6) (SL (R 4) 26)) (Or (SR (R 4) 11) (SL (R 4) 21))) (Or (SR (R 4) 25) (SL (R 4) 7)))) (Xo (An (R 4) (R 5)) (An (No (R 4)) (R 6)))) (R 9)) (K 0x428A2F98));
  (3%nat, Ad (R 3) (R 8));
  (7%nat, Ad (R 8) (Ad (Xo (Xo (Or (SR (R 0) 2) (SL (R 0) 30)) (Or (SR (R 0) 13) (SL (R 0) 19))) (Or (SR (R 0) 22) (SL (R 0) 10))) (Xo (Xo (An (R 0) (R 1)) (An (R 0) (R 2))) (An (R 1) (R 2)))));
  (8%nat, Ad (Ad (Ad (Ad (R 6) (Xo (Xo (Or (SR (R 3) 6) (SL (R 3) 26)) (Or (SR (R 3) 11) (SL (R 3) 21))) (Or (SR (R 3) 25) (SL (R 3) 7)))) (Xo (An (R 3) (R 4)) (An (No (R 3)) (R 5)))) (R 10)) (K 0x71374491));
  (2%nat, Ad (R 2) (R 8));
  (6%nat, Ad (R 8) (Ad (Xo (Xo (Or (SR (R 7) 2) (SL (R 7) 30)) (Or (SR (R 7) 13) (SL (R 7) 19))) (Or (SR (R 7) 22) (SL (R 7) 10))) (Xo (Xo (An (R 7) (R 0)) (An (R 7) (R 1))) (An (R 0) (R 1)))));
  (8%nat, Ad (Ad (Ad (Ad (R 5) (Xo (Xo (Or (SR (R 2) 6) (SL (R 2) 26)) (Or (SR (R 2) 11) (SL (R 2) 21))) (Or (SR (R 2) 25) (SL (R 2) 7)))) (Xo (An (R 2) (R 3)) (An (No (R 2)) (R 4)))) (R 11)) (K 0xB5C0FBCF));
  (1%nat, Ad (R 1) (R 8));
  (5%nat, Ad (R 8) (Ad (Xo (Xo (Or (SR (R 6) 2) (SL (R 6) 30)) (Or (SR (R 6) 13) (SL (R 6) 19))) (Or (SR (R 6) 22) (SL (R 6) 10))) (Xo (Xo (An (R 6) (R 7)) (An (R 6) (R 0))) (An (R 7) (R 0)))));
  (8%nat, Ad (Ad (Ad (Ad (R 4) (Xo (Xo (Or (SR (R 1) 6) (SL (R 1) 26)) (Or (SR (R 1) 11) (SL (R 1) 21))) (Or (SR (R 1) 25) (SL (R 1) 7)))) (Xo (An (R 1) (R 2)) (An (No (R 1)) (R 3)))) (R 12)) (K 0xE9B5DBA5));
  (0%nat, Ad (R 0) (R 8));
  (4%nat, Ad (R 8) (Ad (Xo (Xo (Or (SR (R 5) 2) (SL (R 5) 30)) (Or (SR (R 5) 13) (SL (R 5) 19))) (Or (SR (R 5) 22) (SL (R 5) 10))) (Xo (Xo (An (R 5) (R 6)) (An (R 5) (R 7))) (An (R 6) (R 7)))));
  (8%nat, Ad (Ad (Ad (Ad (R 3) (Xo (Xo (Or (SR (R 0) 6) (SL (R 0) 26)) (Or (SR (R 0) 11) (SL (R 0) 21))) (Or (SR (R 0) 25) (SL (R 0) 7)))) (Xo (An (R 0) (R 1)) (An (No (R 0)) (R 2)))) (R 13)) (K 0x3956C25B));
  (7%nat, Ad (R 7) (R 8));
  (3%nat, Ad (R 8) (Ad (Xo (Xo (Or (SR (R 4) 2) (SL (R 4) 30)) (Or (SR (R 4) 13) (SL (R 4) 19))) (Or (SR (R 4) 22) (SL (R 4) 10))) (Xo (Xo (An (R 4) (R 5)) (An (R 4) (R 6))) (An (R 5) (R 6)))));
  (8%nat, Ad (Ad (Ad (Ad (R 2) (Xo (Xo (Or (SR (R 7) 6) (SL (R 7) 26)) (Or (SR (R 7) 11) (SL (R 7) 21))) (Or (SR (R 7) 25) (SL (R 7) 7)))) (Xo (An (R 7) (R 0)) (An (No (R 7)) (R 1)))) (R 14)) (K 0x59F111F1));
  (6%nat, Ad (R 6) (R 8));
  (2%nat, Ad (R 8) (Ad (Xo (Xo (Or (SR (R 3) 2) (SL (R 3) 30)) (Or (SR (R 3) 13) (SL (R 3) 19))) (Or (SR (R 3) 22) (SL (R 3) 10))) (Xo (Xo (An (R 3) (R 4)) (An (R 3) (R 5))) (An (R 4) (R 5)))));
  (8%nat, Ad (Ad (Ad (Ad (R 1) (Xo (Xo (Or (SR (R 6) 6) (SL (R 6) 26)) (Or (SR (R 6) 11) (SL (R 6) 21))) (Or (SR (R 6) 25) (SL (R 6) 7)))) (Xo (An (R 6) (R 7)) (An (No (R 6)) (R 0)))) (R 15)) (K 0x923F82A4));
  (5%nat, Ad (R 5) (R 8));
  (1%nat, Ad (R 8) (Ad (Xo (Xo (Or (SR (R 2) 2) (SL (R 2) 30)) (Or (SR (R 2) 13) (SL (R 2) 19))) (Or (SR (R 2) 22) (SL (R 2) 10))) (Xo (Xo (An (R 2) (R 3)) (An (R 2) (R 4))) (An (R 3) (R 4)))));
  (8%nat, Ad (Ad (Ad (Ad (R 0) (Xo (Xo (Or (SR (R 5) 6) (SL (R 5) 26)) (Or (SR (R 5) 11) (SL (R 5) 21))) (Or (SR (R 5) 25) (SL (R 5) 7)))) (Xo (An (R 5) (R 6)) (An (No (R 5)) (R 7)))) (R 16)) (K 0xAB1C5ED5));
  (4%nat, Ad (R 4) (R 8));
  (0%nat, Ad (R 8) (Ad (Xo (Xo (Or (SR (R 1) 2) (SL (R 1) 30)) (Or (SR (R 1) 13) (SL (R 1) 19))) (Or (SR (R 1) 22) (SL (R 1) 10))) (Xo (Xo (An (R 1) (R 2)) (An (R 1) (R 3))) (An (R 2) (R 3)))));
  (8%nat, Ad (Ad (Ad (Ad (R 7) (Xo (Xo (Or (SR (R 4) 6) (SL (R 4) 26)) (Or (SR (R 4) 11) (SL (R 4) 21))) (Or (SR (R 4) 25) (SL (R 4) 7)))) (Xo (An (R 4) (R 5)) (An (No (R 4)) (R 6)))) (R 17)) (K 0xD807AA98));
  (3%nat, Ad (R 3) (R 8));
  (7%nat, Ad (R 8) (Ad (Xo (Xo (Or (SR (R 0) 2) (SL (R 0) 30)) (Or (SR (R 0) 13) (SL (R 0) 19))) (Or (SR (R 0) 22) (SL (R 0) 10))) (Xo (Xo (An (R 0) (R 1)) (An (R 0) (R 2))) (An (R 1) (R 2)))));
  (8%nat, Ad (Ad (Ad (Ad (R 6) (Xo (Xo (Or (SR (R 3) 6) (SL (R 3) 26)) (Or (SR (R 3) 11) (SL (R 3) 21))) (Or (SR (R 3) 25) (SL (R 3) 7)))) (Xo (An (R 3) (R 4)) (An (No (R 3)) (R 5)))) (R 18)) (K 0x12835B01));
  (2%nat, Ad (R 2) (R 8));
  (6%nat, Ad (R 8) (Ad (Xo (Xo (Or (SR (R 7) 2) (SL (R 7) 30)) (Or (SR (R 7) 13) (SL (R 7) 19))) (Or (SR (R 7) 22) (SL (R 7) 10))) (Xo (Xo (An (R 7) (R 0)) (An (R 7) (R 1))) (An (R 0) (R 1)))));
  (8%nat, Ad (Ad (Ad (Ad (R 5) (Xo (Xo (Or (SR (R 2) 6) (SL (R 2) 26)) (Or (SR (R 2) 11) (SL (R 2) 21))) (Or (SR (R 2) 25) (SL (R 2) 7)))) (Xo (An (R 2) (R 3)) (An (No (R 2)) (R 4)))) (R 19)) (K 0x243185BE));
  (1%nat, Ad (R 1) (R 8));
  (5%nat, Ad (R 8) (Ad (Xo (Xo (Or (SR (R 6) 2) (SL (R 6) 30)) (Or (SR (R 6) 13) (SL (R 6) 19))) (Or (SR (R 6) 22) (SL (R 6) 10))) (Xo (Xo (An (R 6) (R 7)) (An (R 6) (R 0))) (An (R 7) (R 0)))));
  (8%nat, Ad (Ad (Ad (Ad (R 4) (Xo (Xo (Or (SR (R 1) 6) (SL (R 1) 26)) (Or (SR (R 1) 11) (SL (R 1) 21))) (Or (SR (R 1) 25) (SL (R 1) 7)))) (Xo (An (R 1) (R 2)) (An (No (R 1)) (R 3)))) (R 20)) (K 0x550C7DC3));
  (0%nat, Ad (R 0) (R 8));
  (4%nat, Ad (R 8) (Ad (Xo (Xo (Or (SR (R 5) 2) (SL (R 5) 30)) (Or (SR (R 5) 13) (SL (R 5) 19))) (Or (SR (R 5) 22) (SL (R 5) 10))) (Xo (Xo (An (R 5) (R 6)) (An (R 5) (R 7))) (An (R 6) (R 7)))));
  (8%nat, Ad (Ad (Ad (Ad (R 3) (Xo (Xo (Or (SR (R 0) 6) (SL (R 0) 26)) (Or (SR (R 0) 11) (SL (R 0) 21))) (Or (SR (R 0) 25) (SL (R 0) 7)))) (Xo (An (R 0) (R 1)) (An (No (R 0)) (R 2)))) (R 21)) (K 0x72BE5D74));
  (7%nat, Ad (R 7) (R 8));
  (3%nat, Ad (R 8) (Ad (Xo (Xo (Or (SR (R 4) 2) (SL (R 4) 30)) (Or (SR (R 4) 13) (SL (R 4) 19))) (Or (SR (R 4) 22) (SL (R 4) 10))) (Xo (Xo (An (R 4) (R 5)) (An (R 4) (R 6))) (An (R 5) (R 6)))));
  (8%nat, Ad (Ad (Ad (Ad (R 2) (Xo (Xo (Or (SR (R 7) 6) (SL (R 7) 26)) (Or (SR (R 7) 11) (SL (R 7) 21))) (Or (SR (R 7) 25) (SL (R 7) 7)))) (Xo (An (R 7) (R 0)) (An (No (R 7)) (R 1)))) (R 22)) (K 0x80DEB1FE));
  (6%nat, Ad (R 6) (R 8));
  (2%nat, Ad (R 8) (Ad (Xo (Xo (Or (SR (R 3) 2) (SL (R 3) 30)) (Or (SR (R 3) 13) (SL (R 3) 19))) (Or (SR (R 3) 22) (SL (R 3) 10))) (Xo (Xo (An (R 3) (R 4)) (An (R 3) (R 5))) (An (R 4) (R 5)))));
  (8%nat, Ad (Ad (Ad (Ad (R 1) (Xo (Xo (Or (SR (R 6) 6) (SL (R 6) 26)) (Or (SR (R 6) 11) (SL (R 6) 21))) (Or (SR (R 6) 25) (SL (R 6) 7)))) (Xo (An (R 6) (R 7)) (An (No (R 6)) (R 0)))) (R 23)) (K 0x9BDC06A7));
  (5%nat, Ad (R 5) (R 8));
  (1%nat, Ad (R 8) (Ad (Xo (Xo (Or (SR (R 2) 2) (SL (R 2) 30)) (Or (SR (R 2) 13) (SL (R 2) 19))) (Or (SR (R 2) 22) (SL (R 2) 10))) (Xo (Xo (An (R 2) (R 3)) (An (R 2) (R 4))) (An (R 3) (R 4)))));
  (8%nat, Ad (Ad (Ad (Ad (R 0) (Xo (Xo (Or (SR (R 5) 6) (SL (R 5) 26)) (Or (SR (R 5) 11) (SL (R 5) 21))) (Or (SR (R 5) 25) (SL (R 5) 7)))) (Xo (An (R 5) (R 6)) (An (No (R 5)) (R 7)))) (R 24)) (K 0xC19BF174));
  (4%nat, Ad (R 4) (R 8));
  (0%nat, Ad (R 8) (Ad (Xo (Xo (Or (SR (R 1) 2) (SL (R 1) 30)) (Or (SR (R 1) 13) (SL (R 1) 19))) (Or (SR (R 1) 22) (SL (R 1) 10))) (Xo (Xo (An (R 1) (R 2)) (An (R 1) (R 3))) (An (R 2) (R 3)))));
  (9%nat, Ad (R 9) (Ad (Ad (Xo (Xo (Or (SR (R 23) 17) (SL (R 23) 15)) (Or (SR (R 23) 19) (SL (R 23) 13))) (SR (R 23) 10)) (R 18)) (Xo (Xo (Or (SR (R 10) 7) (SL (R 10) 25)) (Or (SR (R 10) 18) (SL (R 10) 14))) (SR (R 10) 3))));
  (8%nat, Ad (Ad (Ad (Ad (R 7) (Xo (Xo (Or (SR (R 4) 6) (SL (R 4) 26)) (Or (SR (R 4) 11) (SL (R 4) 21))) (Or (SR (R 4) 25) (SL (R 4) 7)))) (Xo (An (R 4) (R 5)) (An (No (R 4)) (R 6)))) (R 9)) (K 0xE49B69C1));
  (3%nat, Ad (R 3) (R 8));
  (7%nat, Ad (R 8) (Ad (Xo (Xo (Or (SR (R 0) 2) (SL (R 0) 30)) (Or (SR (R 0) 13) (SL (R 0) 19))) (Or (SR (R 0) 22) (SL (R 0) 10))) (Xo (Xo (An (R 0) (R 1)) (An (R 0) (R 2))) (An (R 1) (R 2)))));
  (10%nat, Ad (R 10) (Ad (Ad (Xo (Xo (Or (SR (R 24) 17) (SL (R 24) 15)) (Or (SR (R 24) 19) (SL (R 24) 13))) (SR (R 24) 10)) (R 19)) (Xo (Xo (Or (SR (R 11) 7) (SL (R 11) 25)) (Or (SR (R 11) 18) (SL (R 11) 14))) (SR (R 11) 3))));
  (8%nat, Ad (Ad (Ad (Ad (R 6) (Xo (Xo (Or (SR (R 3) 6) (SL (R 3) 26)) (Or (SR (R 3) 11) (SL (R 3) 21))) (Or (SR (R 3) 25) (SL (R 3) 7)))) (Xo (An (R 3) (R 4)) (An (No (R 3)) (R 5)))) (R 10)) (K 0xEFBE4786));
  (2%nat, Ad (R 2) (R 8));
  (6%nat, Ad (R 8) (Ad (Xo (Xo (Or (SR (R 7) 2) (SL (R 7) 30)) (Or (SR (R 7) 13) (SL (R 7) 19))) (Or (SR (R 7) 22) (SL (R 7) 10))) (Xo (Xo (An (R 7) (R 0)) (An (R 7) (R 1))) (An (R 0) (R 1)))));
  (11%nat, Ad (R 11) (Ad (Ad (Xo (Xo (Or (SR (R 9) 17) (SL (R 9) 15)) (Or (SR (R 9) 19) (SL (R 9) 13))) (SR (R 9) 10)) (R 20)) (Xo (Xo (Or (SR (R 12) 7) (SL (R 12) 25)) (Or (SR (R 12) 18) (SL (R 12) 14))) (SR (R 12) 3))));
  (8%nat, Ad (Ad (Ad (Ad (R 5) (Xo (Xo (Or (SR (R 2) 6) (SL (R 2) 26)) (Or (SR (R 2) 11) (SL (R 2) 21))) (Or (SR (R 2) 25) (SL (R 2) 7)))) (Xo (An (R 2) (R 3)) (An (No (R 2)) (R 4)))) (R 11)) (K 0xFC19DC6));
  (1%nat, Ad (R 1) (R 8));
  (5%nat, Ad (R 8) (Ad (Xo (Xo (Or (SR (R 6) 2) (SL (R 6) 30)) (Or (SR (R 6) 13) (SL (R 6) 19))) (Or (SR (R 6) 22) (SL (R 6) 10))) (Xo (Xo (An (R 6) (R 7)) (An (R 6) (R 0))) (An (R 7) (R 0)))));
  (12%nat, Ad (R 12) (Ad (Ad (Xo (Xo (Or (SR (R 10) 17) (SL (R 10) 15)) (Or (SR (R 10) 19) (SL (R 10) 13))) (SR (R 10) 10)) (R 21)) (Xo (Xo (Or (SR (R 13) 7) (SL (R 13) 25)) (Or (SR (R 13) 18) (SL (R 13) 14))) (SR (R 13) 3))));
  (8%nat, Ad (Ad (Ad (Ad (R 4) (Xo (Xo (Or (SR (R 1) 6) (SL (R 1) 26)) (Or (SR (R 1) 11) (SL (R 1) 21))) (Or (SR (R 1) 25) (SL (R 1) 7)))) (Xo (An (R 1) (R 2)) (An (No (R 1)) (R 3)))) (R 12)) (K 0x240CA1CC));
  (0%nat, Ad (R 0) (R 8));
  (4%nat, Ad (R 8) (Ad (Xo (Xo (Or (SR (R 5) 2) (SL (R 5) 30)) (Or (SR (R 5) 13) (SL (R 5) 19))) (Or (SR (R 5) 22) (SL (R 5) 10))) (Xo (Xo (An (R 5) (R 6)) (An (R 5) (R 7))) (An (R 6) (R 7)))));
  (13%nat, Ad (R 13) (Ad (Ad (Xo (Xo (Or (SR (R 11) 17) (SL (R 11) 15)) (Or (SR (R 11) 19) (SL (R 11) 13))) (SR (R 11) 10)) (R 22)) (Xo (Xo (Or (SR (R 14) 7) (SL (R 14) 25)) (Or (SR (R 14) 18) (SL (R 14) 14))) (SR (R 14) 3))));
  (8%nat, Ad (Ad (Ad (Ad (R 3) (Xo (Xo (Or (SR (R 0) 6) (SL (R 0) 26)) (Or (SR (R 0) 11) (SL (R 0) 21))) (Or (SR (R 0) 25) (SL (R 0) 7)))) (Xo (An (R 0) (R 1)) (An (No (R 0)) (R 2)))) (R 13)) (K 0x2DE92C6F));
  (7%nat, Ad (R 7) (R 8));
  (3%nat, Ad (R 8) (Ad (Xo (Xo (Or (SR (R 4) 2) (SL (R 4) 30)) (Or (SR (R 4) 13) (SL (R 4) 19))) (Or (SR (R 4) 22) (SL (R 4) 10))) (Xo (Xo (An (R 4) (R 5)) (An (R 4) (R 6))) (An (R 5) (R 6)))));
  (14%nat, Ad (R 14) (Ad (Ad (Xo (Xo (Or (SR (R 12) 17) (SL (R 12) 15)) (Or (SR (R 12) 19) (SL (R 12) 13))) (SR (R 12) 10)) (R 23)) (Xo (Xo (Or (SR (R 15) 7) (SL (R 15) 25)) (Or (SR (R 15) 18) (SL (R 15) 14))) (SR (R 15) 3))));
  (8%nat, Ad (Ad (Ad (Ad (R 2) (Xo (Xo (Or (SR (R 7) 6) (SL (R 7) 26)) (Or (SR (R 7) 11) (SL (R 7) 21))) (Or (SR (R 7) 25) (SL (R 7) 7)))) (Xo (An (R 7) (R 0)) (An (No (R 7)) (R 1)))) (R 14)) (K 0x4A7484AA));
  (6%nat, Ad (R 6) (R 8));
  (2%nat, Ad (R 8) (Ad (Xo (Xo (Or (SR (R 3) 2) (SL (R 3) 30)) (Or (SR (R 3) 13) (SL (R 3) 19))) (Or (SR (R 3) 22) (SL (R 3) 10))) (Xo (Xo (An (R 3) (R 4)) (An (R 3) (R 5))) (An (R 4) (R 5)))));
  (15%nat, Ad (R 15) (Ad (Ad (Xo (Xo (Or (SR (R 13) 17) (SL (R 13) 15)) (Or (SR (R 13) 19) (SL (R 13) 13))) (SR (R 13) 10)) (R 24)) (Xo (Xo (Or (SR (R 16) 7) (SL (R 16) 25)) (Or (SR (R 16) 18) (SL (R 16) 14))) (SR (R 16) 3))));
  (8%nat, Ad (Ad (Ad (Ad (R 1) (Xo (Xo (Or (SR (R 6) 6) (SL (R 6) 26)) (Or (SR (R 6) 11) (SL (R 6) 21))) (Or (SR (R 6) 25) (SL (R 6) 7)))) (Xo (An (R 6) (R 7)) (An (No (R 6)) (R 0)))) (R 15)) (K 0x5CB0A9DC));
  (5%nat, Ad (R 5) (R 8));
  (1%nat, Ad (R 8) (Ad (Xo (Xo (Or (SR (R 2) 2) (SL (R 2) 30)) (Or (SR (R 2) 13) (SL (R 2) 19))) (Or (SR (R 2) 22) (SL (R 2) 10))) (Xo (Xo (An (R 2) (R 3)) (An (R 2) (R 4))) (An (R 3) (R 4)))));
  (16%nat, Ad (R 16) (Ad (Ad (Xo (Xo (Or (SR (R 14) 17) (SL (R 14) 15)) (Or (SR (R 14) 19) (SL (R 14) 13))) (SR (R 14) 10)) (R 9)) (Xo (Xo (Or (SR (R 17) 7) (SL (R 17) 25)) (Or (SR (R 17) 18) (SL (R 17) 14))) (SR (R 17) 3))));
  (8%nat, Ad (Ad (Ad (Ad (R 0) (Xo (Xo (Or (SR (R 5) 6) (SL (R 5) 26)) (Or (SR (R 5) 11) (SL (R 5) 21))) (Or (SR (R 5) 25) (SL (R 5) 7)))) (Xo (An (R 5) (R 6)) (An (No (R 5)) (R 7)))) (R 16)) (K 0x76F988DA));
  (4%nat, Ad (R 4) (R 8));
  (0%nat, Ad (R 8) (Ad (Xo (Xo (Or (SR (R 1) 2) (SL (R 1) 30)) (Or (SR (R 1) 13) (SL (R 1) 19))) (Or (SR (R 1) 22) (SL (R 1) 10))) (Xo (Xo (An (R 1) (R 2)) (An (R 1) (R 3))) (An (R 2) (R 3)))));
  (17%nat, Ad (R 17) (Ad (Ad (Xo (Xo (Or (SR (R 15) 17) (SL (R 15) 15)) (Or (SR (R 15) 19) (SL (R 15) 13))) (SR (R 15) 10)) (R 10)) (Xo (Xo (Or (SR (R 18) 7) (SL (R 18) 25)) (Or (SR (R 18) 18) (SL (R 18) 14))) (SR (R 18) 3))));
  (8%nat, Ad (Ad (Ad (Ad (R 7) (Xo (Xo (Or (SR (R 4) 6) (SL (R 4) 26)) (Or (SR (R 4) 11) (SL (R 4) 21))) (Or (SR (R 4) 25) (SL (R 4) 7)))) (Xo (An (R 4) (R 5)) (An (No (R 4)) (R 6)))) (R 17)) (K 0x983E5152));
  (3%nat, Ad (R 3) (R 8));
  (7%nat, Ad (R 8) (Ad (Xo (Xo (Or (SR (R 0) 2) (SL (R 0) 30)) (Or (SR (R 0) 13) (SL (R 0) 19))) (Or (SR (R 0) 22) (SL (R 0) 10))) (Xo (Xo (An (R 0) (R 1)) (An (R 0) (R 2))) (An (R 1) (R 2)))));
  (18%nat, Ad (R 18) (Ad (Ad (Xo (Xo (Or (SR (R 16) 17) (SL (R 16) 15)) (Or (SR (R 16) 19) (SL (R 16) 13))) (SR (R 16) 10)) (R 11)) (Xo (Xo (Or (SR (R 19) 7) (SL (R 19) 25)) (Or (SR (R 19) 18) (SL (R 19) 14))) (SR (R 19) 3))));
  (8%nat, Ad (Ad (Ad (Ad (R 6) (Xo (Xo (Or (SR (R 3) 6) (SL (R 3) 26)) (Or (SR (R 3) 11) (SL (R 3) 21))) (Or (SR (R 3) 25) (SL (R 3) 7)))) (Xo (An (R 3) (R 4)) (An (No (R 3)) (R 5)))) (R 18)) (K 0xA831C66D));
  (2%nat, Ad (R 2) (R 8));
  (6%nat, Ad (R 8) (Ad (Xo (Xo (Or (SR (R 7) 2) (SL (R 7) 30)) (Or (SR (R 7) 13) (SL (R 7) 19))) (Or (SR (R 7) 22) (SL (R 7) 10))) (Xo (Xo (An (R 7) (R 0)) (An (R 7) (R 1))) (An (R 0) (R 1)))));
  (19%nat, Ad (R 19) (Ad (Ad (Xo (Xo (Or (SR (R 17) 17) (SL (R 17) 15)) (Or (SR (R 17) 19) (SL (R 17) 13))) (SR (R 17) 10)) (R 12)) (Xo (Xo (Or (SR (R 20) 7) (SL (R 20) 25)) (Or (SR (R 20) 18) (SL (R 20) 14))) (SR (R 20) 3))));
  (8%nat, Ad (Ad (Ad (Ad (R 5) (Xo (Xo (Or (SR (R 2) 6) (SL (R 2) 26)) (Or (SR (R 2) 11) (SL (R 2) 21))) (Or (SR (R 2) 25) (SL (R 2) 7)))) (Xo (An (R 2) (R 3)) (An (No (R 2)) (R 4)))) (R 19)) (K 0xB00327C8));
  (1%nat, Ad (R 1) (R 8));
  (5%nat, Ad (R 8) (Ad (Xo (Xo (Or (SR (R 6) 2) (SL (R 6) 30)) (Or (SR (R 6) 13) (SL (R 6) 19))) (Or (SR (R 6) 22) (SL (R 6) 10))) (Xo (Xo (An (R 6) (R 7)) (An (R 6) (R 0))) (An (R 7) (R 0)))));
  (20%nat, Ad (R 20) (Ad (Ad (Xo (Xo (Or (SR (R 18) 17) (SL (R 18) 15)) (Or (SR (R 18) 19) (SL (R 18) 13))) (SR (R 18) 10)) (R 13)) (Xo (Xo (Or (SR (R 21) 7) (SL (R 21) 25)) (Or (SR (R 21) 18) (SL (R 21) 14))) (SR (R 21) 3))));
  (8%nat, Ad (Ad (Ad (Ad (R 4) (Xo (Xo (Or (SR (R 1) 6) (SL (R 1) 26)) (Or (SR (R 1) 11) (SL (R 1) 21))) (Or (SR (R 1) 25) (SL (R 1) 7)))) (Xo (An (R 1) (R 2)) (An (No (R 1)) (R 3)))) (R 20)) (K 0xBF597FC7));
  (0%nat, Ad (R 0) (R 8));
  (4%nat, Ad (R 8) (Ad (Xo (Xo (Or (SR (R 5) 2) (SL (R 5) 30)) (Or (SR (R 5) 13) (SL (R 5) 19))) (Or (SR (R 5) 22) (SL (R 5) 10))) (Xo (Xo (An (R 5) (R 6)) (An (R 5) (R 7))) (An (R 6) (R 7)))));
  (21%nat, Ad (R 21) (Ad (Ad (Xo (Xo (Or (SR (R 19) 17) (SL (R 19) 15)) (Or (SR (R 19) 19) (SL (R 19) 13))) (SR (R 19) 10)) (R 14)) (Xo (Xo (Or (SR (R 22) 7) (SL (R 22) 25)) (Or (SR (R 22) 18) (SL (R 22) 14))) (SR (R 22) 3))));
  (8%nat, Ad (Ad (Ad (Ad (R 3) (Xo (Xo (Or (SR (R 0) 6) (SL (R 0) 26)) (Or (SR (R 0) 11) (SL (R 0) 21))) (Or (SR (R 0) 25) (SL (R 0) 7)))) (Xo (An (R 0) (R 1)) (An (No (R 0)) (R 2)))) (R 21)) (K 0xC6E00BF3));
  (7%nat, Ad (R 7) (R 8));
  (3%nat, Ad (R 8) (Ad (Xo (Xo (Or (SR (R 4) 2) (SL (R 4) 30)) (Or (SR (R 4) 13) (SL (R 4) 19))) (Or (SR (R 4) 22) (SL (R 4) 10))) (Xo (Xo (An (R 4) (R 5)) (An (R 4) (R 6))) (An (R 5) (R 6)))));
  (22%nat, Ad (R 22) (Ad (Ad (Xo (Xo (Or (SR (R 20) 17) (SL (R 20) 15)) (Or (SR (R 20) 19) (SL (R 20) 13))) (SR (R 20) 10)) (R 15)) (Xo (Xo (Or (SR (R 23) 7) (SL (R 23) 25)) (Or (SR (R 23) 18) (SL (R 23) 14))) (SR (R 23) 3))));
  (8%nat, Ad (Ad (Ad (Ad (R 2) (Xo (Xo (Or (SR (R 7) 6) (SL (R 7) 26)) (Or (SR (R 7) 11) (SL (R 7) 21))) (Or (SR (R 7) 25) (SL (R 7) 7)))) (Xo (An (R 7) (R 0)) (An (No (R 7)) (R 1)))) (R 22)) (K 0xD5A79147));
  (6%nat, Ad (R 6) (R 8));
  (2%nat, Ad (R 8) (Ad (Xo (Xo (Or (SR (R 3) 2) (SL (R 3) 30)) (Or (SR (R 3) 13) (SL (R 3) 19))) (Or (SR (R 3) 22) (SL (R 3) 10))) (Xo (Xo (An (R 3) (R 4)) (An (R 3) (R 5))) (An (R 4) (R 5)))));
  (23%nat, Ad (R 23) (Ad (Ad (Xo (Xo (Or (SR (R 21) 17) (SL (R 21) 15)) (Or (SR (R 21) 19) (SL (R 21) 13))) (SR (R 21) 10)) (R 16)) (Xo (Xo (Or (SR (R 24) 7) (SL (R 24) 25)) (Or (SR (R 24) 18) (SL (R 24) 14))) (SR (R 24) 3))));
  (8%nat, Ad (Ad (Ad (Ad (R 1) (Xo (Xo (Or (SR (R 6) 6) (SL (R 6) 26)) (Or (SR (R 6) 11) (SL (R 6) 21))) (Or (SR (R 6) 25) (SL (R 6) 7)))) (Xo (An (R 6) (R 7)) (An (No (R 6)) (R 0)))) (R 23)) (K 0x6CA6351));
  (5%nat, Ad (R 5) (R 8));
  (1%nat, Ad (R 8) (Ad (Xo (Xo (Or (SR (R 2) 2) (SL (R 2) 30)) (Or (SR (R 2) 13) (SL (R 2) 19))) (Or (SR (R 2) 22) (SL (R 2) 10))) (Xo (Xo (An (R 2) (R 3)) (An (R 2) (R 4))) (An (R 3) (R 4)))));
  (24%nat, Ad (R 24) (Ad (Ad (Xo (Xo (Or (SR (R 22) 17) (SL (R 22) 15)) (Or (SR (R 22) 19) (SL (R 22) 13))) (SR (R 22) 10)) (R 17)) (Xo (Xo (Or (SR (R 9) 7) (SL (R 9) 25)) (Or (SR (R 9) 18) (SL (R 9) 14))) (SR (R 9) 3))));
  (8%nat, Ad (Ad (Ad (Ad (R 0) (Xo (Xo (Or (SR (R 5) 6) (SL (R 5) 26)) (Or (SR (R 5) 11) (SL (R 5) 21))) (Or (SR (R 5) 25) (SL (R 5) 7)))) (Xo (An (R 5) (R 6)) (An (No (R 5)) (R 7)))) (R 24)) (K 0x14292967));
  (4%nat, Ad (R 4) (R 8));
  (0%nat, Ad (R 8) (Ad (Xo (Xo (Or (SR (R 1) 2) (SL (R 1) 30)) (Or (SR (R 1) 13) (SL (R 1) 19))) (Or (SR (R 1) 22) (SL (R 1) 10))) (Xo (Xo (An (R 1) (R 2)) (An (R 1) (R 3))) (An (R 2) (R 3)))));
  (9%nat, Ad (R 9) (Ad (Ad (Xo (Xo (Or (SR (R 23) 17) (SL (R 23) 15)) (Or (SR (R 23) 19) (SL (R 23) 13))) (SR (R 23) 10)) (R 18)) (Xo (Xo (Or (SR (R 10) 7) (SL (R 10) 25)) (Or (SR (R 10) 18) (SL (R 10) 14))) (SR (R 10) 3))));
  (8%nat, Ad (Ad (Ad (Ad (R 7) (Xo (Xo (Or (SR (R 4) 6) (SL (R 4) 26)) (Or (SR (R 4) 11) (SL (R 4) 21))) (Or (SR (R 4) 25) (SL (R 4) 7)))) (Xo (An (R 4) (R 5)) (An (No (R 4)) (R 6)))) (R 9)) (K 0x27B70A85));
  (3%nat, Ad (R 3) (R 8));
  (7%nat, Ad (R 8) (Ad (Xo (Xo (Or (SR (R 0) 2) (SL (R 0) 30)) (Or (SR (R 0) 13) (SL (R 0) 19))) (Or (SR (R 0) 22) (SL (R 0) 10))) (Xo (Xo (An (R 0) (R 1)) (An (R 0) (R 2))) (An (R 1) (R 2)))));
  (10%nat, Ad (R 10) (Ad (Ad (Xo (Xo (Or (SR (R 24) 17) (SL (R 24) 15)) (Or (SR (R 24) 19) (SL (R 24) 13))) (SR (R 24) 10)) (R 19)) (Xo (Xo (Or (SR (R 11) 7) (SL (R 11) 25)) (Or (SR (R 11) 18) (SL (R 11) 14))) (SR (R 11) 3))));
  (8%nat, Ad (Ad (Ad (Ad (R 6) (Xo (Xo (Or (SR (R 3) 6) (SL (R 3) 26)) (Or (SR (R 3) 11) (SL (R 3) 21))) (Or (SR (R 3) 25) (SL (R 3) 7)))) (Xo (An (R 3) (R 4)) (An (No (R 3)) (R 5)))) (R 10)) (K 0x2E1B2138));
  (2%nat, Ad (R 2) (R 8));
  (6%nat, Ad (R 8) (Ad (Xo (Xo (Or (SR (R 7) 2) (SL (R 7) 30)) (Or (SR (R 7) 13) (SL (R 7) 19))) (Or (SR (R 7) 22) (SL (R 7) 10))) (Xo (Xo (An (R 7) (R 0)) (An (R 7) (R 1))) (An (R 0) (R 1)))));
  (11%nat, Ad (R 11) (Ad (Ad (Xo (Xo (Or (SR (R 9) 17) (SL (R 9) 15)) (Or (SR (R 9) 19) (SL (R 9) 13))) (SR (R 9) 10)) (R 20)) (Xo (Xo (Or (SR (R 12) 7) (SL (R 12) 25)) (Or (SR (R 12) 18) (SL (R 12) 14))) (SR (R 12) 3))));
  (8%nat, Ad (Ad (Ad (Ad (R 5) (Xo (Xo (Or (SR (R 2) 6) (SL (R 2) 26)) (Or (SR (R 2) 11) (SL (R 2) 21))) (Or (SR (R 2) 25) (SL (R 2) 7)))) (Xo (An (R 2) (R 3)) (An (No (R 2)) (R 4)))) (R 11)) (K 0x4D2C6DFC));
  (1%nat, Ad (R 1) (R 8));
  (5%nat, Ad (R 8) (Ad (Xo (Xo (Or (SR (R 6) 2) (SL (R 6) 30)) (Or (SR (R 6) 13) (SL (R 6) 19))) (Or (SR (R 6) 22) (SL (R 6) 10))) (Xo (Xo (An (R 6) (R 7)) (An (R 6) (R 0))) (An (R 7) (R 0)))));
  (12%nat, Ad (R 12) (Ad (Ad (Xo (Xo (Or (SR (R 10) 17) (SL (R 10) 15)) (Or (SR (R 10) 19) (SL (R 10) 13))) (SR (R 10) 10)) (R 21)) (Xo (Xo (Or (SR (R 13) 7) (SL (R 13) 25)) (Or (SR (R 13) 18) (SL (R 13) 14))) (SR (R 13) 3))));
  (8%nat, Ad (Ad (Ad (Ad (R 4) (Xo (Xo (Or (SR (R 1) 6) (SL (R 1) 26)) (Or (SR (R 1) 11) (SL (R 1) 21))) (Or (SR (R 1) 25) (SL (R 1) 7)))) (Xo (An (R 1) (R 2)) (An (No (R 1)) (R 3)))) (R 12)) (K 0x53380D13));
  (0%nat, Ad (R 0) (R 8));
  (4%nat, Ad (R 8) (Ad (Xo (Xo (Or (SR (R 5) 2) (SL (R 5) 30)) (Or (SR (R 5) 13) (SL (R 5) 19))) (Or (SR (R 5) 22) (SL (R 5) 10))) (Xo (Xo (An (R 5) (R 6)) (An (R 5) (R 7))) (An (R 6) (R 7)))));
  (13%nat, Ad (R 13) (Ad (Ad (Xo (Xo (Or (SR (R 11) 17) (SL (R 11) 15)) (Or (SR (R 11) 19) (SL (R 11) 13))) (SR (R 11) 10)) (R 22)) (Xo (Xo (Or (SR (R 14) 7) (SL (R 14) 25)) (Or (SR (R 14) 18) (SL (R 14) 14))) (SR (R 14) 3))));
  (8%nat, Ad (Ad (Ad (Ad (R 3) (Xo (Xo (Or (SR (R 0) 6) (SL (R 0) 26)) (Or (SR (R 0) 11) (SL (R 0) 21))) (Or (SR (R 0) 25) (SL (R 0) 7)))) (Xo (An (R 0) (R 1)) (An (No (R 0)) (R 2)))) (R 13)) (K 0x650A7354));
  (7%nat, Ad (R 7) (R 8));
  (3%nat, Ad (R 8) (Ad (Xo (Xo (Or (SR (R 4) 2) (SL (R 4) 30)) (Or (SR (R 4) 13) (SL (R 4) 19))) (Or (SR (R 4) 22) (SL (R 4) 10))) (Xo (Xo (An (R 4) (R 5)) (An (R 4) (R 6))) (An (R 5) (R 6)))));
  (14%nat, Ad (R 14) (Ad (Ad (Xo (Xo (Or (SR (R 12) 17) (SL (R 12) 15)) (Or (SR (R 12) 19) (SL (R 12) 13))) (SR (R 12) 10)) (R 23)) (Xo (Xo (Or (SR (R 15) 7) (SL (R 15) 25)) (Or (SR (R 15) 18) (SL (R 15) 14))) (SR (R 15) 3))));
  (8%nat, Ad (Ad (Ad (Ad (R 2) (Xo (Xo (Or (SR (R 7) 6) (SL (R 7) 26)) (Or (SR (R 7) 11) (SL (R 7) 21))) (Or (SR (R 7) 25) (SL (R 7) 7)))) (Xo (An (R 7) (R 0)) (An (No (R 7)) (R 1)))) (R 14)) (K 0x766A0ABB));
  (6%nat, Ad (R 6) (R 8));
  (2%nat, Ad (R 8) (Ad (Xo (Xo (Or (SR (R 3) 2) (SL (R 3) 30)) (Or (SR (R 3) 13) (SL (R 3) 19))) (Or (SR (R 3) 22) (SL (R 3) 10))) (Xo (Xo (An (R 3) (R 4)) (An (R 3) (R 5))) (An (R 4) (R 5)))));
  (15%nat, Ad (R 15) (Ad (Ad (Xo (Xo (Or (SR (R 13) 17) (SL (R 13) 15)) (Or (SR (R 13) 19) (SL (R 13) 13))) (SR (R 13) 10)) (R 24)) (Xo (Xo (Or (SR (R 16) 7) (SL (R 16) 25)) (Or (SR (R 16) 18) (SL (R 16) 14))) (SR (R 16) 3))));
  (8%nat, Ad (Ad (Ad (Ad (R 1) (Xo (Xo (Or (SR (R 6) 6) (SL (R 6) 26)) (Or (SR (R 6) 11) (SL (R 6) 21))) (Or (SR (R 6) 25) (SL (R 6) 7)))) (Xo (An (R 6) (R 7)) (An (No (R 6)) (R 0)))) (R 15)) (K 0x81C2C92E));
  (5%nat, Ad (R 5) (R 8));
  (1%nat, Ad (R 8) (Ad (Xo (Xo (Or (SR (R 2) 2) (SL (R 2) 30)) (Or (SR (R 2) 13) (SL (R 2) 19))) (Or (SR (R 2) 22) (SL (R 2) 10))) (Xo (Xo (An (R 2) (R 3)) (An (R 2) (R 4))) (An (R 3) (R 4)))));
  (16%nat, Ad (R 16) (Ad (Ad (Xo (Xo (Or (SR (R 14) 17) (SL (R 14) 15)) (Or (SR (R 14) 19) (SL (R 14) 13))) (SR (R 14) 10)) (R 9)) (Xo (Xo (Or (SR (R 17) 7) (SL (R 17) 25)) (Or (SR (R 17) 18) (SL (R 17) 14))) (SR (R 17) 3))));
  (8%nat, Ad (Ad (Ad (Ad (R 0) (Xo (Xo (Or (SR (R 5) 6) (SL (R 5) 26)) (Or (SR (R 5) 11) (SL (R 5) 21))) (Or (SR (R 5) 25) (SL (R 5) 7)))) (Xo (An (R 5) (R 6)) (An (No (R 5)) (R 7)))) (R 16)) (K 0x92722C85));
  (4%nat, Ad (R 4) (R 8));
  (0%nat, Ad (R 8) (Ad (Xo (Xo (Or (SR (R 1) 2) (SL (R 1) 30)) (Or (SR (R 1) 13) (SL (R 1) 19))) (Or (SR (R 1) 22) (SL (R 1) 10))) (Xo (Xo (An (R 1) (R 2)) (An (R 1) (R 3))) (An (R 2) (R 3)))));
  (17%nat, Ad (R 17) (Ad (Ad (Xo (Xo (Or (SR (R 15) 17) (SL (R 15) 15)) (Or (SR (R 15) 19) (SL (R 15) 13))) (SR (R 15) 10)) (R 10)) (Xo (Xo (Or (SR (R 18) 7) (SL (R 18) 25)) (Or (SR (R 18) 18) (SL (R 18) 14))) (SR (R 18) 3))));
  (8%nat, Ad (Ad (Ad (Ad (R 7) (Xo (Xo (Or (SR (R 4) 6) (SL (R 4) 26)) (Or (SR (R 4) 11) (SL (R 4) 21))) (Or (SR (R 4) 25) (SL (R 4) 7)))) (Xo (An (R 4) (R 5)) (An (No (R 4)) (R 6)))) (R 17)) (K 0xA2BFE8A1));
  (3%nat, Ad (R 3) (R 8));
  (7%nat, Ad (R 8) (Ad (Xo (Xo (Or (SR (R 0) 2) (SL (R 0) 30)) (Or (SR (R 0) 13) (SL (R 0) 19))) (Or (SR (R 0) 22) (SL (R 0) 10))) (Xo (Xo (An (R 0) (R 1)) (An (R 0) (R 2))) (An (R 1) (R 2)))));
  (18%nat, Ad (R 18) (Ad (Ad (Xo (Xo (Or (SR (R 16) 17) (SL (R 16) 15)) (Or (SR (R 16) 19) (SL (R 16) 13))) (SR (R 16) 10)) (R 11)) (Xo (Xo (Or (SR (R 19) 7) (SL (R 19) 25)) (Or (SR (R 19) 18) (SL (R 19) 14))) (SR (R 19) 3))));
  (8%nat, Ad (Ad (Ad (Ad (R 6) (Xo (Xo (Or (SR (R 3) 6) (SL (R 3) 26)) (Or (SR (R 3) 11) (SL (R 3) 21))) (Or (SR (R 3) 25) (SL (R 3) 7)))) (Xo (An (R 3) (R 4)) (An (No (R 3)) (R 5)))) (R 18)) (K 0xA81A664B));
  (2%nat, Ad (R 2) (R 8));
  (6%nat, Ad (R 8) (Ad (Xo (Xo (Or (SR (R 7) 2) (SL (R 7) 30)) (Or (SR (R 7) 13) (SL (R 7) 19))) (Or (SR (R 7) 22) (SL (R 7) 10))) (Xo (Xo (An (R 7) (R 0)) (An (R 7) (R 1))) (An (R 0) (R 1)))));
  (19%nat, Ad (R 19) (Ad (Ad (Xo (Xo (Or (SR (R 17) 17) (SL (R 17) 15)) (Or (SR (R 17) 19) (SL (R 17) 13))) (SR (R 17) 10)) (R 12)) (Xo (Xo (Or (SR (R 20) 7) (SL (R 20) 25)) (Or (SR (R 20) 18) (SL (R 20) 14))) (SR (R 20) 3))));
  (8%nat, Ad (Ad (Ad (Ad (R 5) (Xo (Xo (Or (SR (R 2) 6) (SL (R 2) 26)) (Or (SR (R 2) 11) (SL (R 2) 21))) (Or (SR (R 2) 25) (SL (R 2) 7)))) (Xo (An (R 2) (R 3)) (An (No (R 2)) (R 4)))) (R 19)) (K 0xC24B8B70));
  (1%nat, Ad (R 1) (R 8));
  (5%nat, Ad (R 8) (Ad (Xo (Xo (Or (SR (R 6) 2) (SL (R 6) 30)) (Or (SR (R 6) 13) (SL (R 6) 19))) (Or (SR (R 6) 22) (SL (R 6) 10))) (Xo (Xo (An (R 6) (R 7)) (An (R 6) (R 0))) (An (R 7) (R 0)))));
  (20%nat, Ad (R 20) (Ad (Ad (Xo (Xo (Or (SR (R 18) 17) (SL (R 18) 15)) (Or (SR (R 18) 19) (SL (R 18) 13))) (SR (R 18) 10)) (R 13)) (Xo (Xo (Or (SR (R 21) 7) (SL (R 21) 25)) (Or (SR (R 21) 18) (SL (R 21) 14))) (SR (R 21) 3))));
  (8%nat, Ad (Ad (Ad (Ad (R 4) (Xo (Xo (Or (SR (R 1) 6) (SL (R 1) 26)) (Or (SR (R 1) 11) (SL (R 1) 21))) (Or (SR (R 1) 25) (SL (R 1) 7)))) (Xo (An (R 1) (R 2)) (An (No (R 1)) (R 3)))) (R 20)) (K 0xC76C51A3));
  (0%nat, Ad (R 0) (R 8));
  (4%nat, Ad (R 8) (Ad (Xo (Xo (Or (SR (R 5) 2) (SL (R 5) 30)) (Or (SR (R 5) 13) (SL (R 5) 19))) (Or (SR (R 5) 22) (SL (R 5) 10))) (Xo (Xo (An (R 5) (R 6)) (An (R 5) (R 7))) (An (R 6) (R 7)))));
  (21%nat, Ad (R 21) (Ad (Ad (Xo (Xo (Or (SR (R 19) 17) (SL (R 19) 15)) (Or (SR (R 19) 19) (SL (R 19) 13))) (SR (R 19) 10)) (R 14)) (Xo (Xo (Or (SR (R 22) 7) (SL (R 22) 25)) (Or (SR (R 22) 18) (SL (R 22) 14))) (SR (R 22) 3))));
  (8%nat, Ad (Ad (Ad (Ad (R 3) (Xo (Xo (Or (SR (R 0) 6) (SL (R 0) 26)) (Or (SR (R 0) 11) (SL (R 0) 21))) (Or (SR (R 0) 25) (SL (R 0) 7)))) (Xo (An (R 0) (R 1)) (An (No (R 0)) (R 2)))) (R 21)) (K 0xD192E819));
  (7%nat, Ad (R 7) (R 8));
  (3%nat, Ad (R 8) (Ad (Xo (Xo (Or (SR (R 4) 2) (SL (R 4) 30)) (Or (SR (R 4) 13) (SL (R 4) 19))) (Or (SR (R 4) 22) (SL (R 4) 10))) (Xo (Xo (An (R 4) (R 5)) (An (R 4) (R 6))) (An (R 5) (R 6)))));
  (22%nat, Ad (R 22) (Ad (Ad (Xo (Xo (Or (SR (R 20) 17) (SL (R 20) 15)) (Or (SR (R 20) 19) (SL (R 20) 13))) (SR (R 20) 10)) (R 15)) (Xo (Xo (Or (SR (R 23) 7) (SL (R 23) 25)) (Or (SR (R 23) 18) (SL (R 23) 14))) (SR (R 23) 3))));
  (8%nat, Ad (Ad (Ad (Ad (R 2) (Xo (Xo (Or (SR (R 7) 6) (SL (R 7) 26)) (Or (SR (R 7) 11) (SL (R 7) 21))) (Or (SR (R 7) 25) (SL (R 7) 7)))) (Xo (An (R 7) (R 0)) (An (No (R 7)) (R 1)))) (R 22)) (K 0xD6990624));
  (6%nat, Ad (R 6) (R 8));
  (2%nat, Ad (R 8) (Ad (Xo (Xo (Or (SR (R 3) 2) (SL (R 3) 30)) (Or (SR (R 3) 13) (SL (R 3) 19))) (Or (SR (R 3) 22) (SL (R 3) 10))) (Xo (Xo (An (R 3) (R 4)) (An (R 3) (R 5))) (An (R 4) (R 5)))));
  (23%nat, Ad (R 23) (Ad (Ad (Xo (Xo (Or (SR (R 21) 17) (SL (R 21) 15)) (Or (SR (R 21) 19) (SL (R 21) 13))) (SR (R 21) 10)) (R 16)) (Xo (Xo (Or (SR (R 24) 7) (SL (R 24) 25)) (Or (SR (R 24) 18) (SL (R 24) 14))) (SR (R 24) 3))));
  (8%nat, Ad (Ad (Ad (Ad (R 1) (Xo (Xo (Or (SR (R 6) 6) (SL (R 6) 26)) (Or (SR (R 6) 11) (SL (R 6) 21))) (Or (SR (R 6) 25) (SL (R 6) 7)))) (Xo (An (R 6) (R 7)) (An (No (R 6)) (R 0)))) (R 23)) (K 0xF40E3585));
  (5%nat, Ad (R 5) (R 8));
  (1%nat, Ad (R 8) (Ad (Xo (Xo (Or (SR (R 2) 2) (SL (R 2) 30)) (Or (SR (R 2) 13) (SL (R 2) 19))) (Or (SR (R 2) 22) (SL (R 2) 10))) (Xo (Xo (An (R 2) (R 3)) (An (R 2) (R 4))) (An (R 3) (R 4)))));
  (24%nat, Ad (R 24) (Ad (Ad (Xo (Xo (Or (SR (R 22) 17) (SL (R 22) 15)) (Or (SR (R 22) 19) (SL (R 22) 13))) (SR (R 22) 10)) (R 17)) (Xo (Xo (Or (SR (R 9) 7) (SL (R 9) 25)) (Or (SR (R 9) 18) (SL (R 9) 14))) (SR (R 9) 3))));
  (8%nat, Ad (Ad (Ad (Ad (R 0) (Xo (Xo (Or (SR (R 5) 6) (SL (R 5) 26)) (Or (SR (R 5) 11) (SL (R 5) 21))) (Or (SR (R 5) 25) (SL (R 5) 7)))) (Xo (An (R 5) (R 6)) (An (No (R 5)) (R 7)))) (R 24)) (K 0x106AA070));
  (4%nat, Ad (R 4) (R 8));
  (0%nat, Ad (R 8) (Ad (Xo (Xo (Or (SR (R 1) 2) (SL (R 1) 30)) (Or (SR (R 1) 13) (SL (R 1) 19))) (Or (SR (R 1) 22) (SL (R 1) 10))) (Xo (Xo (An (R 1) (R 2)) (An (R 1) (R 3))) (An (R 2) (R 3)))));
  (9%nat, Ad (R 9) (Ad (Ad (Xo (Xo (Or (SR (R 23) 17) (SL (R 23) 15)) (Or (SR (R 23) 19) (SL (R 23) 13))) (SR (R 23) 10)) (R 18)) (Xo (Xo (Or (SR (R 10) 7) (SL (R 10) 25)) (Or (SR (R 10) 18) (SL (R 10) 14))) (SR (R 10) 3))));
  (8%nat, Ad (Ad (Ad (Ad (R 7) (Xo (Xo (Or (SR (R 4) 6) (SL (R 4) 26)) (Or (SR (R 4) 11) (SL (R 4) 21))) (Or (SR (R 4) 25) (SL (R 4) 7)))) (Xo (An (R 4) (R 5)) (An (No (R 4)) (R 6)))) (R 9)) (K 0x19A4C116));
  (3%nat, Ad (R 3) (R 8));
  (7%nat, Ad (R 8) (Ad (Xo (Xo (Or (SR (R 0) 2) (SL (R 0) 30)) (Or (SR (R 0) 13) (SL (R 0) 19))) (Or (SR (R 0) 22) (SL (R 0) 10))) (Xo (Xo (An (R 0) (R 1)) (An (R 0) (R 2))) (An (R 1) (R 2)))));
  (10%nat, Ad (R 10) (Ad (Ad (Xo (Xo (Or (SR (R 24) 17) (SL (R 24) 15)) (Or (SR (R 24) 19) (SL (R 24) 13))) (SR (R 24) 10)) (R 19)) (Xo (Xo (Or (SR (R 11) 7) (SL (R 11) 25)) (Or (SR (R 11) 18) (SL (R 11) 14))) (SR (R 11) 3))));
  (8%nat, Ad (Ad (Ad (Ad (R 6) (Xo (Xo (Or (SR (R 3) 6) (SL (R 3) 26)) (Or (SR (R 3) 11) (SL (R 3) 21))) (Or (SR (R 3) 25) (SL (R 3) 7)))) (Xo (An (R 3) (R 4)) (An (No (R 3)) (R 5)))) (R 10)) (K 0x1E376C08));
  (2%nat, Ad (R 2) (R 8));
  (6%nat, Ad (R 8) (Ad (Xo (Xo (Or (SR (R 7) 2) (SL (R 7) 30)) (Or (SR (R 7) 13) (SL (R 7) 19))) (Or (SR (R 7) 22) (SL (R 7) 10))) (Xo (Xo (An (R 7) (R 0)) (An (R 7) (R 1))) (An (R 0) (R 1)))));
  (11%nat, Ad (R 11) (Ad (Ad (Xo (Xo (Or (SR (R 9) 17) (SL (R 9) 15)) (Or (SR (R 9) 19) (SL (R 9) 13))) (SR (R 9) 10)) (R 20)) (Xo (Xo (Or (SR (R 12) 7) (SL (R 12) 25)) (Or (SR (R 12) 18) (SL (R 12) 14))) (SR (R 12) 3))));
  (8%nat, Ad (Ad (Ad (Ad (R 5) (Xo (Xo (Or (SR (R 2) 6) (SL (R 2) 26)) (Or (SR (R 2) 11) (SL (R 2) 21))) (Or (SR (R 2) 25) (SL (R 2) 7)))) (Xo (An (R 2) (R 3)) (An (No (R 2)) (R 4)))) (R 11)) (K 0x2748774C));
  (1%nat, Ad (R 1) (R 8));
  (5%nat, Ad (R 8) (Ad (Xo (Xo (Or (SR (R 6) 2) (SL (R 6) 30)) (Or (SR (R 6) 13) (SL (R 6) 19))) (Or (SR (R 6) 22) (SL (R 6) 10))) (Xo (Xo (An (R 6) (R 7)) (An (R 6) (R 0))) (An (R 7) (R 0)))));
  (12%nat, Ad (R 12) (Ad (Ad (Xo (Xo (Or (SR (R 10) 17) (SL (R 10) 15)) (Or (SR (R 10) 19) (SL (R 10) 13))) (SR (R 10) 10)) (R 21)) (Xo (Xo (Or (SR (R 13) 7) (SL (R 13) 25)) (Or (SR (R 13) 18) (SL (R 13) 14))) (SR (R 13) 3))));
  (8%nat, Ad (Ad (Ad (Ad (R 4) (Xo (Xo (Or (SR (R 1) 6) (SL (R 1) 26)) (Or (SR (R 1) 11) (SL (R 1) 21))) (Or (SR (R 1) 25) (SL (R 1) 7)))) (Xo (An (R 1) (R 2)) (An (No (R 1)) (R 3)))) (R 12)) (K 0x34B0BCB5));
  (0%nat, Ad (R 0) (R 8));
  (4%nat, Ad (R 8) (Ad (Xo (Xo (Or (SR (R 5) 2) (SL (R 5) 30)) (Or (SR (R 5) 13) (SL (R 5) 19))) (Or (SR (R 5) 22) (SL (R 5) 10))) (Xo (Xo (An (R 5) (R 6)) (An (R 5) (R 7))) (An (R 6) (R 7)))));
  (13%nat, Ad (R 13) (Ad (Ad (Xo (Xo (Or (SR (R 11) 17) (SL (R 11) 15)) (Or (SR (R 11) 19) (SL (R 11) 13))) (SR (R 11) 10)) (R 22)) (Xo (Xo (Or (SR (R 14) 7) (SL (R 14) 25)) (Or (SR (R 14) 18) (SL (R 14) 14))) (SR (R 14) 3))));
  (8%nat, Ad (Ad (Ad (Ad (R 3) (Xo (Xo (Or (SR (R 0) 6) (SL (R 0) 26)) (Or (SR (R 0) 11) (SL (R 0) 21))) (Or (SR (R 0) 25) (SL (R 0) 7)))) (Xo (An (R 0) (R 1)) (An (No (R 0)) (R 2)))) (R 13)) (K 0x391C0CB3));
  (7%nat, Ad (R 7) (R 8));
  (3%nat, Ad (R 8) (Ad (Xo (Xo (Or (SR (R 4) 2) (SL (R 4) 30)) (Or (SR (R 4) 13) (SL (R 4) 19))) (Or (SR (R 4) 22) (SL (R 4) 10))) (Xo (Xo (An (R 4) (R 5)) (An (R 4) (R 6))) (An (R 5) (R 6)))));
  (14%nat, Ad (R 14) (Ad (Ad (Xo (Xo (Or (SR (R 12) 17) (SL (R 12) 15)) (Or (SR (R 12) 19) (SL (R 12) 13))) (SR (R 12) 10)) (R 23)) (Xo (Xo (Or (SR (R 15) 7) (SL (R 15) 25)) (Or (SR (R 15) 18) (SL (R 15) 14))) (SR (R 15) 3))));
  (8%nat, Ad (Ad (Ad (Ad (R 2) (Xo (Xo (Or (SR (R 7) 6) (SL (R 7) 26)) (Or (SR (R 7) 11) (SL (R 7) 21))) (Or (SR (R 7) 25) (SL (R 7) 7)))) (Xo (An (R 7) (R 0)) (An (No (R 7)) (R 1)))) (R 14)) (K 0x4ED8AA4A));
  (6%nat, Ad (R 6) (R 8));
  (2%nat, Ad (R 8) (Ad (Xo (Xo (Or (SR (R 3) 2) (SL (R 3) 30)) (Or (SR (R 3) 13) (SL (R 3) 19))) (Or (SR (R 3) 22) (SL (R 3) 10))) (Xo (Xo (An (R 3) (R 4)) (An (R 3) (R 5))) (An (R 4) (R 5)))));
  (15%nat, Ad (R 15) (Ad (Ad (Xo (Xo (Or (SR (R 13) 17) (SL (R 13) 15)) (Or (SR (R 13) 19) (SL (R 13) 13))) (SR (R 13) 10)) (R 24)) (Xo (Xo (Or (SR (R 16) 7) (SL (R 16) 25)) (Or (SR (R 16) 18) (SL (R 16) 14))) (SR (R 16) 3))));
  (8%nat, Ad (Ad (Ad (Ad (R 1) (Xo (Xo (Or (SR (R 6) 6) (SL (R 6) 26)) (Or (SR (R 6) 11) (SL (R 6) 21))) (Or (SR (R 6) 25) (SL (R 6) 7)))) (Xo (An (R 6) (R 7)) (An (No (R 6)) (R 0)))) (R 15)) (K 0x5B9CCA4F));
  (5%nat, Ad (R 5) (R 8));
  (1%nat, Ad (R 8) (Ad (Xo (Xo (Or (SR (R 2) 2) (SL (R 2) 30)) (Or (SR (R 2) 13) (SL (R 2) 19))) (Or (SR (R 2) 22) (SL (R 2) 10))) (Xo (Xo (An (R 2) (R 3)) (An (R 2) (R 4))) (An (R 3) (R 4)))));
  (16%nat, Ad (R 16) (Ad (Ad (Xo (Xo (Or (SR (R 14) 17) (SL (R 14) 15)) (Or (SR (R 14) 19) (SL (R 14) 13))) (SR (R 14) 10)) (R 9)) (Xo (Xo (Or (SR (R 17) 7) (SL (R 17) 25)) (Or (SR (R 17) 18) (SL (R 17) 14))) (SR (R 17) 3))));
  (8%nat, Ad (Ad (Ad (Ad (R 0) (Xo (Xo (Or (SR (R 5) 6) (SL (R 5) 26)) (Or (SR (R 5) 11) (SL (R 5) 21))) (Or (SR (R 5) 25) (SL (R 5) 7)))) (Xo (An (R 5) (R 6)) (An (No (R 5)) (R 7)))) (R 16)) (K 0x682E6FF3));
  (4%nat, Ad (R 4) (R 8));
  (0%nat, Ad (R 8) (Ad (Xo (Xo (Or (SR (R 1) 2) (SL (R 1) 30)) (Or (SR (R 1) 13) (SL (R 1) 19))) (Or (SR (R 1) 22) (SL (R 1) 10))) (Xo (Xo (An (R 1) (R 2)) (An (R 1) (R 3))) (An (R 2) (R 3)))));
  (17%nat, Ad (R 17) (Ad (Ad (Xo (Xo (Or (SR (R 15) 17) (SL (R 15) 15)) (Or (SR (R 15) 19) (SL (R 15) 13))) (SR (R 15) 10)) (R 10)) (Xo (Xo (Or (SR (R 18) 7) (SL (R 18) 25)) (Or (SR (R 18) 18) (SL (R 18) 14))) (SR (R 18) 3))));
  (8%nat, Ad (Ad (Ad (Ad (R 7) (Xo (Xo (Or (SR (R 4) 6) (SL (R 4) 26)) (Or (SR (R 4) 11) (SL (R 4) 21))) (Or (SR (R 4) 25) (SL (R 4) 7)))) (Xo (An (R 4) (R 5)) (An (No (R 4)) (R 6)))) (R 17)) (K 0x748F82EE));
  (3%nat, Ad (R 3) (R 8));
  (7%nat, Ad (R 8) (Ad (Xo (Xo (Or (SR (R 0) 2) (SL (R 0) 30)) (Or (SR (R 0) 13) (SL (R 0) 19))) (Or (SR (R 0) 22) (SL (R 0) 10))) (Xo (Xo (An (R 0) (R 1)) (An (R 0) (R 2))) (An (R 1) (R 2)))));
  (18%nat, Ad (R 18) (Ad (Ad (Xo (Xo (Or (SR (R 16) 17) (SL (R 16) 15)) (Or (SR (R 16) 19) (SL (R 16) 13))) (SR (R 16) 10)) (R 11)) (Xo (Xo (Or (SR (R 19) 7) (SL (R 19) 25)) (Or (SR (R 19) 18) (SL (R 19) 14))) (SR (R 19) 3))));
  (8%nat, Ad (Ad (Ad (Ad (R 6) (Xo (Xo (Or (SR (R 3) 6) (SL (R 3) 26)) (Or (SR (R 3) 11) (SL (R 3) 21))) (Or (SR (R 3) 25) (SL (R 3) 7)))) (Xo (An (R 3) (R 4)) (An (No (R 3)) (R 5)))) (R 18)) (K 0x78A5636F));
  (2%nat, Ad (R 2) (R 8));
  (6%nat, Ad (R 8) (Ad (Xo (Xo (Or (SR (R 7) 2) (SL (R 7) 30)) (Or (SR (R 7) 13) (SL (R 7) 19))) (Or (SR (R 7) 22) (SL (R 7) 10))) (Xo (Xo (An (R 7) (R 0)) (An (R 7) (R 1))) (An (R 0) (R 1)))));
  (19%nat, Ad (R 19) (Ad (Ad (Xo (Xo (Or (SR (R 17) 17) (SL (R 17) 15)) (Or (SR (R 17) 19) (SL (R 17) 13))) (SR (R 17) 10)) (R 12)) (Xo (Xo (Or (SR (R 20) 7) (SL (R 20) 25)) (Or (SR (R 20) 18) (SL (R 20) 14))) (SR (R 20) 3))));
  (8%nat, Ad (Ad (Ad (Ad (R 5) (Xo (Xo (Or (SR (R 2) 6) (SL (R 2) 26)) (Or (SR (R 2) 11) (SL (R 2) 21))) (Or (SR (R 2) 25) (SL (R 2) 7)))) (Xo (An (R 2) (R 3)) (An (No (R 2)) (R 4)))) (R 19)) (K 0x84C87814));
  (1%nat, Ad (R 1) (R 8));
  (5%nat, Ad (R 8) (Ad (Xo (Xo (Or (SR (R 6) 2) (SL (R 6) 30)) (Or (SR (R 6) 13) (SL (R 6) 19))) (Or (SR (R 6) 22) (SL (R 6) 10))) (Xo (Xo (An (R 6) (R 7)) (An (R 6) (R 0))) (An (R 7) (R 0)))));
  (20%nat, Ad (R 20) (Ad (Ad (Xo (Xo (Or (SR (R 18) 17) (SL (R 18) 15)) (Or (SR (R 18) 19) (SL (R 18) 13))) (SR (R 18) 10)) (R 13)) (Xo (Xo (Or (SR (R 21) 7) (SL (R 21) 25)) (Or (SR (R 21) 18) (SL (R 21) 14))) (SR (R 21) 3))));
  (8%nat, Ad (Ad (Ad (Ad (R 4) (Xo (Xo (Or (SR (R 1) 6) (SL (R 1) 26)) (Or (SR (R 1) 11) (SL (R 1) 21))) (Or (SR (R 1) 25) (SL (R 1) 7)))) (Xo (An (R 1) (R 2)) (An (No (R 1)) (R 3)))) (R 20)) (K 0x8CC70208));
  (0%nat, Ad (R 0) (R 8));
  (4%nat, Ad (R 8) (Ad (Xo (Xo (Or (SR (R 5) 2) (SL (R 5) 30)) (Or (SR (R 5) 13) (SL (R 5) 19))) (Or (SR (R 5) 22) (SL (R 5) 10))) (Xo (Xo (An (R 5) (R 6)) (An (R 5) (R 7))) (An (R 6) (R 7)))));
  (21%nat, Ad (R 21) (Ad (Ad (Xo (Xo (Or (SR (R 19) 17) (SL (R 19) 15)) (Or (SR (R 19) 19) (SL (R 19) 13))) (SR (R 19) 10)) (R 14)) (Xo (Xo (Or (SR (R 22) 7) (SL (R 22) 25)) (Or (SR (R 22) 18) (SL (R 22) 14))) (SR (R 22) 3))));
  (8%nat, Ad (Ad (Ad (Ad (R 3) (Xo (Xo (Or (SR (R 0) 6) (SL (R 0) 26)) (Or (SR (R 0) 11) (SL (R 0) 21))) (Or (SR (R 0) 25) (SL (R 0) 7)))) (Xo (An (R 0) (R 1)) (An (No (R 0)) (R 2)))) (R 21)) (K 0x90BEFFFA));
  (7%nat, Ad (R 7) (R 8));
  (3%nat, Ad (R 8) (Ad (Xo (Xo (Or (SR (R 4) 2) (SL (R 4) 30)) (Or (SR (R 4) 13) (SL (R 4) 19))) (Or (SR (R 4) 22) (SL (R 4) 10))) (Xo (Xo (An (R 4) (R 5)) (An (R 4) (R 6))) (An (R 5) (R 6)))));
  (22%nat, Ad (R 22) (Ad (Ad (Xo (Xo (Or (SR (R 20) 17) (SL (R 20) 15)) (Or (SR (R 20) 19) (SL (R 20) 13))) (SR (R 20) 10)) (R 15)) (Xo (Xo (Or (SR (R 23) 7) (SL (R 23) 25)) (Or (SR (R 23) 18) (SL (R 23) 14))) (SR (R 23) 3))));
  (8%nat, Ad (Ad (Ad (Ad (R 2) (Xo (Xo (Or (SR (R 7) 6) (SL (R 7) 26)) (Or (SR (R 7) 11) (SL (R 7) 21))) (Or (SR (R 7) 25) (SL (R 7) 7)))) (Xo (An (R 7) (R 0)) (An (No (R 7)) (R 1)))) (R 22)) (K 0xA4506CEB));
  (6%nat, Ad (R 6) (R 8));
  (2%nat, Ad (R 8) (Ad (Xo (Xo (Or (SR (R 3) 2) (SL (R 3) 30)) (Or (SR (R 3) 13) (SL (R 3) 19))) (Or (SR (R 3) 22) (SL (R 3) 10))) (Xo (Xo (An (R 3) (R 4)) (An (R 3) (R 5))) (An (R 4) (R 5)))));
  (23%nat, Ad (R 23) (Ad (Ad (Xo (Xo (Or (SR (R 21) 17) (SL (R 21) 15)) (Or (SR (R 21) 19) (SL (R 21) 13))) (SR (R 21) 10)) (R 16)) (Xo (Xo (Or (SR (R 24) 7) (SL (R 24) 25)) (Or (SR (R 24) 18) (SL (R 24) 14))) (SR (R 24) 3))));
  (8%nat, Ad (Ad (Ad (Ad (R 1) (Xo (Xo (Or (SR (R 6) 6) (SL (R 6) 26)) (Or (SR (R 6) 11) (SL (R 6) 21))) (Or (SR (R 6) 25) (SL (R 6) 7)))) (Xo (An (R 6) (R 7)) (An (No (R 6)) (R 0)))) (R 23)) (K 0xBEF9A3F7));
  (5%nat, Ad (R 5) (R 8));
  (1%nat, Ad (R 8) (Ad (Xo (Xo (Or (SR (R 2) 2) (SL (R 2) 30)) (Or (SR (R 2) 13) (SL (R 2) 19))) (Or (SR (R 2) 22) (SL (R 2) 10))) (Xo (Xo (An (R 2) (R 3)) (An (R 2) (R 4))) (An (R 3) (R 4)))));
  (24%nat, Ad (R 24) (Ad (Ad (Xo (Xo (Or (SR (R 22) 17) (SL (R 22) 15)) (Or (SR (R 22) 19) (SL (R 22) 13))) (SR (R 22) 10)) (R 17)) (Xo (Xo (Or (SR (R 9) 7) (SL (R 9) 25)) (Or (SR (R 9) 18) (SL (R 9) 14))) (SR (R 9) 3))));
  (8%nat, Ad (Ad (Ad (Ad (R 0) (Xo (Xo (Or (SR (R 5) 6) (SL (R 5) 26)) (Or (SR (R 5) 11) (SL (R 5) 21))) (Or (SR (R 5) 25) (SL (R 5) 7)))) (Xo (An (R 5) (R 6)) (An (No (R 5)) (R 7)))) (R 24)) (K 0xC67178F2));
  (4%nat, Ad (R 4) (R 8));
  (0%nat, Ad (R 8) (Ad (Xo (Xo (Or (SR (R 1) 2) (SL (R 1) 30)) (Or (SR (R 1) 13) (SL (R 1) 19))) (Or (SR (R 1) 22) (SL (R 1) 10))) (Xo (Xo (An (R 1) (R 2)) (An (R 1) (R 3))) (An (R 2) (R 3)))));
  (25%nat, Ad (R 25) (R 0));
  (26%nat, Ad (R 26) (R 1));
  (27%nat, Ad (R 27) (R 2));
  (28%nat, Ad (R 28) (R 3));
  (29%nat, Ad (R 29) (R 4));
  (30%nat, Ad (R 30) (R 5));
  (31%nat, Ad (R 31) (R 6));
  (32%nat, Ad (R 32) (R 7))
].

(** CEX/SHA2.h:1279-1647, body of SHA2::PermuteR80P1024U: generated by tools/straight.py, one entry per statement.
    Registers: 0=A, 1=B, 2=C, 3=D, 4=E, 5=F, 6=G, 7=H, 8=R, 9=W0, 10=W1, 11=W2, 12=W3, 13=W4, 14=W5, 15=W6, 16=W7, 17=W8, 18=W9, 19=W10, 20=W11, 21=W12, 22=W13, 23=W14, 24=W15, 25=State[0], 26=State[1], 27=State[2], 28=State[3], 29=State[4], 30=State[5], 31=State[6], 32=State[7], 33=Input[0], 34=Input[1], 35=Input[2], 36=Input[3], 37=Input[4], 38=Input[5], 39=Input[6], 40=Input[7], 41=Input[8], 42=Input[9], 43=Input[10], 44=Input[11], 45=Input[12], 46=Input[13], 47=Input[14], 48=Input[15]. *)
Definition sha512_U : prog := [
  (0%nat, R 25);
  (1%nat, R 26);
  (2%nat, R 27);
  (3%nat, R 28);
  (4%nat, R 29);
  (5%nat, R 30);
  (6%nat, R 31);
  (7%nat, R 32);
  (9%nat, R 33);
  (10%nat, R 34);
  (11%nat, R 35);
  (12%nat, R 36);
  (13%nat, R 37);
  (14%nat, R 38);
  (15%nat, R 39);
  (16%nat, R 40);
  (17%nat, R 41);
  (18%nat, R 42);
  (19%nat, R 43);
  (20%nat, R 44);
  (21%nat, R 45);
  (22%nat, R 46);
  (23%nat, R 47);
  (24%nat, R 48);
  (8%nat, Ad (Ad (Ad (Ad (R 7) (Xo (Xo (Or (SL (R 4) 50) (SR (R 4) 14)) (Or (SL (R 4) 46) (SR (R 4) 18))) (Or (SL (R 4) 23) (SR (R 4) 41)))) (Xo (An (R 4) (R 5)) (An (No (R 4)) (R 6)))) (R 9)) (K 0x428A2F98D728AE22));
  (3%nat, Ad (R 3) (R 8));
  (7%nat, Ad (Ad (R 8) (Xo (Xo (Or (SL (R 0) 36) (SR (R 0) 28)) (Or (SL (R 0) 30) (SR (R 0) 34))) (Or (SL (R 0) 25) (SR (R 0) 39)))) (Xo (Xo (An (R 0) (R 1)) (An (R 0) (R 2))) (An (R 1) (R 2))));
  (8%nat, Ad (Ad (Ad (Ad (R 6) (Xo (Xo (Or (SL (R 3) 50) (SR (R 3) 14)) (Or (SL (R 3) 46) (SR (R 3) 18))) (Or (SL (R 3) 23) (SR (R 3) 41)))) (Xo (An (R 3) (R 4)) (An (No (R 3)) (R 5)))) (R 10)) (K 0x7137449123EF65CD));
  (2%nat, Ad (R 2) (R 8));
  (6%nat, Ad (Ad (R 8) (Xo (Xo (Or (SL (R 7) 36) (SR (R 7) 28)) (Or (SL (R 7) 30) (SR (R 7) 34))) (Or (SL (R 7) 25) (SR (R 7) 39)))) (Xo (Xo (An (R 7) (R 0)) (An (R 7) (R 1))) (An (R 0) (R 1))));
  (8%nat, Ad (Ad (Ad (Ad (R 5) (Xo (Xo (Or (SL (R 2) 50) (SR (R 2) 14)) (Or (SL (R 2) 46) (SR (R 2) 18))) (Or (SL (R 2) 23) (SR (R 2) 41)))) (Xo (An (R 2) (R 3)) (An (No (R 2)) (R 4)))) (R 11)) (K 0xB5C0FBCFEC4D3B2F));
  (1%nat, Ad (R 1) (R 8));
  (5%nat, Ad (Ad (R 8) (Xo (Xo (Or (SL (R 6) 36) (SR (R 6) 28)) (Or (SL (R 6) 30) (SR (R 6) 34))) (Or (SL (R 6) 25) (SR (R 6) 39)))) (Xo (Xo (An (R 6) (R 7)) (An (R 6) (R 0))) (An (R 7) (R 0))));
  (8%nat, Ad (Ad (Ad (Ad (R 4) (Xo (Xo (Or (SL (R 1) 50) (SR (R 1) 14)) (Or (SL (R 1) 46) (SR (R 1) 18))) (Or (SL (R 1) 23) (SR (R 1) 41)))) (Xo (An (R 1) (R 2)) (An (No (R 1)) (R 3)))) (R 12)) (K 0xE9B5DBA58189DBBC));
  (0%nat, Ad (R 0) (R 8));
  (4%nat, Ad (Ad (R 8) (Xo (Xo (Or (SL (R 5) 36) (SR (R 5) 28)) (Or (SL (R 5) 30) (SR (R 5) 34))) (Or (SL (R 5) 25) (SR (R 5) 39)))) (Xo (Xo (An (R 5) (R 6)) (An (R 5) (R 7))) (An (R 6) (R 7))));
  (8%nat, Ad (Ad (Ad (Ad (R 3) (Xo (Xo (Or (SL (R 0) 50) (SR (R 0) 14)) (Or (SL (R 0) 46) (SR (R 0) 18))) (Or (SL (R 0) 23) (SR (R 0) 41)))) (Xo (An (R 0) (R 1)) (An (No (R 0)) (R 2)))) (R 13)) (K 0x3956C25BF348B538));
  (7%nat, Ad (R 7) (R 8));
  (3%nat, Ad (Ad (R 8) (Xo (Xo (Or (SL (R 4) 36) (SR (R 4) 28)) (Or (SL (R 4) 30) (SR (R 4) 34))) (Or (SL (R 4) 25) (SR (R 4) 39)))) (Xo (Xo (An (R 4) (R 5)) (An (R 4) (R 6))) (An (R 5) (R 6))));
  (8%nat, Ad (Ad (Ad (Ad (R 2) (Xo (Xo (Or (SL (R 7) 50) (SR (R 7) 14)) (Or (SL (R 7) 46) (SR (R 7) 18))) (Or (SL (R 7) 23) (SR (R 7) 41)))) (Xo (An (R 7) (R 0)) (An (No (R 7)) (R 1)))) (R 14)) (K 0x59F111F1B605D019));
  (6%nat, Ad (R 6) (R 8));
  (2%nat, Ad (Ad (R 8) (Xo (Xo (Or (SL (R 3) 36) (SR (R 3) 28)) (Or (SL (R 3) 30) (SR (R 3) 34))) (Or (SL (R 3) 25) (SR (R 3) 39)))) (Xo (Xo (An (R 3) (R 4)) (An (R 3) (R 5))) (An (R 4) (R 5))));
  (8%nat, Ad (Ad (Ad (Ad (R 1) (Xo (Xo (Or (SL (R 6) 50) (SR (R 6) 14)) (Or (SL (R 6) 46) (SR (R 6) 18))) (Or (SL (R 6) 23) (SR (R 6) 41)))) (Xo (An (R 6) (R 7)) (An (No (R 6)) (R 0)))) (R 15)) (K 0x923F82A4AF194F9B));
  (5%nat, Ad (R 5) (R 8));
  (1%nat, Ad (Ad (R 8) (Xo (Xo (Or (SL (R 2) 36) (SR (R 2) 28)) (Or (SL (R 2) 30) (SR (R 2) 34))) (Or (SL (R 2) 25) (SR (R 2) 39)))) (Xo (Xo (An (R 2) (R 3)) (An (R 2) (R 4))) (An (R 3) (R 4))));
  (8%nat, Ad (Ad (Ad (Ad (R 0) (Xo (Xo (Or (SL (R 5) 50) (SR (R 5) 14)) (Or (SL (R 5) 46) (SR (R 5) 18))) (Or (SL (R 5) 23) (SR (R 5) 41)))) (Xo (An (R 5) (R 6)) (An (No (R 5)) (R 7)))) (R 16)) (K 0xAB1C5ED5DA6D8118));
  (4%nat, Ad (R 4) (R 8));
  (0%nat, Ad (Ad (R 8) (Xo (Xo (Or (SL (R 1) 36) (SR (R 1) 28)) (Or (SL (R 1) 30) (SR (R 1) 34))) (Or (SL (R 1) 25) (SR (R 1) 39)))) (Xo (Xo (An (R 1) (R 2)) (An (R 1) (R 3))) (An (R 2) (R 3))));
  (8%nat, Ad (Ad (Ad (Ad (R 7) (Xo (Xo (Or (SL (R 4) 50) (SR (R 4) 14)) (Or (SL (R 4) 46) (SR (R 4) 18))) (Or (SL (R 4) 23) (SR (R 4) 41)))) (Xo (An (R 4) (R 5)) (An (No (R 4)) (R 6)))) (R 17)) (K 0xD807AA98A3030242));
  (3%nat, Ad (R 3) (R 8));
  (7%nat, Ad (Ad (R 8) (Xo (Xo (Or (SL (R 0) 36) (SR (R 0) 28)) (Or (SL (R 0) 30) (SR (R 0) 34))) (Or (SL (R 0) 25) (SR (R 0) 39)))) (Xo (Xo (An (R 0) (R 1)) (An (R 0) (R 2))) (An (R 1) (R 2))));
  (8%nat, Ad (Ad (Ad (Ad (R 6) (Xo (Xo (Or (SL (R 3) 50) (SR (R 3) 14)) (Or (SL (R 3) 46) (SR (R 3) 18))) (Or (SL (R 3) 23) (SR (R 3) 41)))) (Xo (An (R 3) (R 4)) (An (No (R 3)) (R 5)))) (R 18)) (K 0x12835B0145706FBE));
  (2%nat, Ad (R 2) (R 8));
  (6%nat, Ad (Ad (R 8) (Xo (Xo (Or (SL (R 7) 36) (SR (R 7) 28)) (Or (SL (R 7) 30) (SR (R 7) 34))) (Or (SL (R 7) 25) (SR (R 7) 39)))) (Xo (Xo (An (R 7) (R 0)) (An (R 7) (R 1))) (An (R 0) (R 1))));
  (8%nat, Ad (Ad (Ad (Ad (R 5) (Xo (Xo (Or (SL (R 2) 50) (SR (R 2) 14)) (Or (SL (R 2) 46) (SR (R 2) 18))) (Or (SL (R 2) 23) (SR (R 2) 41)))) (Xo (An (R 2) (R 3)) (An (No (R 2)) (R 4)))) (R 19)) (K 0x243185BE4EE4B28C));
  (1%nat, Ad (R 1) (R 8));
  (5%nat, Ad (Ad (R 8) (Xo (Xo (Or (SL (R 6) 36) (SR (R 6) 28)) (Or (SL (R 6) 30) (SR (R 6) 34))) (Or (SL (R 6) 25) (SR (R 6) 39)))) (Xo (Xo (An (R 6) (R 7)) (An (R 6) (R 0))) (An (R 7) (R 0))));
  (8%nat, Ad (Ad (Ad (Ad (R 4) (Xo (Xo (Or (SL (R 1) 50) (SR (R 1) 14)) (Or (SL (R 1) 46) (SR (R 1) 18))) (Or (SL (R 1) 23) (SR (R 1) 41)))) (Xo (An (R 1) (R 2)) (An (No (R 1)) (R 3)))) (R 20)) (K 0x550C7DC3D5FFB4E2));
  (0%nat, Ad (R 0) (R 8));
  (4%nat, Ad (Ad (R 8) (Xo (Xo (Or (SL (R 5) 36) (SR (R 5) 28)) (Or (SL (R 5) 30) (SR (R 5) 34))) (Or (SL (R 5) 25) (SR (R 5) 39)))) (Xo (Xo (An (R 5) (R 6)) (An (R 5) (R 7))) (An (R 6) (R 7))));
  (8%nat, Ad (Ad (Ad (Ad (R 3) (Xo (Xo (Or (SL (R 0) 50) (SR (R 0) 14)) (Or (SL (R 0) 46) (SR (R 0) 18))) (Or (SL (R 0) 23) (SR (R 0) 41)))) (Xo (An (R 0) (R 1)) (An (No (R 0)) (R 2)))) (R 21)) (K 0x72BE5D74F27B896F));
  (7%nat, Ad (R 7) (R 8));
  (3%nat, Ad (Ad (R 8) (Xo (Xo (Or (SL (R 4) 36) (SR (R 4) 28)) (Or (SL (R 4) 30) (SR (R 4) 34))) (Or (SL (R 4) 25) (SR (R 4) 39)))) (Xo (Xo (An (R 4) (R 5)) (An (R 4) (R 6))) (An (R 5) (R 6))));
  (8%nat, Ad (Ad (Ad (Ad (R 2) (Xo (Xo (Or (SL (R 7) 50) (SR (R 7) 14)) (Or (SL (R 7) 46) (SR (R 7) 18))) (Or (SL (R 7) 23) (SR (R 7) 41)))) (Xo (An (R 7) (R 0)) (An (No (R 7)) (R 1)))) (R 22)) (K 0x80DEB1FE3B1696B1));
  (6%nat, Ad (R 6) (R 8));
  (2%nat, Ad (Ad (R 8) (Xo (Xo (Or (SL (R 3) 36) (SR (R 3) 28)) (Or (SL (R 3) 30) (SR (R 3) 34))) (Or (SL (R 3) 25) (SR (R 3) 39)))) (Xo (Xo (An (R 3) (R 4)) (An (R 3) (R 5))) (An (R 4) (R 5))));
  (8%nat, Ad (Ad (Ad (Ad (R 1) (Xo (Xo (Or (SL (R 6) 50) (SR (R 6) 14)) (Or (SL (R 6) 46) (SR (R 6) 18))) (Or (SL (R 6) 23) (SR (R 6) 41)))) (Xo (An (R 6) (R 7)) (An (No (R 6)) (R 0)))) (R 23)) (K 0x9BDC06A725C71235));
  (5%nat, Ad (R 5) (R 8));
  (1%nat, Ad (Ad (R 8) (Xo (Xo (Or (SL (R 2) 36) (SR (R 2) 28)) (Or (SL (R 2) 30) (SR (R 2) 34))) (Or (SL (R 2) 25) (SR (R 2) 39)))) (Xo (Xo (An (R 2) (R 3)) (An (R 2) (R 4))) (An (R 3) (R 4))));
  (8%nat, Ad (Ad (Ad (Ad (R 0) (Xo (Xo (Or (SL (R 5) 50) (SR (R 5) 14)) (Or (SL (R 5) 46) (SR (R 5) 18))) (Or (SL (R 5) 23) (SR (R 5) 41)))) (Xo (An (R 5) (R 6)) (An (No (R 5)) (R 7)))) (R 24)) (K 0xC19BF174CF692694));
  (4%nat, Ad (R 4) (R 8));
  (0%nat, Ad (Ad (R 8) (Xo (Xo (Or (SL (R 1) 36) (SR (R 1) 28)) (Or (SL (R 1) 30) (SR (R 1) 34))) (Or (SL (R 1) 25) (SR (R 1) 39)))) (Xo (Xo (An (R 1) (R 2)) (An (R 1) (R 3))) (An (R 2) (R 3))));
  (9%nat, Ad (R 9) (Ad (Ad (Xo (Xo (Or (SL (R 23) 45) (SR (R 23) 19)) (Or (SL (R 23) 3) (SR (R 23) 61))) (SR (R 23) 6)) (R 18)) (Xo (Xo (Or (SL (R 10) 63) (SR (R 10) 1)) (Or (SL (R 10) 56) (SR (R 10) 8))) (SR (R 10) 7))));
  (8%nat, Ad (Ad (Ad (Ad (R 7) (Xo (Xo (Or (SL (R 4) 50) (SR (R 4) 14)) (Or (SL (R 4) 46) (SR (R 4) 18))) (Or (SL (R 4) 23) (SR (R 4) 41)))) (Xo (An (R 4) (R 5)) (An (No (R 4)) (R 6)))) (R 9)) (K 0xE49B69C19EF14AD2));
  (3%nat, Ad (R 3) (R 8));
  (7%nat, Ad (Ad (R 8) (Xo (Xo (Or (SL (R 0) 36) (SR (R 0) 28)) (Or (SL (R 0) 30) (SR (R 0) 34))) (Or (SL (R 0) 25) (SR (R 0) 39)))) (Xo (Xo (An (R 0) (R 1)) (An (R 0) (R 2))) (An (R 1) (R 2))));
  (10%nat, Ad (R 10) (Ad (Ad (Xo (Xo (Or (SL (R 24) 45) (SR (R 24) 19)) (Or (SL (R 24) 3) (SR (R 24) 61))) (SR (R 24) 6)) (R 19)) (Xo (Xo (Or (SL (R 11) 63) (SR (R 11) 1)) (Or (SL (R 11) 56) (SR (R 11) 8))) (SR (R 11) 7))));
  (8%nat, Ad (Ad (Ad (Ad (R 6) (Xo (Xo (Or (SL (R 3) 50) (SR (R 3) 14)) (Or (SL (R 3) 46) (SR (R 3) 18))) (Or (SL (R 3) 23) (SR (R 3) 41)))) (Xo (An (R 3) (R 4)) (An (No (R 3)) (R 5)))) (R 10)) (K 0xEFBE4786384F25E3));
  (2%nat, Ad (R 2) (R 8));
  (6%nat, Ad (Ad (R 8) (Xo (Xo (Or (SL (R 7) 36) (SR (R 7) 28)) (Or (SL (R 7) 30) (SR (R 7) 34))) (Or (SL (R 7) 25) (SR (R 7) 39)))) (Xo (Xo (An (R 7) (R 0)) (An (R 7) (R 1))) (An (R 0) (R 1))));
  (11%nat, Ad (R 11) (Ad (Ad (Xo (Xo (Or (SL (R 9) 45) (SR (R 9) 19)) (Or (SL (R 9) 3) (SR (R 9) 61))) (SR (R 9) 6)) (R 20)) (Xo (Xo (Or (SL (R 12) 63) (SR (R 12) 1)) (Or (SL (R 12) 56) (SR (R 12) 8))) (SR (R 12) 7))));
  (8%nat, Ad (Ad (Ad (Ad (R 5) (Xo (Xo (Or (SL (R 2) 50) (SR (R 2) 14)) (Or (SL (R 2) 46) (SR (R 2) 18))) (Or (SL (R 2) 23) (SR (R 2) 41)))) (Xo (An (R 2) (R 3)) (An (No (R 2)) (R 4)))) (R 11)) (K 0xFC19DC68B8CD5B5));
  (1%nat, Ad (R 1) (R 8));
  (5%nat, Ad (Ad (R 8) (Xo (Xo (Or (SL (R 6) 36) (SR (R 6) 28)) (Or (SL (R 6) 30) (SR (R 6) 34))) (Or (SL (R 6) 25) (SR (R 6) 39)))) (Xo (Xo (An (R 6) (R 7)) (An (R 6) (R 0))) (An (R 7) (R 0))));
  (12%nat, Ad (R 12) (Ad (Ad (Xo (Xo (Or (SL (R 10) 45) (SR (R 10) 19)) (Or (SL (R 10) 3) (SR (R 10) 61))) (SR (R 10) 6)) (R 21)) (Xo (Xo (Or (SL (R 13) 63) (SR (R 13) 1)) (Or (SL (R 13) 56) (SR (R 13) 8))) (SR (R 13) 7))));
  (8%nat, Ad (Ad (Ad (Ad (R 4) (Xo (Xo (Or (SL (R 1) 50) (SR (R 1) 14)) (Or (SL (R 1) 46) (SR (R 1) 18))) (Or (SL (R 1) 23) (SR (R 1) 41)))) (Xo (An (R 1) (R 2)) (An (No (R 1)) (R 3)))) (R 12)) (K 0x240CA1CC77AC9C65));
  (0%nat, Ad (R 0) (R 8));
  (4%nat, Ad (Ad (R 8) (Xo (Xo (Or (SL (R 5) 36) (SR (R 5) 28)) (Or (SL (R 5) 30) (SR (R 5) 34))) (Or (SL (R 5) 25) (SR (R 5) 39)))) (Xo (Xo (An (R 5) (R 6)) (An (R 5) (R 7))) (An (R 6) (R 7))));
  (13%nat, Ad (R 13) (Ad (Ad (Xo (Xo (Or (SL (R 11) 45) (SR (R 11) 19)) (Or (SL (R 11) 3) (SR (R 11) 61))) (SR (R 11) 6)) (R 22)) (Xo (Xo (Or (SL (R 14) 63) (SR (R 14) 1)) (Or (SL (R 14) 56) (SR (R 14) 8))) (SR (R 14) 7))));
  (8%nat, Ad (Ad (Ad (Ad (R 3) (Xo (Xo (Or (SL (R 0) 50) (SR (R 0) 14)) (Or (SL (R 0) 46) (SR (R 0) 18))) (Or (SL (R 0) 23) (SR (R 0) 41)))) (Xo (An (R 0) (R 1)) (An (No (R 0)) (R 2)))) (R 13)) (K 0x2DE92C6F592B0275));
  (7%nat, Ad (R 7) (R 8));
  (3%nat, Ad (Ad (R 8) (Xo (Xo (Or (SL (R 4) 36) (SR (R 4) 28)) (Or (SL (R 4) 30) (SR (R 4) 34))) (Or (SL (R 4) 25) (SR (R 4) 39)))) (Xo (Xo (An (R 4) (R 5)) (An (R 4) (R 6))) (An (R 5) (R 6))));
  (14%nat, Ad (R 14) (Ad (Ad (Xo (Xo (Or (SL (R 12) 45) (SR (R 12) 19)) (Or (SL (R 12) 3) (SR (R 12) 61))) (SR (R 12) 6)) (R 23)) (Xo (Xo (Or (SL (R 15) 63) (SR (R 15) 1)) (Or (SL (R 15) 56) (SR (R 15) 8))) (SR (R 15) 7))));
  (8%nat, Ad (Ad (Ad (Ad (R 2) (Xo (Xo (Or (SL (R 7) 50) (SR (R 7) 14)) (Or (SL (R 7) 46) (SR (R 7) 18))) (Or (SL (R 7) 23) (SR (R 7) 41)))) (Xo (An (R 7) (R 0)) (An (No (R 7)) (R 1)))) (R 14)) (K 0x4A7484AA6EA6E483));
  (6%nat, Ad (R 6) (R 8));
  (2%nat, Ad (Ad (R 8) (Xo (Xo (Or (SL (R 3) 36) (SR (R 3) 28)) (Or (SL (R 3) 30) (SR (R 3) 34))) (Or (SL (R 3) 25) (SR (R 3) 39)))) (Xo (Xo (An (R 3) (R 4)) (An (R 3) (R 5))) (An (R 4) (R 5))));
  (15%nat, Ad (R 15) (Ad (Ad (Xo (Xo (Or (SL (R 13) 45) (SR (R 13) 19)) (Or (SL (R 13) 3) (SR (R 13) 61))) (SR (R 13) 6)) (R 24)) (Xo (Xo (Or (SL (R 16) 63) (SR (R 16) 1)) (Or (SL (R 16) 56) (SR (R 16) 8))) (SR (R 16) 7))));
  (8%nat, Ad (Ad (Ad (Ad (R 1) (Xo (Xo (Or (SL (R 6) 50) (SR (R 6) 14)) (Or (SL (R 6) 46) (SR (R 6) 18))) (Or (SL (R 6) 23) (SR (R 6) 41)))) (Xo (An (R 6) (R 7)) (An (No (R 6)) (R 0)))) (R 15)) (K 0x5CB0A9DCBD41FBD4));
  (5%nat, Ad (R 5) (R 8));
  (1%nat, Ad (Ad (R 8) (Xo (Xo (Or (SL (R 2) 36) (SR (R 2) 28)) (Or (SL (R 2) 30) (SR (R 2) 34))) (Or (SL (R 2) 25) (SR (R 2) 39)))) (Xo (Xo (An (R 2) (R 3)) (An (R 2) (R 4))) (An (R 3) (R 4))));
  (16%nat, Ad (R 16) (Ad (Ad (Xo (Xo (Or (SL (R 14) 45) (SR (R 14) 19)) (Or (SL (R 14) 3) (SR (R 14) 61))) (SR (R 14) 6)) (R 9)) (Xo (Xo (Or (SL (R 17) 63) (SR (R 17) 1)) (Or (SL (R 17) 56) (SR (R 17) 8))) (SR (R 17) 7))));
  (8%nat, Ad (Ad (Ad (Ad (R 0) (Xo (Xo (Or (SL (R 5) 50) (SR (R 5) 14)) (Or (SL (R 5) 46) (SR (R 5) 18))) (Or (SL (R 5) 23) (SR (R 5) 41)))) (Xo (An (R 5) (R 6)) (An (No (R 5)) (R 7)))) (R 16)) (K 0x76F988DA831153B5));
  (4%nat, Ad (R 4) (R 8));
  (0%nat, Ad (Ad (R 8) (Xo (Xo (Or (SL (R 1) 36) (SR (R 1) 28)) (Or (SL (R 1) 30) (SR (R 1) 34))) (Or (SL (R 1) 25) (SR (R 1) 39)))) (Xo (Xo (An (R 1) (R 2)) (An (R 1) (R 3))) (An (R 2) (R 3))));
  (17%nat, Ad (R 17) (Ad (Ad (Xo (Xo (Or (SL (R 15) 45) (SR (R 15) 19)) (Or (SL (R 15) 3) (SR (R 15) 61))) (SR (R 15) 6)) (R 10)) (Xo (Xo (Or (SL (R 18) 63) (SR (R 18) 1)) (Or (SL (R 18) 56) (SR (R 18) 8))) (SR (R 18) 7))));
  (8%nat, Ad (Ad (Ad (Ad (R 7) (Xo (Xo (Or (SL (R 4) 50) (SR (R 4) 14)) (Or (SL (R 4) 46) (SR (R 4) 18))) (Or (SL (R 4) 23) (SR (R 4) 41)))) (Xo (An (R 4) (R 5)) (An (No (R 4)) (R 6)))) (R 17)) (K 0x983E5152EE66DFAB));
  (3%nat, Ad (R 3) (R 8));
  (7%nat, Ad (Ad (R 8) (Xo (Xo (Or (SL (R 0) 36) (SR (R 0) 28)) (Or (SL (R 0) 30) (SR (R 0) 34))) (Or (SL (R 0) 25) (SR (R 0) 39)))) (Xo (Xo (An (R 0) (R 1)) (An (R 0) (R 2))) (An (R 1) (R 2))));
  (18%nat, Ad (R 18) (Ad (Ad (Xo (Xo (Or (SL (R 16) 45) (SR (R 16) 19)) (Or (SL (R 16) 3) (SR (R 16) 61))) (SR (R 16) 6)) (R 11)) (Xo (Xo (Or (SL (R 19) 63) (SR (R 19) 1)) (Or (SL (R 19) 56) (SR (R 19) 8))) (SR (R 19) 7))));
  (8%nat, Ad (Ad (Ad (Ad (R 6) (Xo (Xo (Or (SL (R 3) 50) (SR (R 3) 14)) (Or (SL (R 3) 46) (SR (R 3) 18))) (Or (SL (R 3) 23) (SR (R 3) 41)))) (Xo (An (R 3) (R 4)) (An (No (R 3)) (R 5)))) (R 18)) (K 0xA831C66D2DB43210));
  (2%nat, Ad (R 2) (R 8));
  (6%nat, Ad (Ad (R 8) (Xo (Xo (Or (SL (R 7) 36) (SR (R 7) 28)) (Or (SL (R 7) 30) (SR (R 7) 34))) (Or (SL (R 7) 25) (SR (R 7) 39)))) (Xo (Xo (An (R 7) (R 0)) (An (R 7) (R 1))) (An (R 0) (R 1))));
  (19%nat, Ad (R 19) (Ad (Ad (Xo (Xo (Or (SL (R 17) 45) (SR (R 17) 19)) (Or (SL (R 17) 3) (SR (R 17) 61))) (SR (R 17) 6)) (R 12)) (Xo (Xo (Or (SL (R 20) 63) (SR (R 20) 1)) (Or (SL (R 20) 56) (SR (R 20) 8))) (SR (R 20) 7))));
  (8%nat, Ad (Ad (Ad (Ad (R 5) (Xo (Xo (Or (SL (R 2) 50) (SR (R 2) 14)) (Or (SL (R 2) 46) (SR (R 2) 18))) (Or (SL (R 2) 23) (SR (R 2) 41)))) (Xo (An (R 2) (R 3)) (An (No (R 2)) (R 4)))) (R 19)) (K 0xB00327C898FB213F));
  (1%nat, Ad (R 1) (R 8));
  (5%nat, Ad (Ad (R 8) (Xo (Xo (Or (SL (R 6) 36) (SR (R 6) 28)) (Or (SL (R 6) 30) (SR (R 6) 34))) (Or (SL (R 6) 25) (SR (R 6) 39)))) (Xo (Xo (An (R 6) (R 7)) (An (R 6) (R 0))) (An (R 7) (R 0))));
  (20%nat, Ad (R 20) (Ad (Ad (Xo (Xo (Or (SL (R 18) 45) (SR (R 18) 19)) (Or (SL (R 18) 3) (SR (R 18) 61))) (SR (R 18) 6)) (R 13)) (Xo (Xo (Or (SL (R 21) 63) (SR (R 21) 1)) (Or (SL (R 21) 56) (SR (R 21) 8))) (SR (R 21) 7))));
  (8%nat, Ad (Ad (Ad (Ad (R 4) (Xo (Xo (Or (SL (R 1) 50) (SR (R 1) 14)) (Or (SL (R 1) 46) (SR (R 1) 18))) (Or (SL (R 1) 23) (SR (R 1) 41)))) (Xo (An (R 1) (R 2)) (An (No (R 1)) (R 3)))) (R 20)) (K 0xBF597FC7BEEF0EE4));
  (0%nat, Ad (R 0) (R 8));
  (4%nat, Ad (Ad (R 8) (Xo (Xo (Or (SL (R 5) 36) (SR (R 5) 28)) (Or (SL (R 5) 30) (SR (R 5) 34))) (Or (SL (R 5) 25) (SR (R 5) 39)))) (Xo (Xo (An (R 5) (R 6)) (An (R 5) (R 7))) (An (R 6) (R 7))));
  (21%nat, Ad (R 21) (Ad (Ad (Xo (Xo (Or (SL (R 19) 45) (SR (R 19) 19)) (Or (SL (R 19) 3) (SR (R 19) 61))) (SR (R 19) 6)) (R 14)) (Xo (Xo (Or (SL (R 22) 63) (SR (R 22) 1)) (Or (SL (R 22) 56) (SR (R 22) 8))) (SR (R 22) 7))));
  (8%nat, Ad (Ad (Ad (Ad (R 3) (Xo (Xo (Or (SL (R 0) 50) (SR (R 0) 14)) (Or (SL (R 0) 46) (SR (R 0) 18))) (Or (SL (R 0) 23) (SR (R 0) 41)))) (Xo (An (R 0) (R 1)) (An (No (R 0)) (R 2)))) (R 21)) (K 0xC6E00BF33DA88FC2));
  (7%nat, Ad (R 7) (R 8));
  (3%nat, Ad (Ad (R 8) (Xo (Xo (Or (SL (R 4) 36) (SR (R 4) 28)) (Or (SL (R 4) 30) (SR (R 4) 34))) (Or (SL (R 4) 25) (SR (R 4) 39)))) (Xo (Xo (An (R 4) (R 5)) (An (R 4) (R 6))) (An (R 5) (R 6))));
  (22%nat, Ad (R 22) (Ad (Ad (Xo (Xo (Or (SL (R 20) 45) (SR (R 20) 19)) (Or (SL (R 20) 3) (SR (R 20) 61))) (SR (R 20) 6)) (R 15)) (Xo (Xo (Or (SL (R 23) 63) (SR (R 23) 1)) (Or (SL (R 23) 56) (SR (R 23) 8))) (SR (R 23) 7))));
  (8%nat, Ad (Ad (Ad (Ad (R 2) (Xo (Xo (Or (SL (R 7) 50) (SR (R 7) 14)) (Or (SL (R 7) 46) (SR (R 7) 18))) (Or (SL (R 7) 23) (SR (R 7) 41)))) (Xo (An (R 7) (R 0)) (An (No (R 7)) (R 1)))) (R 22)) (K 0xD5A79147930AA725));
  (6%nat, Ad (R 6) (R 8));
  (2%nat, Ad (Ad (R 8) (Xo (Xo (Or (SL (R 3) 36) (SR (R 3) 28)) (Or (SL (R 3) 30) (SR (R 3) 34))) (Or (SL (R 3) 25) (SR (R 3) 39)))) (Xo (Xo (An (R 3) (R 4)) (An (R 3) (R 5))) (An (R 4) (R 5))));
  (23%nat, Ad (R 23) (Ad (Ad (Xo (Xo (Or (SL (R 21) 45) (SR (R 21) 19)) (Or (SL (R 21) 3) (SR (R 21) 61))) (SR (R 21) 6)) (R 16)) (Xo (Xo (Or (SL (R 24) 63) (SR (R 24) 1)) (Or (SL (R 24) 56) (SR (R 24) 8))) (SR (R 24) 7))));
  (8%nat, Ad (Ad (Ad (Ad (R 1) (Xo (Xo (Or (SL (R 6) 50) (SR (R 6) 14)) (Or (SL (R 6) 46) (SR (R 6) 18))) (Or (SL (R 6) 23) (SR (R 6) 41)))) (Xo (An (R 6) (R 7)) (An (No (R 6)) (R 0)))) (R 23)) (K 0x6CA6351E003826F));
  (5%nat, Ad (R 5) (R 8));
  (1%nat, Ad (Ad (R 8) (Xo (Xo (Or (SL (R 2) 36) (SR (R 2) 28)) (Or (SL (R 2) 30) (SR (R 2) 34))) (Or (SL (R 2) 25) (SR (R 2) 39)))) (Xo (Xo (An (R 2) (R 3)) (An (R 2) (R 4))) (An (R 3) (R 4))));
  (24%nat, Ad (R 24) (Ad (Ad (Xo (Xo (Or (SL (R 22) 45) (SR (R 22) 19)) (Or (SL (R 22) 3) (SR (R 22) 61))) (SR (R 22) 6)) (R 17)) (Xo (Xo (Or (SL (R 9) 63) (SR (R 9) 1)) (Or (SL (R 9) 56) (SR (R 9) 8))) (SR (R 9) 7))));
  (8%nat, Ad (Ad (Ad (Ad (R 0) (Xo (Xo (Or (SL (R 5) 50) (SR (R 5) 14)) (Or (SL (R 5) 46) (SR (R 5) 18))) (Or (SL (R 5) 23) (SR (R 5) 41)))) (Xo (An (R 5) (R 6)) (An (No (R 5)) (R 7)))) (R 24)) (K 0x142929670A0E6E70));
  (4%nat, Ad (R 4) (R 8));
  (0%nat, Ad (Ad (R 8) (Xo (Xo (Or (SL (R 1) 36) (SR (R 1) 28)) (Or (SL (R 1) 30) (SR (R 1) 34))) (Or (SL (R 1) 25) (SR (R 1) 39)))) (Xo (Xo (An (R 1) (R 2)) (An (R 1) (R 3))) (An (R 2) (R 3))));
  (9%nat, Ad (R 9) (Ad (Ad (Xo (Xo (Or (SL (R 23) 45) (SR (R 23) 19)) (Or (SL (R 23) 3) (SR (R 23) 61))) (SR (R 23) 6)) (R 18)) (Xo (Xo (Or (SL (R 10) 63) (SR (R 10) 1)) (Or (SL (R 10) 56) (SR (R 10) 8))) (SR (R 10) 7))));
  (8%nat, Ad (Ad (Ad (Ad (R 7) (Xo (Xo (Or (SL (R 4) 50) (SR (R 4) 14)) (Or (SL (R 4) 46) (SR (R 4) 18))) (Or (SL (R 4) 23) (SR (R 4) 41)))) (Xo (An (R 4) (R 5)) (An (No (R 4)) (R 6)))) (R 9)) (K 0x27B70A8546D22FFC));
  (3%nat, Ad (R 3) (R 8));
  (7%nat, Ad (Ad (R 8) (Xo (Xo (Or (SL (R 0) 36) (SR (R 0) 28)) (Or (SL (R 0) 30) (SR (R 0) 34))) (Or (SL (R 0) 25) (SR (R 0) 39)))) (Xo (Xo (An (R 0) (R 1)) (An (R 0) (R 2))) (An (R 1) (R 2))));
  (10%nat, Ad (R 10) (Ad (Ad (Xo (Xo (Or (SL (R 24) 45) (SR (R 24) 19)) (Or (SL (R 24) 3) (SR (R 24) 61))) (SR (R 24) 6)) (R 19)) (Xo (Xo (Or (SL (R 11) 63) (SR (R 11) 1)) (Or (SL (R 11) 56) (SR (R 11) 8))) (SR (R 11) 7))));
  (8%nat, Ad (Ad (Ad (Ad (R 6) (Xo (Xo (Or (SL (R 3) 50) (SR (R 3) 14)) (Or (SL (R 3) 46) (SR (R 3) 18))) (Or (SL (R 3) 23) (SR (R 3) 41)))) (Xo (An (R 3) (R 4)) (An (No (R 3)) (R 5)))) (R 10)) (K 0x2E1B21385C26C926));
  (2%nat, Ad (R 2) (R 8));
  (6%nat, Ad (Ad (R 8) (Xo (Xo (Or (SL (R 7) 36) (SR (R 7) 28)) (Or (SL (R 7) 30) (SR (R 7) 34))) (Or (SL (R 7) 25) (SR (R 7) 39)))) (Xo (Xo (An (R 7) (R 0)) (An (R 7) (R 1))) (An (R 0) (R 1))));
  (11%nat, Ad (R 11) (Ad (Ad (Xo (Xo (Or (SL (R 9) 45) (SR (R 9) 19)) (Or (SL (R 9) 3) (SR (R 9) 61))) (SR (R 9) 6)) (R 20)) (Xo (Xo (Or (SL (R 12) 63) (SR (R 12) 1)) (Or (SL (R 12) 56) (SR (R 12) 8))) (SR (R 12) 7))));
  (8%nat, Ad (Ad (Ad (Ad (R 5) (Xo (Xo (Or (SL (R 2) 50) (SR (R 2) 14)) (Or (SL (R 2) 46) (SR (R 2) 18))) (Or (SL (R 2) 23) (SR (R 2) 41)))) (Xo (An (R 2) (R 3)) (An (No (R 2)) (R 4)))) (R 11)) (K 0x4D2C6DFC5AC42AED));
  (1%nat, Ad (R 1) (R 8));
  (5%nat, Ad (Ad (R 8) (Xo (Xo (Or (SL (R 6) 36) (SR (R 6) 28)) (Or (SL (R 6) 30) (SR (R 6) 34))) (Or (SL (R 6) 25) (SR (R 6) 39)))) (Xo (Xo (An (R 6) (R 7)) (An (R 6) (R 0))) (An (R 7) (R 0))));
  (12%nat, Ad (R 12) (Ad (Ad (Xo (Xo (Or (SL (R 10) 45) (SR (R 10) 19)) (Or (SL (R 10) 3) (SR (R 10) 61))) (SR (R 10) 6)) (R 21)) (Xo (Xo (Or (SL (R 13) 63) (SR (R 13) 1)) (Or (SL (R 13) 56) (SR (R 13) 8))) (SR (R 13) 7))));
  (8%nat, Ad (Ad (Ad (Ad (R 4) (Xo (Xo (Or (SL (R 1) 50) (SR (R 1) 14)) (Or (SL (R 1) 46) (SR (R 1) 18))) (Or (SL (R 1) 23) (SR (R 1) 41)))) (Xo (An (R 1) (R 2)) (An (No (R 1)) (R 3)))) (R 12)) (K 0x53380D139D95B3DF));
  (0%nat, Ad (R 0) (R 8));
  (4%nat, Ad (Ad (R 8) (Xo (Xo (Or (SL (R 5) 36) (SR (R 5) 28)) (Or (SL (R 5) 30) (SR (R 5) 34))) (Or (SL (R 5) 25) (SR (R 5) 39)))) (Xo (Xo (An (R 5) (R 6)) (An (R 5) (R 7))) (An (R 6) (R 7))));
  (13%nat, Ad (R 13) (Ad (Ad (Xo (Xo (Or (SL (R 11) 45) (SR (R 11) 19)) (Or (SL (R 11) 3) (SR (R 11) 61))) (SR (R 11) 6)) (R 22)) (Xo (Xo (Or (SL (R 14) 63) (SR (R 14) 1)) (Or (SL (R 14) 56) (SR (R 14) 8))) (SR (R 14) 7))));
  (8%nat, Ad (Ad (Ad (Ad (R 3) (Xo (Xo (Or (SL (R 0) 50) (SR (R 0) 14)) (Or (SL (R 0) 46) (SR (R 0) 18))) (Or (SL (R 0) 23) (SR (R 0) 41)))) (Xo (An (R 0) (R 1)) (An (No (R 0)) (R 2)))) (R 13)) (K 0x650A73548BAF63DE));
  (7%nat, Ad (R 7) (R 8));
  (3%nat, Ad (Ad (R 8) (Xo (Xo (Or (SL (R 4) 36) (SR (R 4) 28)) (Or (SL (R 4) 30) (SR (R 4) 34))) (Or (SL (R 4) 25) (SR (R 4) 39)))) (Xo (Xo (An (R 4) (R 5)) (An (R 4) (R 6))) (An (R 5) (R 6))));
  (14%nat, Ad (R 14) (Ad (Ad (Xo (Xo (Or (SL (R 12) 45) (SR (R 12) 19)) (Or (SL (R 12) 3) (SR (R 12) 61))) (SR (R 12) 6)) (R 23)) (Xo (Xo (Or (SL (R 15) 63) (SR (R 15) 1)) (Or (SL (R 15) 56) (SR (R 15) 8))) (SR (R 15) 7))));
  (8%nat, Ad (Ad (Ad (Ad (R 2) (Xo (Xo (Or (SL (R 7) 50) (SR (R 7) 14)) (Or (SL (R 7) 46) (SR (R 7) 18))) (Or (SL (R 7) 23) (SR (R 7) 41)))) (Xo (An (R 7) (R 0)) (An (No (R 7)) (R 1)))) (R 14)) (K 0x766A0ABB3C77B2A8));
  (6%nat, Ad (R 6) (R 8));
  (2%nat, Ad (Ad (R 8) (Xo (Xo (Or (SL (R 3) 36) (SR (R 3) 28)) (Or (SL (R 3) 30) (SR (R 3) 34))) (Or (SL (R 3) 25) (SR (R 3) 39)))) (Xo (Xo (An (R 3) (R 4)) (An (R 3) (R 5))) (An (R 4) (R 5))));
  (15%nat, Ad (R 15) (Ad (Ad (Xo (Xo (Or (SL (R 13) 45) (SR (R 13) 19)) (Or (SL (R 13) 3) (SR (R 13) 61))) (SR (R 13) 6)) (R 24)) (Xo (Xo (Or (SL (R 16) 63) (SR (R 16) 1)) (Or (SL (R 16) 56) (SR (R 16) 8))) (SR (R 16) 7))));
  (8%nat, Ad (Ad (Ad (Ad (R 1) (Xo (Xo (Or (SL (R 6) 50) (SR (R 6) 14)) (Or (SL (R 6) 46) (SR (R 6) 18))) (Or (SL (R 6) 23) (SR (R 6) 41)))) (Xo (An (R 6) (R 7)) (An (No (R 6)) (R 0)))) (R 15)) (K 0x81C2C92E47EDAEE6));
  (5%nat, Ad (R 5) (R 8));
  (1%nat, Ad (Ad (R 8) (Xo (Xo (Or (SL (R 2) 36) (SR (R 2) 28)) (Or (SL (R 2) 30) (SR (R 2) 34))) (Or (SL (R 2) 25) (SR (R 2) 39)))) (Xo (Xo (An (R 2) (R 3)) (An (R 2) (R 4))) (An (R 3) (R 4))));
  (16%nat, Ad (R 16) (Ad (Ad (Xo (Xo (Or (SL (R 14) 45) (SR (R 14) 19)) (Or (SL (R 14) 3) (SR (R 14) 61))) (SR (R 14) 6)) (R 9)) (Xo (Xo (Or (SL (R 17) 63) (SR (R 17) 1)) (Or (SL (R 17) 56) (SR (R 17) 8))) (SR (R 17) 7))));
  (8%nat, Ad (Ad (Ad (Ad (R 0) (Xo (Xo (Or (SL (R 5) 50) (SR (R 5) 14)) (Or (SL (R 5) 46) (SR (R 5) 18))) (Or (SL (R 5) 23) (SR (R 5) 41)))) (Xo (An (R 5) (R 6)) (An (No (R 5)) (R 7)))) (R 16)) (K 0x92722C851482353B));
  (4%nat, Ad (R 4) (R 8));
  (0%nat, Ad (Ad (R 8) (Xo (Xo (Or (SL (R 1) 36) (SR (R 1) 28)) (Or (SL (R 1) 30) (SR (R 1) 34))) (Or (SL (R 1) 25) (SR (R 1) 39)))) (Xo (Xo (An (R 1) (R 2)) (An (R 1) (R 3))) (An (R 2) (R 3))));
  (17%nat, Ad (R 17) (Ad (Ad (Xo (Xo (Or (SL (R 15) 45) (SR (R 15) 19)) (Or (SL (R 15) 3) (SR (R 15) 61))) (SR (R 15) 6)) (R 10)) (Xo (Xo (Or (SL (R 18) 63) (SR (R 18) 1)) (Or (SL (R 18) 56) (SR (R 18) 8))) (SR (R 18) 7))));
  (8%nat, Ad (Ad (Ad (Ad (R 7) (Xo (Xo (Or (SL (R 4) 50) (SR (R 4) 14)) (Or (SL (R 4) 46) (SR (R 4) 18))) (Or (SL (R 4) 23) (SR (R 4) 41)))) (Xo (An (R 4) (R 5)) (An (No (R 4)) (R 6)))) (R 17)) (K 0xA2BFE8A14CF10364));
  (3%nat, Ad (R 3) (R 8));
  (7%nat, Ad (Ad (R 8) (Xo (Xo (Or (SL (R 0) 36) (SR (R 0) 28)) (Or (SL (R 0) 30) (SR (R 0) 34))) (Or (SL (R 0) 25) (SR (R 0) 39)))) (Xo (Xo (An (R 0) (R 1)) (An (R 0) (R 2))) (An (R 1) (R 2))));
  (18%nat, Ad (R 18) (Ad (Ad (Xo (Xo (Or (SL (R 16) 45) (SR (R 16) 19)) (Or (SL (R 16) 3) (SR (R 16) 61))) (SR (R 16) 6)) (R 11)) (Xo (Xo (Or (SL (R 19) 63) (SR (R 19) 1)) (Or (SL (R 19) 56) (SR (R 19) 8))) (SR (R 19) 7))));
  (8%nat, Ad (Ad (Ad (Ad (R 6) (Xo (Xo (Or (SL (R 3) 50) (SR (R 3) 14)) (Or (SL (R 3) 46) (SR (R 3) 18))) (Or (SL (R 3) 23) (SR (R 3) 41)))) (Xo (An (R 3) (R 4)) (An (No (R 3)) (R 5)))) (R 18)) (K 0xA81A664BBC423001));
  (2%nat, Ad (R 2) (R 8));
  (6%nat, Ad (Ad (R 8) (Xo (Xo (Or (SL (R 7) 36) (SR (R 7) 28)) (Or (SL (R 7) 30) (SR (R 7) 34))) (Or (SL (R 7) 25) (SR (R 7) 39)))) (Xo (Xo (An (R 7) (R 0)) (An (R 7) (R 1))) (An (R 0) (R 1))));
  (19%nat, Ad (R 19) (Ad (Ad (Xo (Xo (Or (SL (R 17) 45) (SR (R 17) 19)) (Or (SL (R 17) 3) (SR (R 17) 61))) (SR (R 17) 6)) (R 12)) (Xo (Xo (Or (SL (R 20) 63) (SR (R 20) 1)) (Or (SL (R 20) 56) (SR (R 20) 8))) (SR (R 20) 7))));
  (8%nat, Ad (Ad (Ad (Ad (R 5) (Xo (Xo (Or (SL (R 2) 50) (SR (R 2) 14)) (Or (SL (R 2) 46) (SR (R 2) 18))) (Or (SL (R 2) 23) (SR (R 2) 41)))) (Xo (An (R 2) (R 3)) (An (No (R 2)) (R 4)))) (R 19)) (K 0xC24B8B70D0F89791));
  (1%nat, Ad (R 1) (R 8));
  (5%nat, Ad (Ad (R 8) (Xo (Xo (Or (SL (R 6) 36) (SR (R 6) 28)) (Or (SL (R 6) 30) (SR (R 6) 34))) (Or (SL (R 6) 25) (SR (R 6) 39)))) (Xo (Xo (An (R 6) (R 7)) (An (R 6) (R 0))) (An (R 7) (R 0))));
  (20%nat, Ad (R 20) (Ad (Ad (Xo (Xo (Or (SL (R 18) 45) (SR (R 18) 19)) (Or (SL (R 18) 3) (SR (R 18) 61))) (SR (R 18) 6)) (R 13)) (Xo (Xo (Or (SL (R 21) 63) (SR (R 21) 1)) (Or (SL (R 21) 56) (SR (R 21) 8))) (SR (R 21) 7))));
  (8%nat, Ad (Ad (Ad (Ad (R 4) (Xo (Xo (Or (SL (R 1) 50) (SR (R 1) 14)) (Or (SL (R 1) 46) (SR (R 1) 18))) (Or (SL (R 1) 23) (SR (R 1) 41)))) (Xo (An (R 1) (R 2)) (An (No (R 1)) (R 3)))) (R 20)) (K 0xC76C51A30654BE30));
  (0%nat, Ad (R 0) (R 8));
  (4%nat, Ad (Ad (R 8) (Xo (Xo (Or (SL (R 5) 36) (SR (R 5) 28)) (Or (SL (R 5) 30) (SR (R 5) 34))) (Or (SL (R 5) 25) (SR (R 5) 39)))) (Xo (Xo (An (R 5) (R 6)) (An (R 5) (R 7))) (An (R 6) (R 7))));
  (21%nat, Ad (R 21) (Ad (Ad (Xo (Xo (Or (SL (R 19) 45) (SR (R 19) 19)) (Or (SL (R 19) 3) (SR (R 19) 61))) (SR (R 19) 6)) (R 14)) (Xo (Xo (Or (SL (R 22) 63) (SR (R 22) 1)) (Or (SL (R 22) 56) (SR (R 22) 8))) (SR (R 22) 7))));
  (8%nat, Ad (Ad (Ad (Ad (R 3) (Xo (Xo (Or (SL (R 0) 50) (SR (R 0) 14)) (Or (SL (R 0) 46) (SR (R 0) 18))) (Or (SL (R 0) 23) (SR (R 0) 41)))) (Xo (An (R 0) (R 1)) (An (No (R 0)) (R 2)))) (R 21)) (K 0xD192E819D6EF5218));
  (7%nat, Ad (R 7) (R 8));
  (3%nat, Ad (Ad (R 8) (Xo (Xo (Or (SL (R 4) 36) (SR (R 4) 28)) (Or (SL (R 4) 30) (SR (R 4) 34))) (Or (SL (R 4) 25) (SR (R 4) 39)))) (Xo (Xo (An (R 4) (R 5)) (An (R 4) (R 6))) (An (R 5) (R 6))));
  (22%nat, Ad (R 22) (Ad (Ad (Xo (Xo (Or (SL (R 20) 45) (SR (R 20) 19)) (Or (SL (R 20) 3) (SR (R 20) 61))) (SR (R 20) 6)) (R 15)) (Xo (Xo (Or (SL (R 23) 63) (SR (R 23) 1)) (Or (SL (R 23) 56) (SR (R 23) 8))) (SR (R 23) 7))));
  (8%nat, Ad (Ad (Ad (Ad (R 2) (Xo (Xo (Or (SL (R 7) 50) (SR (R 7) 14)) (Or (SL (R 7) 46) (SR (R 7) 18))) (Or (SL (R 7) 23) (SR (R 7) 41)))) (Xo (An (R 7) (R 0)) (An (No (R 7)) (R 1)))) (R 22)) (K 0xD69906245565A910));
  (6%nat, Ad (R 6) (R 8));
  (2%nat, Ad (Ad (R 8) (Xo (Xo (Or (SL (R 3) 36) (SR (R 3) 28)) (Or (SL (R 3) 30) (SR (R 3) 34))) (Or (SL (R 3) 25) (SR (R 3) 39)))) (Xo (Xo (An (R 3) (R 4)) (An (R 3) (R 5))) (An (R 4) (R 5))));
  (23%nat, Ad (R 23) (Ad (Ad (Xo (Xo (Or (SL (R 21) 45) (SR (R 21) 19)) (Or (SL (R 21) 3) (SR (R 21) 61))) (SR (R 21) 6)) (R 16)) (Xo (Xo (Or (SL (R 24) 63) (SR (R 24) 1)) (Or (SL (R 24) 56) (SR (R 24) 8))) (SR (R 24) 7))));
  (8%nat, Ad (Ad (Ad (Ad (R 1) (Xo (Xo (Or (SL (R 6) 50) (SR (R 6) 14)) (Or (SL (R 6) 46) (SR (R 6) 18))) (Or (SL (R 6) 23) (SR (R 6) 41)))) (Xo (An (R 6) (R 7)) (An (No (R 6)) (R 0)))) (R 23)) (K 0xF40E35855771202A));
  (5%nat, Ad (R 5) (R 8));
  (1%nat, Ad (Ad (R 8) (Xo (Xo (Or (SL (R 2) 36) (SR (R 2) 28)) (Or (SL (R 2) 30) (SR (R 2) 34))) (Or (SL (R 2) 25) (SR (R 2) 39)))) (Xo (Xo (An (R 2) (R 3)) (An (R 2) (R 4))) (An (R 3) (R 4))));
  (24%nat, Ad (R 24) (Ad (Ad (Xo (Xo (Or (SL (R 22) 45) (SR (R 22) 19)) (Or (SL (R 22) 3) (SR (R 22) 61))) (SR (R 22) 6)) (R 17)) (Xo (Xo (Or (SL (R 9) 63) (SR (R 9) 1)) (Or (SL (R 9) 56) (SR (R 9) 8))) (SR (R 9) 7))));
  (8%nat, Ad (Ad (Ad (Ad (R 0) (Xo (Xo (Or (SL (R 5) 50) (SR (R 5) 14)) (Or (SL (R 5) 46) (SR (R 5) 18))) (Or (SL (R 5) 23) (SR (R 5) 41)))) (Xo (An (R 5) (R 6)) (An (No (R 5)) (R 7)))) (R 24)) (K 0x106AA07032BBD1B8));
  (4%nat, Ad (R 4) (R 8));
  (0%nat, Ad (Ad (R 8) (Xo (Xo (Or (SL (R 1) 36) (SR (R 1) 28)) (Or (SL (R 1) 30) (SR (R 1) 34))) (Or (SL (R 1) 25) (SR (R 1) 39)))) (Xo (Xo (An (R 1) (R 2)) (An (R 1) (R 3))) (An (R 2) (R 3))));
  (9%nat, Ad (R 9) (Ad (Ad (Xo (Xo (Or (SL (R 23) 45) (SR (R 23) 19)) (Or (SL (R 23) 3) (SR (R 23) 61))) (SR (R 23) 6)) (R 18)) (Xo (Xo (Or (SL (R 10) 63) (SR (R 10) 1)) (Or (SL (R 10) 56) (SR (R 10) 8))) (SR (R 10) 7))));
  (8%nat, Ad (Ad (Ad (Ad (R 7) (Xo (Xo (Or (SL (R 4) 50) (SR (R 4) 14)) (Or (SL (R 4) 46) (SR (R 4) 18))) (Or (SL (R 4) 23) (SR (R 4) 41)))) (Xo (An (R 4) (R 5)) (An (No (R 4)) (R 6)))) (R 9)) (K 0x19A4C116B8D2D0C8));
  (3%nat, Ad (R 3) (R 8));
  (7%nat, Ad (Ad (R 8) (Xo (Xo (Or (SL (R 0) 36) (SR (R 0) 28)) (Or (SL (R 0) 30) (SR (R 0) 34))) (Or (SL (R 0) 25) (SR (R 0) 39)))) (Xo (Xo (An (R 0) (R 1)) (An (R 0) (R 2))) (An (R 1) (R 2))));
  (10%nat, Ad (R 10) (Ad (Ad (Xo (Xo (Or (SL (R 24) 45) (SR (R 24) 19)) (Or (SL (R 24) 3) (SR (R 24) 61))) (SR (R 24) 6)) (R 19)) (Xo (Xo (Or (SL (R 11) 63) (SR (R 11) 1)) (Or (SL (R 11) 56) (SR (R 11) 8))) (SR (R 11) 7))));
  (8%nat, Ad (Ad (Ad (Ad (R 6) (Xo (Xo (Or (SL (R 3) 50) (SR (R 3) 14)) (Or (SL (R 3) 46) (SR (R 3) 18))) (Or (SL (R 3) 23) (SR (R 3) 41)))) (Xo (An (R 3) (R 4)) (An (No (R 3)) (R 5)))) (R 10)) (K 0x1E376C085141AB53));
  (2%nat, Ad (R 2) (R 8));
  (6%nat, Ad (Ad (R 8) (Xo (Xo (Or (SL (R 7) 36) (SR (R 7) 28)) (Or (SL (R 7) 30) (SR (R 7) 34))) (Or (SL (R 7) 25) (SR (R 7) 39)))) (Xo (Xo (An (R 7) (R 0)) (An (R 7) (R 1))) (An (R 0) (R 1))));
  (11%nat, Ad (R 11) (Ad (Ad (Xo (Xo (Or (SL (R 9) 45) (SR (R 9) 19)) (Or (SL (R 9) 3) (SR (R 9) 61))) (SR (R 9) 6)) (R 20)) (Xo (Xo (Or (SL (R 12) 63) (SR (R 12) 1)) (Or (SL (R 12) 56) (SR (R 12) 8))) (SR (R 12) 7))));
  (8%nat, Ad (Ad (Ad (Ad (R 5) (Xo (Xo (Or (SL (R 2) 50) (SR (R 2) 14)) (Or (SL (R 2) 46) (SR (R 2) 18))) (Or (SL (R 2) 23) (SR (R 2) 41)))) (Xo (An (R 2) (R 3)) (An (No (R 2)) (R 4)))) (R 11)) (K 0x2748774CDF8EEB99));
  (1%nat, Ad (R 1) (R 8));
  (5%nat, Ad (Ad (R 8) (Xo (Xo (Or (SL (R 6) 36) (SR (R 6) 28)) (Or (SL (R 6) 30) (SR (R 6) 34))) (Or (SL (R 6) 25) (SR (R 6) 39)))) (Xo (Xo (An (R 6) (R 7)) (An (R 6) (R 0))) (An (R 7) (R 0))));
  (12%nat, Ad (R 12) (Ad (Ad (Xo (Xo (Or (SL (R 10) 45) (SR (R 10) 19)) (Or (SL (R 10) 3) (SR (R 10) 61))) (SR (R 10) 6)) (R 21)) (Xo (Xo (Or (SL (R 13) 63) (SR (R 13) 1)) (Or (SL (R 13) 56) (SR (R 13) 8))) (SR (R 13) 7))));
  (8%nat, Ad (Ad (Ad (Ad (R 4) (Xo (Xo (Or (SL (R 1) 50) (SR (R 1) 14)) (Or (SL (R 1) 46) (SR (R 1) 18))) (Or (SL (R 1) 23) (SR (R 1) 41)))) (Xo (An (R 1) (R 2)) (An (No (R 1)) (R 3)))) (R 12)) (K 0x34B0BCB5E19B48A8));
  (0%nat, Ad (R 0) (R 8));
  (4%nat, Ad (Ad (R 8) (Xo (Xo (Or (SL (R 5) 36) (SR (R 5) 28)) (Or (SL (R 5) 30) (SR (R 5) 34))) (Or (SL (R 5) 25) (SR (R 5) 39)))) (Xo (Xo (An (R 5) (R 6)) (An (R 5) (R 7))) (An (R 6) (R 7))));
  (13%nat, Ad (R 13) (Ad (Ad (Xo (Xo (Or (SL (R 11) 45) (SR (R 11) 19)) (Or (SL (R 11) 3) (SR (R 11) 61))) (SR (R 11) 6)) (R 22)) (Xo (Xo (Or (SL (R 14) 63) (SR (R 14) 1)) (Or (SL (R 14) 56) (SR (R 14) 8))) (SR (R 14) 7))));
  (8%nat, Ad (Ad (Ad (Ad (R 3) (Xo (Xo (Or (SL (R 0) 50) (SR (R 0) 14)) (Or (SL (R 0) 46) (SR (R 0) 18))) (Or (SL (R 0) 23) (SR (R 0) 41)))) (Xo (An (R 0) (R 1)) (An (No (R 0)) (R 2)))) (R 13)) (K 0x391C0CB3C5C95A63));
  (7%nat, Ad (R 7) (R 8));
  (3%nat, Ad (Ad (R 8) (Xo (Xo (Or (SL (R 4) 36) (SR (R 4) 28)) (Or (SL (R 4) 30) (SR (R 4) 34))) (Or (SL (R 4) 25) (SR (R 4) 39)))) (Xo (Xo (An (R 4) (R 5)) (An (R 4) (R 6))) (An (R 5) (R 6))));
  (14%nat, Ad (R 14) (Ad (Ad (Xo (Xo (Or (SL (R 12) 45) (SR (R 12) 19)) (Or (SL (R 12) 3) (SR (R 12) 61))) (SR (R 12) 6)) (R 23)) (Xo (Xo (Or (SL (R 15) 63) (SR (R 15) 1)) (Or (SL (R 15) 56) (SR (R 15) 8))) (SR (R 15) 7))));
  (8%nat, Ad (Ad (Ad (Ad (R 2) (Xo (Xo (Or (SL (R 7) 50) (SR (R 7) 14)) (Or (SL (R 7) 46) (SR (R 7) 18))) (Or (SL (R 7) 23) (SR (R 7) 41)))) (Xo (An (R 7) (R 0)) (An (No (R 7)) (R 1)))) (R 14)) (K 0x4ED8AA4AE3418ACB));
  (6%nat, Ad (R 6) (R 8));
  (2%nat, Ad (Ad (R 8) (Xo (Xo (Or (SL (R 3) 36) (SR (R 3) 28)) (Or (SL (R 3) 30) (SR (R 3) 34))) (Or (SL (R 3) 25) (SR (R 3) 39)))) (Xo (Xo (An (R 3) (R 4)) (An (R 3) (R 5))) (An (R 4) (R 5))));
  (15%nat, Ad (R 15) (Ad (Ad (Xo (Xo (Or (SL (R 13) 45) (SR (R 13) 19)) (Or (SL (R 13) 3) (SR (R 13) 61))) (SR (R 13) 6)) (R 24)) (Xo (Xo (Or (SL (R 16) 63) (SR (R 16) 1)) (Or (SL (R 16) 56) (SR (R 16) 8))) (SR (R 16) 7))));
  (8%nat, Ad (Ad (Ad (Ad (R 1) (Xo (Xo (Or (SL (R 6) 50) (SR (R 6) 14)) (Or (SL (R 6) 46) (SR (R 6) 18))) (Or (SL (R 6) 23) (SR (R 6) 41)))) (Xo (An (R 6) (R 7)) (An (No (R 6)) (R 0)))) (R 15)) (K 0x5B9CCA4F7763E373));
  (5%nat, Ad (R 5) (R 8));
  (1%nat, Ad (Ad (R 8) (Xo (Xo (Or (SL (R 2) 36) (SR (R 2) 28)) (Or (SL (R 2) 30) (SR (R 2) 34))) (Or (SL (R 2) 25) (SR (R 2) 39)))) (Xo (Xo (An (R 2) (R 3)) (An (R 2) (R 4))) (An (R 3) (R 4))));
  (16%nat, Ad (R 16) (Ad (Ad (Xo (Xo (Or (SL (R 14) 45) (SR (R 14) 19)) (Or (SL (R 14) 3) (SR (R 14) 61))) (SR (R 14) 6)) (R 9)) (Xo (Xo (Or (SL (R 17) 63) (SR (R 17) 1)) (Or (SL (R 17) 56) (SR (R 17) 8))) (SR (R 17) 7))));
  (8%nat, Ad (Ad (Ad (Ad (R 0) (Xo (Xo (Or (SL (R 5) 50) (SR (R 5) 14)) (Or (SL (R 5) 46) (SR (R 5) 18))) (Or (SL (R 5) 23) (SR (R 5) 41)))) (Xo (An (R 5) (R 6)) (An (No (R 5)) (R 7)))) (R 16)) (K 0x682E6FF3D6B2B8A3));
  (4%nat, Ad (R 4) (R 8));
  (0%nat, Ad (Ad (R 8) (Xo (Xo (Or (SL (R 1) 36) (SR (R 1) 28)) (Or (SL (R 1) 30) (SR (R 1) 34))) (Or (SL (R 1) 25) (SR (R 1) 39)))) (Xo (Xo (An (R 1) (R 2)) (An (R 1) (R 3))) (An (R 2) (R 3))));
  (17%nat, Ad (R 17) (Ad (Ad (Xo (Xo (Or (SL (R 15) 45) (SR (R 15) 19)) (Or (SL (R 15) 3) (SR (R 15) 61))) (SR (R 15) 6)) (R 10)) (Xo (Xo (Or (SL (R 18) 63) (SR (R 18) 1)) (Or (SL (R 18) 56) (SR (R 18) 8))) (SR (R 18) 7))));
  (8%nat, Ad (Ad (Ad (Ad (R 7) (Xo (Xo (Or (SL (R 4) 50) (SR (R 4) 14)) (Or (SL (R 4) 46) (SR (R 4) 18))) (Or (SL (R 4) 23) (SR (R 4) 41)))) (Xo (An (R 4) (R 5)) (An (No (R 4)) (R 6)))) (R 17)) (K 0x748F82EE5DEFB2FC));
  (3%nat, Ad (R 3) (R 8));
  (7%nat, Ad (Ad (R 8) (Xo (Xo (Or (SL (R 0) 36) (SR (R 0) 28)) (Or (SL (R 0) 30) (SR (R 0) 34))) (Or (SL (R 0) 25) (SR (R 0) 39)))) (Xo (Xo (An (R 0) (R 1)) (An (R 0) (R 2))) (An (R 1) (R 2))));
  (18%nat, Ad (R 18) (Ad (Ad (Xo (Xo (Or (SL (R 16) 45) (SR (R 16) 19)) (Or (SL (R 16) 3) (SR (R 16) 61))) (SR (R 16) 6)) (R 11)) (Xo (Xo (Or (SL (R 19) 63) (SR (R 19) 1)) (Or (SL (R 19) 56) (SR (R 19) 8))) (SR (R 19) 7))));
  (8%nat, Ad (Ad (Ad (Ad (R 6) (Xo (Xo (Or (SL (R 3) 50) (SR (R 3) 14)) (Or (SL (R 3) 46) (SR (R 3) 18))) (Or (SL (R 3) 23) (SR (R 3) 41)))) (Xo (An (R 3) (R 4)) (An (No (R 3)) (R 5)))) (R 18)) (K 0x78A5636F43172F60));
  (2%nat, Ad (R 2) (R 8));
  (6%nat, Ad (Ad (R 8) (Xo (Xo (Or (SL (R 7) 36) (SR (R 7) 28)) (Or (SL (R 7) 30) (SR (R 7) 34))) (Or (SL (R 7) 25) (SR (R 7) 39)))) (Xo (Xo (An (R 7) (R 0)) (An (R 7) (R 1))) (An (R 0) (R 1))));
  (19%nat, Ad (R 19) (Ad (Ad (Xo (Xo (Or (SL (R 17) 45) (SR (R 17) 19)) (Or (SL (R 17) 3) (SR (R 17) 61))) (SR (R 17) 6)) (R 12)) (Xo (Xo (Or (SL (R 20) 63) (SR (R 20) 1)) (Or (SL (R 20) 56) (SR (R 20) 8))) (SR (R 20) 7))));
  (8%nat, Ad (Ad (Ad (Ad (R 5) (Xo (Xo (Or (SL (R 2) 50) (SR (R 2) 14)) (Or (SL (R 2) 46) (SR (R 2) 18))) (Or (SL (R 2) 23) (SR (R 2) 41)))) (Xo (An (R 2) (R 3)) (An (No (R 2)) (R 4)))) (R 19)) (K 0x84C87814A1F0AB72));
  (1%nat, Ad (R 1) (R 8));
  (5%nat, Ad (Ad (R 8) (Xo (Xo (Or (SL (R 6) 36) (SR (R 6) 28)) (Or (SL (R 6) 30) (SR (R 6) 34))) (Or (SL (R 6) 25) (SR (R 6) 39)))) (Xo (Xo (An (R 6) (R 7)) (An (R 6) (R 0))) (An (R 7) (R 0))));
  (20%nat, Ad (R 20) (Ad (Ad (Xo (Xo (Or (SL (R 18) 45) (SR (R 18) 19)) (Or (SL (R 18) 3) (SR (R 18) 61))) (SR (R 18) 6)) (R 13)) (Xo (Xo (Or (SL (R 21) 63) (SR (R 21) 1)) (Or (SL (R 21) 56) (SR (R 21) 8))) (SR (R 21) 7))));
  (8%nat, Ad (Ad (Ad (Ad (R 4) (Xo (Xo (Or (SL (R 1) 50) (SR (R 1) 14)) (Or (SL (R 1) 46) (SR (R 1) 18))) (Or (SL (R 1) 23) (SR (R 1) 41)))) (Xo (An (R 1) (R 2)) (An (No (R 1)) (R 3)))) (R 20)) (K 0x8CC702081A6439EC));
  (0%nat, Ad (R 0) (R 8));
  (4%nat, Ad (Ad (R 8) (Xo (Xo (Or (SL (R 5) 36) (SR (R 5) 28)) (Or (SL (R 5) 30) (SR (R 5) 34))) (Or (SL (R 5) 25) (SR (R 5) 39)))) (Xo (Xo (An (R 5) (R 6)) (An (R 5) (R 7))) (An (R 6) (R 7))));
  (21%nat, Ad (R 21) (Ad (Ad (Xo (Xo (Or (SL (R 19) 45) (SR (R 19) 19)) (Or (SL (R 19) 3) (SR (R 19) 61))) (SR (R 19) 6)) (R 14)) (Xo (Xo (Or (SL (R 22) 63) (SR (R 22) 1)) (Or (SL (R 22) 56) (SR (R 22) 8))) (SR (R 22) 7))));
  (8%nat, Ad (Ad (Ad (Ad (R 3) (Xo (Xo (Or (SL (R 0) 50) (SR (R 0) 14)) (Or (SL (R 0) 46) (SR (R 0) 18))) (Or (SL (R 0) 23) (SR (R 0) 41)))) (Xo (An (R 0) (R 1)) (An (No (R 0)) (R 2)))) (R 21)) (K 0x90BEFFFA23631E28));
  (7%nat, Ad (R 7) (R 8));
  (3%nat, Ad (Ad (R 8) (Xo (Xo (Or (SL (R 4) 36) (SR (R 4) 28)) (Or (SL (R 4) 30) (SR (R 4) 34))) (Or (SL (R 4) 25) (SR (R 4) 39)))) (Xo (Xo (An (R 4) (R 5)) (An (R 4) (R 6))) (An (R 5) (R 6))));
  (22%nat, Ad (R 22) (Ad (Ad (Xo (Xo (Or (SL (R 20) 45) (SR (R 20) 19)) (Or (SL (R 20) 3) (SR (R 20) 61))) (SR (R 20) 6)) (R 15)) (Xo (Xo (Or (SL (R 23) 63) (SR (R 23) 1)) (Or (SL (R 23) 56) (SR (R 23) 8))) (SR (R 23) 7))));
  (8%nat, Ad (Ad (Ad (Ad (R 2) (Xo (Xo (Or (SL (R 7) 50) (SR (R 7) 14)) (Or (SL (R 7) 46) (SR (R 7) 18))) (Or (SL (R 7) 23) (SR (R 7) 41)))) (Xo (An (R 7) (R 0)) (An (No (R 7)) (R 1)))) (R 22)) (K 0xA4506CEBDE82BDE9));
  (6%nat, Ad (R 6) (R 8));
  (2%nat, Ad (Ad (R 8) (Xo (Xo (Or (SL (R 3) 36) (SR (R 3) 28)) (Or (SL (R 3) 30) (SR (R 3) 34))) (Or (SL (R 3) 25) (SR (R 3) 39)))) (Xo (Xo (An (R 3) (R 4)) (An (R 3) (R 5))) (An (R 4) (R 5))));
  (23%nat, Ad (R 23) (Ad (Ad (Xo (Xo (Or (SL (R 21) 45) (SR (R 21) 19)) (Or (SL (R 21) 3) (SR (R 21) 61))) (SR (R 21) 6)) (R 16)) (Xo (Xo (Or (SL (R 24) 63) (SR (R 24) 1)) (Or (SL (R 24) 56) (SR (R 24) 8))) (SR (R 24) 7))));
  (8%nat, Ad (Ad (Ad (Ad (R 1) (Xo (Xo (Or (SL (R 6) 50) (SR (R 6) 14)) (Or (SL (R 6) 46) (SR (R 6) 18))) (Or (SL (R 6) 23) (SR (R 6) 41)))) (Xo (An (R 6) (R 7)) (An (No (R 6)) (R 0)))) (R 23)) (K 0xBEF9A3F7B2C67915));
  (5%nat, Ad (R 5) (R 8));
  (1%nat, Ad (Ad (R 8) (Xo (Xo (Or (SL (R 2) 36) (SR (R 2) 28)) (Or (SL (R 2) 30) (SR (R 2) 34))) (Or (SL (R 2) 25) (SR (R 2) 39)))) (Xo (Xo (An (R 2) (R 3)) (An (R 2) (R 4))) (An (R 3) (R 4))));
  (24%nat, Ad (R 24) (Ad (Ad (Xo (Xo (Or (SL (R 22) 45) (SR (R 22) 19)) (Or (SL (R 22) 3) (SR (R 22) 61))) (SR (R 22) 6)) (R 17)) (Xo (Xo (Or (SL (R 9) 63) (SR (R 9) 1)) (Or (SL (R 9) 56) (SR (R 9) 8))) (SR (R 9) 7))));
  (8%nat, Ad (Ad (Ad (Ad (R 0) (Xo (Xo (Or (SL (R 5) 50) (SR (R 5) 14)) (Or (SL (R 5) 46) (SR (R 5) 18))) (Or (SL (R 5) 23) (SR (R 5) 41)))) (Xo (An (R 5) (R 6)) (An (No (R 5)) (R 7)))) (R 24)) (K 0xC67178F2E372532B));
  (4%nat, Ad (R 4) (R 8));
  (0%nat, Ad (Ad (R 8) (Xo (Xo (Or (SL (R 1) 36) (SR (R 1) 28)) (Or (SL (R 1) 30) (SR (R 1) 34))) (Or (SL (R 1) 25) (SR (R 1) 39)))) (Xo (Xo (An (R 1) (R 2)) (An (R 1) (R 3))) (An (R 2) (R 3))));
  (9%nat, Ad (R 9) (Ad (Ad (Xo (Xo (Or (SL (R 23) 45) (SR (R 23) 19)) (Or (SL (R 23) 3) (SR (R 23) 61))) (SR (R 23) 6)) (R 18)) (Xo (Xo (Or (SL (R 10) 63) (SR (R 10) 1)) (Or (SL (R 10) 56) (SR (R 10) 8))) (SR (R 10) 7))));
  (8%nat, Ad (Ad (Ad (Ad (R 7) (Xo (Xo (Or (SL (R 4) 50) (SR (R 4) 14)) (Or (SL (R 4) 46) (SR (R 4) 18))) (Or (SL (R 4) 23) (SR (R 4) 41)))) (Xo (An (R 4) (R 5)) (An (No (R 4)) (R 6)))) (R 9)) (K 0xCA273ECEEA26619C));
  (3%nat, Ad (R 3) (R 8));
  (7%nat, Ad (Ad (R 8) (Xo (Xo (Or (SL (R 0) 36) (SR (R 0) 28)) (Or (SL (R 0) 30) (SR (R 0) 34))) (Or (SL (R 0) 25) (SR (R 0) 39)))) (Xo (Xo (An (R 0) (R 1)) (An (R 0) (R 2))) (An (R 1) (R 2))));
  (10%nat, Ad (R 10) (Ad (Ad (Xo (Xo (Or (SL (R 24) 45) (SR (R 24) 19)) (Or (SL (R 24) 3) (SR (R 24) 61))) (SR (R 24) 6)) (R 19)) (Xo (Xo (Or (SL (R 11) 63) (SR (R 11) 1)) (Or (SL (R 11) 56) (SR (R 11) 8))) (SR (R 11) 7))));
  (8%nat, Ad (Ad (Ad (Ad (R 6) (Xo (Xo (Or (SL (R 3) 50) (SR (R 3) 14)) (Or (SL (R 3) 46) (SR (R 3) 18))) (Or (SL (R 3) 23) (SR (R 3) 41)))) (Xo (An (R 3) (R 4)) (An (No (R 3)) (R 5)))) (R 10)) (K 0xD186B8C721C0C207));
  (2%nat, Ad (R 2) (R 8));
  (6%nat, Ad (Ad (R 8) (Xo (Xo (Or (SL (R 7) 36) (SR (R 7) 28)) (Or (SL (R 7) 30) (SR (R 7) 34))) (Or (SL (R 7) 25) (SR (R 7) 39)))) (Xo (Xo (An (R 7) (R 0)) (An (R 7) (R 1))) (An (R 0) (R 1))));
  (11%nat, Ad (R 11) (Ad (Ad (Xo (Xo (Or (SL (R 9) 45) (SR (R 9) 19)) (Or (SL (R 9) 3) (SR (R 9) 61))) (SR (R 9) 6)) (R 20)) (Xo (Xo (Or (SL (R 12) 63) (SR (R 12) 1)) (Or (SL (R 12) 56) (SR (R 12) 8))) (SR (R 12) 7))));
  (8%nat, Ad (Ad (Ad (Ad (R 5) (Xo (Xo (Or (SL (R 2) 50) (SR (R 2) 14)) (Or (SL (R 2) 46) (SR (R 2) 18))) (Or (SL (R 2) 23) (SR (R 2) 41)))) (Xo (An (R 2) (R 3)) (An (No (R 2)) (R 4)))) (R 11)) (K 0xEADA7DD6CDE0EB1E));
  (1%nat, Ad (R 1) (R 8));
  (5%nat, Ad (Ad (R 8) (Xo (Xo (Or (SL (R 6) 36) (SR (R 6) 28)) (Or (SL (R 6) 30) (SR (R 6) 34))) (Or (SL (R 6) 25) (SR (R 6) 39)))) (Xo (Xo (An (R 6) (R 7)) (An (R 6) (R 0))) (An (R 7) (R 0))));
  (12%nat, Ad (R 12) (Ad (Ad (Xo (Xo (Or (SL (R 10) 45) (SR (R 10) 19)) (Or (SL (R 10) 3) (SR (R 10) 61))) (SR (R 10) 6)) (R 21)) (Xo (Xo (Or (SL (R 13) 63) (SR (R 13) 1)) (Or (SL (R 13) 56) (SR (R 13) 8))) (SR (R 13) 7))));
  (8%nat, Ad (Ad (Ad (Ad (R 4) (Xo (Xo (Or (SL (R 1) 50) (SR (R 1) 14)) (Or (SL (R 1) 46) (SR (R 1) 18))) (Or (SL (R 1) 23) (SR (R 1) 41)))) (Xo (An (R 1) (R 2)) (An (No (R 1)) (R 3)))) (R 12)) (K 0xF57D4F7FEE6ED178));
  (0%nat, Ad (R 0) (R 8));
  (4%nat, Ad (Ad (R 8) (Xo (Xo (Or (SL (R 5) 36) (SR (R 5) 28)) (Or (SL (R 5) 30) (SR (R 5) 34))) (Or (SL (R 5) 25) (SR (R 5) 39)))) (Xo (Xo (An (R 5) (R 6)) (An (R 5) (R 7))) (An (R 6) (R 7))));
  (13%nat, Ad (R 13) (Ad (Ad (Xo (Xo (Or (SL (R 11) 45) (SR (R 11) 19)) (Or (SL (R 11) 3) (SR (R 11) 61))) (SR (R 11) 6)) (R 22)) (Xo (Xo (Or (SL (R 14) 63) (SR (R 14) 1)) (Or (SL (R 14) 56) (SR (R 14) 8))) (SR (R 14) 7))));
  (8%nat, Ad (Ad (Ad (Ad (R 3) (Xo (Xo (Or (SL (R 0) 50) (SR (R 0) 14)) (Or (SL (R 0) 46) (SR (R 0) 18))) (Or (SL (R 0) 23) (SR (R 0) 41)))) (Xo (An (R 0) (R 1)) (An (No (R 0)) (R 2)))) (R 13)) (K 0x6F067AA72176FBA));
  (7%nat, Ad (R 7) (R 8));
  (3%nat, Ad (Ad (R 8) (Xo (Xo (Or (SL (R 4) 36) (SR (R 4) 28)) (Or (SL (R 4) 30) (SR (R 4) 34))) (Or (SL (R 4) 25) (SR (R 4) 39)))) (Xo (Xo (An (R 4) (R 5)) (An (R 4) (R 6))) (An (R 5) (R 6))));
  (14%nat, Ad (R 14) (Ad (Ad (Xo (Xo (Or (SL (R 12) 45) (SR (R 12) 19)) (Or (SL (R 12) 3) (SR (R 12) 61))) (SR (R 12) 6)) (R 23)) (Xo (Xo (Or (SL (R 15) 63) (SR (R 15) 1)) (Or (SL (R 15) 56) (SR (R 15) 8))) (SR (R 15) 7))));
  (8%nat, Ad (Ad (Ad (Ad (R 2) (Xo (Xo (Or (SL (R 7) 50) (SR (R 7) 14)) (Or (SL (R 7) 46) (SR (R 7) 18))) (Or (SL (R 7) 23) (SR (R 7) 41)))) (Xo (An (R 7) (R 0)) (An (No (R 7)) (R 1)))) (R 14)) (K 0xA637DC5A2C898A6));
  (6%nat, Ad (R 6) (R 8));
  (2%nat, Ad (Ad (R 8) (Xo (Xo (Or (SL (R 3) 36) (SR (R 3) 28)) (Or (SL (R 3) 30) (SR (R 3) 34))) (Or (SL (R 3) 25) (SR (R 3) 39)))) (Xo (Xo (An (R 3) (R 4)) (An (R 3) (R 5))) (An (R 4) (R 5))));
  (15%nat, Ad (R 15) (Ad (Ad (Xo (Xo (Or (SL (R 13) 45) (SR (R 13) 19)) (Or (SL (R 13) 3) (SR (R 13) 61))) (SR (R 13) 6)) (R 24)) (Xo (Xo (Or (SL (R 16) 63) (SR (R 16) 1)) (Or (SL (R 16) 56) (SR (R 16) 8))) (SR (R 16) 7))));
  (8%nat, Ad (Ad (Ad (Ad (R 1) (Xo (Xo (Or (SL (R 6) 50) (SR (R 6) 14)) (Or (SL (R 6) 46) (SR (R 6) 18))) (Or (SL (R 6) 23) (SR (R 6) 41)))) (Xo (An (R 6) (R 7)) (An (No (R 6)) (R 0)))) (R 15)) (K 0x113F9804BEF90DAE));
  (5%nat, Ad (R 5) (R 8));
  (1%nat, Ad (Ad (R 8) (Xo (Xo (Or (SL (R 2) 36) (SR (R 2) 28)) (Or (SL (R 2) 30) (SR (R 2) 34))) (Or (SL (R 2) 25) (SR (R 2) 39)))) (Xo (Xo (An (R 2) (R 3)) (An (R 2) (R 4))) (An (R 3) (R 4))));
  (16%nat, Ad (R 16) (Ad (Ad (Xo (Xo (Or (SL (R 14) 45) (SR (R 14) 19)) (Or (SL (R 14) 3) (SR (R 14) 61))) (SR (R 14) 6)) (R 9)) (Xo (Xo (Or (SL (R 17) 63) (SR (R 17) 1)) (Or (SL (R 17) 56) (SR (R 17) 8))) (SR (R 17) 7))));
  (8%nat, Ad (Ad (Ad (Ad (R 0) (Xo (Xo (Or (SL (R 5) 50) (SR (R 5) 14)) (Or (SL (R 5) 46) (SR (R 5) 18))) (Or (SL (R 5) 23) (SR (R 5) 41)))) (Xo (An (R 5) (R 6)) (An (No (R 5)) (R 7)))) (R 16)) (K 0x1B710B35131C471B));
  (4%nat, Ad (R 4) (R 8));
  (0%nat, Ad (Ad (R 8) (Xo (Xo (Or (SL (R 1) 36) (SR (R 1) 28)) (Or (SL (R 1) 30) (SR (R 1) 34))) (Or (SL (R 1) 25) (SR (R 1) 39)))) (Xo (Xo (An (R 1) (R 2)) (An (R 1) (R 3))) (An (R 2) (R 3))));
  (17%nat, Ad (R 17) (Ad (Ad (Xo (Xo (Or (SL (R 15) 45) (SR (R 15) 19)) (Or (SL (R 15) 3) (SR (R 15) 61))) (SR (R 15) 6)) (R 10)) (Xo (Xo (Or (SL (R 18) 63) (SR (R 18) 1)) (Or (SL (R 18) 56) (SR (R 18) 8))) (SR (R 18) 7))));
  (8%nat, Ad (Ad (Ad (Ad (R 7) (Xo (Xo (Or (SL (R 4) 50) (SR (R 4) 14)) (Or (SL (R 4) 46) (SR (R 4) 18))) (Or (SL (R 4) 23) (SR (R 4) 41)))) (Xo (An (R 4) (R 5)) (An (No (R 4)) (R 6)))) (R 17)) (K 0x28DB77F523047D84));
  (3%nat, Ad (R 3) (R 8));
  (7%nat, Ad (Ad (R 8) (Xo (Xo (Or (SL (R 0) 36) (SR (R 0) 28)) (Or (SL (R 0) 30) (SR (R 0) 34))) (Or (SL (R 0) 25) (SR (R 0) 39)))) (Xo (Xo (An (R 0) (R 1)) (An (R 0) (R 2))) (An (R 1) (R 2))));
  (18%nat, Ad (R 18) (Ad (Ad (Xo (Xo (Or (SL (R 16) 45) (SR (R 16) 19)) (Or (SL (R 16) 3) (SR (R 16) 61))) (SR (R 16) 6)) (R 11)) (Xo (Xo (Or (SL (R 19) 63) (SR (R 19) 1)) (Or (SL (R 19) 56) (SR (R 19) 8))) (SR (R 19) 7))));
  (8%nat, Ad (Ad (Ad (Ad (R 6) (Xo (Xo (Or (SL (R 3) 50) (SR (R 3) 14)) (Or (SL (R 3) 46) (SR (R 3) 18))) (Or (SL (R 3) 23) (SR (R 3) 41)))) (Xo (An (R 3) (R 4)) (An (No (R 3)) (R 5)))) (R 18)) (K 0x32CAAB7B40C72493));
  (2%nat, Ad (R 2) (R 8));
  (6%nat, Ad (Ad (R 8) (Xo (Xo (Or (SL (R 7) 36) (SR (R 7) 28)) (Or (SL (R 7) 30) (SR (R 7) 34))) (Or (SL (R 7) 25) (SR (R 7) 39)))) (Xo (Xo (An (R 7) (R 0)) (An (R 7) (R 1))) (An (R 0) (R 1))));
  (19%nat, Ad (R 19) (Ad (Ad (Xo (Xo (Or (SL (R 17) 45) (SR (R 17) 19)) (Or (SL (R 17) 3) (SR (R 17) 61))) (SR (R 17) 6)) (R 12)) (Xo (Xo (Or (SL (R 20) 63) (SR (R 20) 1)) (Or (SL (R 20) 56) (SR (R 20) 8))) (SR (R 20) 7))));
  (8%nat, Ad (Ad (Ad (Ad (R 5) (Xo (Xo (Or (SL (R 2) 50) (SR (R 2) 14)) (Or (SL (R 2) 46) (SR (R 2) 18))) (Or (SL (R 2) 23) (SR (R 2) 41)))) (Xo (An (R 2) (R 3)) (An (No (R 2)) (R 4)))) (R 19)) (K 0x3C9EBE0A15C9BEBC));
  (1%nat, Ad (R 1) (R 8));
  (5%nat, Ad (Ad (R 8) (Xo (Xo (Or (SL (R 6) 36) (SR (R 6) 28)) (Or (SL (R 6) 30) (SR (R 6) 34))) (Or (SL (R 6) 25) (SR (R 6) 39)))) (Xo (Xo (An (R 6) (R 7)) (An (R 6) (R 0))) (An (R 7) (R 0))));
  (20%nat, Ad (R 20) (Ad (Ad (Xo (Xo (Or (SL (R 18) 45) (SR (R 18) 19)) (Or (SL (R 18) 3) (SR (R 18) 61))) (SR (R 18) 6)) (R 13)) (Xo (Xo (Or (SL (R 21) 63) (SR (R 21) 1)) (Or (SL (R 21) 56) (SR (R 21) 8))) (SR (R 21) 7))));
  (8%nat, Ad (Ad (Ad (Ad (R 4) (Xo (Xo (Or (SL (R 1) 50) (SR (R 1) 14)) (Or (SL (R 1) 46) (SR (R 1) 18))) (Or (SL (R 1) 23) (SR (R 1) 41)))) (Xo (An (R 1) (R 2)) (An (No (R 1)) (R 3)))) (R 20)) (K 0x431D67C49C100D4C));
  (0%nat, Ad (R 0) (R 8));
  (4%nat, Ad (Ad (R 8) (Xo (Xo (Or (SL (R 5) 36) (SR (R 5) 28)) (Or (SL (R 5) 30) (SR (R 5) 34))) (Or (SL (R 5) 25) (SR (R 5) 39)))) (Xo (Xo (An (R 5) (R 6)) (An (R 5) (R 7))) (An (R 6) (R 7))));
  (21%nat, Ad (R 21) (Ad (Ad (Xo (Xo (Or (SL (R 19) 45) (SR (R 19) 19)) (Or (SL (R 19) 3) (SR (R 19) 61))) (SR (R 19) 6)) (R 14)) (Xo (Xo (Or (SL (R 22) 63) (SR (R 22) 1)) (Or (SL (R 22) 56) (SR (R 22) 8))) (SR (R 22) 7))));
  (8%nat, Ad (Ad (Ad (Ad (R 3) (Xo (Xo (Or (SL (R 0) 50) (SR (R 0) 14)) (Or (SL (R 0) 46) (SR (R 0) 18))) (Or (SL (R 0) 23) (SR (R 0) 41)))) (Xo (An (R 0) (R 1)) (An (No (R 0)) (R 2)))) (R 21)) (K 0x4CC5D4BECB3E42B6));
  (7%nat, Ad (R 7) (R 8));
  (3%nat, Ad (Ad (R 8) (Xo (Xo (Or (SL (R 4) 36) (SR (R 4) 28)) (Or (SL (R 4) 30) (SR (R 4) 34))) (Or (SL (R 4) 25) (SR (R 4) 39)))) (Xo (Xo (An (R 4) (R 5)) (An (R 4) (R 6))) (An (R 5) (R 6))));
  (22%nat, Ad (R 22) (Ad (Ad (Xo (Xo (Or (SL (R 20) 45) (SR (R 20) 19)) (Or (SL (R 20) 3) (SR (R 20) 61))) (SR (R 20) 6)) (R 15)) (Xo (Xo (Or (SL (R 23) 63) (SR (R 23) 1)) (Or (SL (R 23) 56) (SR (R 23) 8))) (SR (R 23) 7))));
  (8%nat, Ad (Ad (Ad (Ad (R 2) (Xo (Xo (Or (SL (R 7) 50) (SR (R 7) 14)) (Or (SL (R 7) 46) (SR (R 7) 18))) (Or (SL (R 7) 23) (SR (R 7) 41)))) (Xo (An (R 7) (R 0)) (An (No (R 7)) (R 1)))) (R 22)) (K 0x597F299CFC657E2A));
  (6%nat, Ad (R 6) (R 8));
  (2%nat, Ad (Ad (R 8) (Xo (Xo (Or (SL (R 3) 36) (SR (R 3) 28)) (Or (SL (R 3) 30) (SR (R 3) 34))) (Or (SL (R 3) 25) (SR (R 3) 39)))) (Xo (Xo (An (R 3) (R 4)) (An (R 3) (R 5))) (An (R 4) (R 5))));
  (23%nat, Ad (R 23) (Ad (Ad (Xo (Xo (Or (SL (R 21) 45) (SR (R 21) 19)) (Or (SL (R 21) 3) (SR (R 21) 61))) (SR (R 21) 6)) (R 16)) (Xo (Xo (Or (SL (R 24) 63) (SR (R 24) 1)) (Or (SL (R 24) 56) (SR (R 24) 8))) (SR (R 24) 7))));
  (8%nat, Ad (Ad (Ad (Ad (R 1) (Xo (Xo (Or (SL (R 6) 50) (SR (R 6) 14)) (Or (SL (R 6) 46) (SR (R 6) 18))) (Or (SL (R 6) 23) (SR (R 6) 41)))) (Xo (An (R 6) (R 7)) (An (No (R 6)) (R 0)))) (R 23)) (K 0x5FCB6FAB3AD6FAEC));
  (5%nat, Ad (R 5) (R 8));
  (1%nat, Ad (Ad (R 8) (Xo (Xo (Or (SL (R 2) 36) (SR (R 2) 28)) (Or (SL (R 2) 30) (SR (R 2) 34))) (Or (SL (R 2) 25) (SR (R 2) 39)))) (Xo (Xo (An (R 2) (R 3)) (An (R 2) (R 4))) (An (R 3) (R 4))));
  (24%nat, Ad (R 24) (Ad (Ad (Xo (Xo (Or (SL (R 22) 45) (SR (R 22) 19)) (Or (SL (R 22) 3) (SR (R 22) 61))) (SR (R 22) 6)) (R 17)) (Xo (Xo (Or (SL (R 9) 63) (SR (R 9) 1)) (Or (SL (R 9) 56) (SR (R 9) 8))) (SR (R 9) 7))));
  (8%nat, Ad (Ad (Ad (Ad (R 0) (Xo (Xo (Or (SL (R 5) 50) (SR (R 5) 14)) (Or (SL (R 5) 46) (SR (R 5) 18))) (Or (SL (R 5) 23) (SR (R 5) 41)))) (Xo (An (R 5) (R 6)) (An (No (R 5)) (R 7)))) (R 24)) (K 0x6C44198C4A475817));
  (4%nat, Ad (R 4) (R 8));
  (0%nat, Ad (Ad (R 8) (Xo (Xo (Or (SL (R 1) 36) (SR (R 1) 28)) (Or (SL (R 1) 30) (SR (R 1) 34))) (Or (SL (R 1) 25) (SR (R 1) 39)))) (Xo (Xo (An (R 1) (R 2)) (An (R 1) (R 3))) (An (R 2) (R 3))));
  (25%nat, Ad (R 25) (R 0));
  (26%nat, Ad (R 26) (R 1));
  (27%nat, Ad (R 27) (R 2));
  (28%nat, Ad (R 28) (R 3));
  (29%nat, Ad (R 29) (R 4));
  (30%nat, Ad (R 30) (R 5));
  (31%nat, Ad (R 31) (R 6));
  (32%nat, Ad (R 32) (R 7))
].
