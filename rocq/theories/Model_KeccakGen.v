(** The Keccak permutations as statement lists (see Model_Straight.v).
    GENERATED by tools/gen_keccak.py from CEX/Keccak.h; do not edit. *)
From Verif Require Import Base Model_Straight.
Open Scope Z_scope.

(** CEX/Keccak.h:850-3050, body of Keccak::PermuteR24P1600U: generated by tools/straight.py, one entry per statement.
    Registers: 0=Aba, 1=Abe, 2=Abi, 3=Abo, 4=Abu, 5=Aga, 6=Age, 7=Agi, 8=Ago, 9=Agu, 10=Aka, 11=Ake, 12=Aki, 13=Ako, 14=Aku, 15=Ama, 16=Ame, 17=Ami, 18=Amo, 19=Amu, 20=Asa, 21=Ase, 22=Asi, 23=Aso, 24=Asu, 25=Ca, 26=Ce, 27=Ci, 28=Co, 29=Cu, 30=Da, 31=De, 32=Di, 33=Do, 34=Du, 35=Eba, 36=Ebe, 37=Ebi, 38=Ebo, 39=Ebu, 40=Ega, 41=Ege, 42=Egi, 43=Ego, 44=Egu, 45=Eka, 46=Eke, 47=Eki, 48=Eko, 49=Eku, 50=Ema, 51=Eme, 52=Emi, 53=Emo, 54=Emu, 55=Esa, 56=Ese, 57=Esi, 58=Eso, 59=Esu, 60=State[0], 61=State[1], 62=State[2], 63=State[3], 64=State[4], 65=State[5], 66=State[6], 67=State[7], 68=State[8], 69=State[9], 70=State[10], 71=State[11], 72=State[12], 73=State[13], 74=State[14], 75=State[15], 76=State[16], 77=State[17], 78=State[18], 79=State[19], 80=State[20], 81=State[21], 82=State[22], 83=State[23], 84=State[24]. *)
Definition keccak24_U : prog := [
  (0%nat, R 60);
  (1%nat, R 61);
  (2%nat, R 62);
  (3%nat, R 63);
  (4%nat, R 64);
  (5%nat, R 65);
  (6%nat, R 66);
  (7%nat, R 67);
  (8%nat, R 68);
  (9%nat, R 69);
  (10%nat, R 70);
  (11%nat, R 71);
  (12%nat, R 72);
  (13%nat, R 73);
  (14%nat, R 74);
  (15%nat, R 75);
  (16%nat, R 76);
  (17%nat, R 77);
  (18%nat, R 78);
  (19%nat, R 79);
  (20%nat, R 80);
  (21%nat, R 81);
  (22%nat, R 82);
  (23%nat, R 83);
  (24%nat, R 84);
  (25%nat, Xo (Xo (Xo (Xo (R 0) (R 5)) (R 10)) (R 15)) (R 20));
  (26%nat, Xo (Xo (Xo (Xo (R 1) (R 6)) (R 11)) (R 16)) (R 21));
  (27%nat, Xo (Xo (Xo (Xo (R 2) (R 7)) (R 12)) (R 17)) (R 22));
  (28%nat, Xo (Xo (Xo (Xo (R 3) (R 8)) (R 13)) (R 18)) (R 23));
  (29%nat, Xo (Xo (Xo (Xo (R 4) (R 9)) (R 14)) (R 19)) (R 24));
  (30%nat, Xo (R 29) (RLo (R 26) 1));
  (31%nat, Xo (R 25) (RLo (R 27) 1));
  (32%nat, Xo (R 26) (RLo (R 28) 1));
  (33%nat, Xo (R 27) (RLo (R 29) 1));
  (34%nat, Xo (R 28) (RLo (R 25) 1));
  (0%nat, Xo (R 0) (R 30));
  (25%nat, R 0);
  (6%nat, Xo (R 6) (R 31));
  (26%nat, RLo (R 6) 44);
  (12%nat, Xo (R 12) (R 32));
  (27%nat, RLo (R 12) 43);
  (18%nat, Xo (R 18) (R 33));
  (28%nat, RLo (R 18) 21);
  (24%nat, Xo (R 24) (R 34));
  (29%nat, RLo (R 24) 14);
  (35%nat, Xo (R 25) (An (No (R 26)) (R 27)));
  (35%nat, Xo (R 35) (K 0x1));
  (36%nat, Xo (R 26) (An (No (R 27)) (R 28)));
  (37%nat, Xo (R 27) (An (No (R 28)) (R 29)));
  (38%nat, Xo (R 28) (An (No (R 29)) (R 25)));
  (39%nat, Xo (R 29) (An (No (R 25)) (R 26)));
  (3%nat, Xo (R 3) (R 33));
  (25%nat, RLo (R 3) 28);
  (9%nat, Xo (R 9) (R 34));
  (26%nat, RLo (R 9) 20);
  (10%nat, Xo (R 10) (R 30));
  (27%nat, RLo (R 10) 3);
  (16%nat, Xo (R 16) (R 31));
  (28%nat, RLo (R 16) 45);
  (22%nat, Xo (R 22) (R 32));
  (29%nat, RLo (R 22) 61);
  (40%nat, Xo (R 25) (An (No (R 26)) (R 27)));
  (41%nat, Xo (R 26) (An (No (R 27)) (R 28)));
  (42%nat, Xo (R 27) (An (No (R 28)) (R 29)));
  (43%nat, Xo (R 28) (An (No (R 29)) (R 25)));
  (44%nat, Xo (R 29) (An (No (R 25)) (R 26)));
  (1%nat, Xo (R 1) (R 31));
  (25%nat, RLo (R 1) 1);
  (7%nat, Xo (R 7) (R 32));
  (26%nat, RLo (R 7) 6);
  (13%nat, Xo (R 13) (R 33));
  (27%nat, RLo (R 13) 25);
  (19%nat, Xo (R 19) (R 34));
  (28%nat, RLo (R 19) 8);
  (20%nat, Xo (R 20) (R 30));
  (29%nat, RLo (R 20) 18);
  (45%nat, Xo (R 25) (An (No (R 26)) (R 27)));
  (46%nat, Xo (R 26) (An (No (R 27)) (R 28)));
  (47%nat, Xo (R 27) (An (No (R 28)) (R 29)));
  (48%nat, Xo (R 28) (An (No (R 29)) (R 25)));
  (49%nat, Xo (R 29) (An (No (R 25)) (R 26)));
  (4%nat, Xo (R 4) (R 34));
  (25%nat, RLo (R 4) 27);
  (5%nat, Xo (R 5) (R 30));
  (26%nat, RLo (R 5) 36);
  (11%nat, Xo (R 11) (R 31));
  (27%nat, RLo (R 11) 10);
  (17%nat, Xo (R 17) (R 32));
  (28%nat, RLo (R 17) 15);
  (23%nat, Xo (R 23) (R 33));
  (29%nat, RLo (R 23) 56);
  (50%nat, Xo (R 25) (An (No (R 26)) (R 27)));
  (51%nat, Xo (R 26) (An (No (R 27)) (R 28)));
  (52%nat, Xo (R 27) (An (No (R 28)) (R 29)));
  (53%nat, Xo (R 28) (An (No (R 29)) (R 25)));
  (54%nat, Xo (R 29) (An (No (R 25)) (R 26)));
  (2%nat, Xo (R 2) (R 32));
  (25%nat, RLo (R 2) 62);
  (8%nat, Xo (R 8) (R 33));
  (26%nat, RLo (R 8) 55);
  (14%nat, Xo (R 14) (R 34));
  (27%nat, RLo (R 14) 39);
  (15%nat, Xo (R 15) (R 30));
  (28%nat, RLo (R 15) 41);
  (21%nat, Xo (R 21) (R 31));
  (29%nat, RLo (R 21) 2);
  (55%nat, Xo (R 25) (An (No (R 26)) (R 27)));
  (56%nat, Xo (R 26) (An (No (R 27)) (R 28)));
  (57%nat, Xo (R 27) (An (No (R 28)) (R 29)));
  (58%nat, Xo (R 28) (An (No (R 29)) (R 25)));
  (59%nat, Xo (R 29) (An (No (R 25)) (R 26)));
  (25%nat, Xo (Xo (Xo (Xo (R 35) (R 40)) (R 45)) (R 50)) (R 55));
  (26%nat, Xo (Xo (Xo (Xo (R 36) (R 41)) (R 46)) (R 51)) (R 56));
  (27%nat, Xo (Xo (Xo (Xo (R 37) (R 42)) (R 47)) (R 52)) (R 57));
  (28%nat, Xo (Xo (Xo (Xo (R 38) (R 43)) (R 48)) (R 53)) (R 58));
  (29%nat, Xo (Xo (Xo (Xo (R 39) (R 44)) (R 49)) (R 54)) (R 59));
  (30%nat, Xo (R 29) (RLo (R 26) 1));
  (31%nat, Xo (R 25) (RLo (R 27) 1));
  (32%nat, Xo (R 26) (RLo (R 28) 1));
  (33%nat, Xo (R 27) (RLo (R 29) 1));
  (34%nat, Xo (R 28) (RLo (R 25) 1));
  (35%nat, Xo (R 35) (R 30));
  (25%nat, R 35);
  (41%nat, Xo (R 41) (R 31));
  (26%nat, RLo (R 41) 44);
  (47%nat, Xo (R 47) (R 32));
  (27%nat, RLo (R 47) 43);
  (53%nat, Xo (R 53) (R 33));
  (28%nat, RLo (R 53) 21);
  (59%nat, Xo (R 59) (R 34));
  (29%nat, RLo (R 59) 14);
  (0%nat, Xo (R 25) (An (No (R 26)) (R 27)));
  (0%nat, Xo (R 0) (K 0x8082));
  (1%nat, Xo (R 26) (An (No (R 27)) (R 28)));
  (2%nat, Xo (R 27) (An (No (R 28)) (R 29)));
  (3%nat, Xo (R 28) (An (No (R 29)) (R 25)));
  (4%nat, Xo (R 29) (An (No (R 25)) (R 26)));
  (38%nat, Xo (R 38) (R 33));
  (25%nat, RLo (R 38) 28);
  (44%nat, Xo (R 44) (R 34));
  (26%nat, RLo (R 44) 20);
  (45%nat, Xo (R 45) (R 30));
  (27%nat, RLo (R 45) 3);
  (51%nat, Xo (R 51) (R 31));
  (28%nat, RLo (R 51) 45);
  (57%nat, Xo (R 57) (R 32));
  (29%nat, RLo (R 57) 61);
  (5%nat, Xo (R 25) (An (No (R 26)) (R 27)));
  (6%nat, Xo (R 26) (An (No (R 27)) (R 28)));
  (7%nat, Xo (R 27) (An (No (R 28)) (R 29)));
  (8%nat, Xo (R 28) (An (No (R 29)) (R 25)));
  (9%nat, Xo (R 29) (An (No (R 25)) (R 26)));
  (36%nat, Xo (R 36) (R 31));
  (25%nat, RLo (R 36) 1);
  (42%nat, Xo (R 42) (R 32));
  (26%nat, RLo (R 42) 6);
  (48%nat, Xo (R 48) (R 33));
  (27%nat, RLo (R 48) 25);
  (54%nat, Xo (R 54) (R 34));
  (28%nat, RLo (R 54) 8);
  (55%nat, Xo (R 55) (R 30));
  (29%nat, RLo (R 55) 18);
  (10%nat, Xo (R 25) (An (No (R 26)) (R 27)));
  (11%nat, Xo (R 26) (An (No (R 27)) (R 28)));
  (12%nat, Xo (R 27) (An (No (R 28)) (R 29)));
  (13%nat, Xo (R 28) (An (No (R 29)) (R 25)));
  (14%nat, Xo (R 29) (An (No (R 25)) (R 26)));
  (39%nat, Xo (R 39) (R 34));
  (25%nat, RLo (R 39) 27);
  (40%nat, Xo (R 40) (R 30));
  (26%nat, RLo (R 40) 36);
  (46%nat, Xo (R 46) (R 31));
  (27%nat, RLo (R 46) 10);
  (52%nat, Xo (R 52) (R 32));
  (28%nat, RLo (R 52) 15);
  (58%nat, Xo (R 58) (R 33));
  (29%nat, RLo (R 58) 56);
  (15%nat, Xo (R 25) (An (No (R 26)) (R 27)));
  (16%nat, Xo (R 26) (An (No (R 27)) (R 28)));
  (17%nat, Xo (R 27) (An (No (R 28)) (R 29)));
  (18%nat, Xo (R 28) (An (No (R 29)) (R 25)));
  (19%nat, Xo (R 29) (An (No (R 25)) (R 26)));
  (37%nat, Xo (R 37) (R 32));
  (25%nat, RLo (R 37) 62);
  (43%nat, Xo (R 43) (R 33));
  (26%nat, RLo (R 43) 55);
  (49%nat, Xo (R 49) (R 34));
  (27%nat, RLo (R 49) 39);
  (50%nat, Xo (R 50) (R 30));
  (28%nat, RLo (R 50) 41);
  (56%nat, Xo (R 56) (R 31));
  (29%nat, RLo (R 56) 2);
  (20%nat, Xo (R 25) (An (No (R 26)) (R 27)));
  (21%nat, Xo (R 26) (An (No (R 27)) (R 28)));
  (22%nat, Xo (R 27) (An (No (R 28)) (R 29)));
  (23%nat, Xo (R 28) (An (No (R 29)) (R 25)));
  (24%nat, Xo (R 29) (An (No (R 25)) (R 26)));
  (25%nat, Xo (Xo (Xo (Xo (R 0) (R 5)) (R 10)) (R 15)) (R 20));
  (26%nat, Xo (Xo (Xo (Xo (R 1) (R 6)) (R 11)) (R 16)) (R 21));
  (27%nat, Xo (Xo (Xo (Xo (R 2) (R 7)) (R 12)) (R 17)) (R 22));
  (28%nat, Xo (Xo (Xo (Xo (R 3) (R 8)) (R 13)) (R 18)) (R 23));
  (29%nat, Xo (Xo (Xo (Xo (R 4) (R 9)) (R 14)) (R 19)) (R 24));
  (30%nat, Xo (R 29) (RLo (R 26) 1));
  (31%nat, Xo (R 25) (RLo (R 27) 1));
  (32%nat, Xo (R 26) (RLo (R 28) 1));
  (33%nat, Xo (R 27) (RLo (R 29) 1));
  (34%nat, Xo (R 28) (RLo (R 25) 1));
  (0%nat, Xo (R 0) (R 30));
  (25%nat, R 0);
  (6%nat, Xo (R 6) (R 31));
  (26%nat, RLo (R 6) 44);
  (12%nat, Xo (R 12) (R 32));
  (27%nat, RLo (R 12) 43);
  (18%nat, Xo (R 18) (R 33));
  (28%nat, RLo (R 18) 21);
  (24%nat, Xo (R 24) (R 34));
  (29%nat, RLo (R 24) 14);
  (35%nat, Xo (R 25) (An (No (R 26)) (R 27)));
  (35%nat, Xo (R 35) (K 0x800000000000808A));
  (36%nat, Xo (R 26) (An (No (R 27)) (R 28)));
  (37%nat, Xo (R 27) (An (No (R 28)) (R 29)));
  (38%nat, Xo (R 28) (An (No (R 29)) (R 25)));
  (39%nat, Xo (R 29) (An (No (R 25)) (R 26)));
  (3%nat, Xo (R 3) (R 33));
  (25%nat, RLo (R 3) 28);
  (9%nat, Xo (R 9) (R 34));
  (26%nat, RLo (R 9) 20);
  (10%nat, Xo (R 10) (R 30));
  (27%nat, RLo (R 10) 3);
  (16%nat, Xo (R 16) (R 31));
  (28%nat, RLo (R 16) 45);
  (22%nat, Xo (R 22) (R 32));
  (29%nat, RLo (R 22) 61);
  (40%nat, Xo (R 25) (An (No (R 26)) (R 27)));
  (41%nat, Xo (R 26) (An (No (R 27)) (R 28)));
  (42%nat, Xo (R 27) (An (No (R 28)) (R 29)));
  (43%nat, Xo (R 28) (An (No (R 29)) (R 25)));
  (44%nat, Xo (R 29) (An (No (R 25)) (R 26)));
  (1%nat, Xo (R 1) (R 31));
  (25%nat, RLo (R 1) 1);
  (7%nat, Xo (R 7) (R 32));
  (26%nat, RLo (R 7) 6);
  (13%nat, Xo (R 13) (R 33));
  (27%nat, RLo (R 13) 25);
  (19%nat, Xo (R 19) (R 34));
  (28%nat, RLo (R 19) 8);
  (20%nat, Xo (R 20) (R 30));
  (29%nat, RLo (R 20) 18);
  (45%nat, Xo (R 25) (An (No (R 26)) (R 27)));
  (46%nat, Xo (R 26) (An (No (R 27)) (R 28)));
  (47%nat, Xo (R 27) (An (No (R 28)) (R 29)));
  (48%nat, Xo (R 28) (An (No (R 29)) (R 25)));
  (49%nat, Xo (R 29) (An (No (R 25)) (R 26)));
  (4%nat, Xo (R 4) (R 34));
  (25%nat, RLo (R 4) 27);
  (5%nat, Xo (R 5) (R 30));
  (26%nat, RLo (R 5) 36);
  (11%nat, Xo (R 11) (R 31));
  (27%nat, RLo (R 11) 10);
  (17%nat, Xo (R 17) (R 32));
  (28%nat, RLo (R 17) 15);
  (23%nat, Xo (R 23) (R 33));
  (29%nat, RLo (R 23) 56);
  (50%nat, Xo (R 25) (An (No (R 26)) (R 27)));
  (51%nat, Xo (R 26) (An (No (R 27)) (R 28)));
  (52%nat, Xo (R 27) (An (No (R 28)) (R 29)));
  (53%nat, Xo (R 28) (An (No (R 29)) (R 25)));
  (54%nat, Xo (R 29) (An (No (R 25)) (R 26)));
  (2%nat, Xo (R 2) (R 32));
  (25%nat, RLo (R 2) 62);
  (8%nat, Xo (R 8) (R 33));
  (26%nat, RLo (R 8) 55);
  (14%nat, Xo (R 14) (R 34));
  (27%nat, RLo (R 14) 39);
  (15%nat, Xo (R 15) (R 30));
  (28%nat, RLo (R 15) 41);
  (21%nat, Xo (R 21) (R 31));
  (29%nat, RLo (R 21) 2);
  (55%nat, Xo (R 25) (An (No (R 26)) (R 27)));
  (56%nat, Xo (R 26) (An (No (R 27)) (R 28)));
  (57%nat, Xo (R 27) (An (No (R 28)) (R 29)));
  (58%nat, Xo (R 28) (An (No (R 29)) (R 25)));
  (59%nat, Xo (R 29) (An (No (R 25)) (R 26)));
  (25%nat, Xo (Xo (Xo (Xo (R 35) (R 40)) (R 45)) (R 50)) (R 55));
  (26%nat, Xo (Xo (Xo (Xo (R 36) (R 41)) (R 46)) (R 51)) (R 56));
  (27%nat, Xo (Xo (Xo (Xo (R 37) (R 42)) (R 47)) (R 52)) (R 57));
  (28%nat, Xo (Xo (Xo (Xo (R 38) (R 43)) (R 48)) (R 53)) (R 58));
  (29%nat, Xo (Xo (Xo (Xo (R 39) (R 44)) (R 49)) (R 54)) (R 59));
  (30%nat, Xo (R 29) (RLo (R 26) 1));
  (31%nat, Xo (R 25) (RLo (R 27) 1));
  (32%nat, Xo (R 26) (RLo (R 28) 1));
  (33%nat, Xo (R 27) (RLo (R 29) 1));
  (34%nat, Xo (R 28) (RLo (R 25) 1));
  (35%nat, Xo (R 35) (R 30));
  (25%nat, R 35);
  (41%nat, Xo (R 41) (R 31));
  (26%nat, RLo (R 41) 44);
  (47%nat, Xo (R 47) (R 32));
  (27%nat, RLo (R 47) 43);
  (53%nat, Xo (R 53) (R 33));
  (28%nat, RLo (R 53) 21);
  (59%nat, Xo (R 59) (R 34));
  (29%nat, RLo (R 59) 14);
  (0%nat, Xo (R 25) (An (No (R 26)) (R 27)));
  (0%nat, Xo (R 0) (K 0x8000000080008000));
  (1%nat, Xo (R 26) (An (No (R 27)) (R 28)));
  (2%nat, Xo (R 27) (An (No (R 28)) (R 29)));
  (3%nat, Xo (R 28) (An (No (R 29)) (R 25)));
  (4%nat, Xo (R 29) (An (No (R 25)) (R 26)));
  (38%nat, Xo (R 38) (R 33));
  (25%nat, RLo (R 38) 28);
  (44%nat, Xo (R 44) (R 34));
  (26%nat, RLo (R 44) 20);
  (45%nat, Xo (R 45) (R 30));
  (27%nat, RLo (R 45) 3);
  (51%nat, Xo (R 51) (R 31));
  (28%nat, RLo (R 51) 45);
  (57%nat, Xo (R 57) (R 32));
  (29%nat, RLo (R 57) 61);
  (5%nat, Xo (R 25) (An (No (R 26)) (R 27)));
  (6%nat, Xo (R 26) (An (No (R 27)) (R 28)));
  (7%nat, Xo (R 27) (An (No (R 28)) (R 29)));
  (8%nat, Xo (R 28) (An (No (R 29)) (R 25)));
  (9%nat, Xo (R 29) (An (No (R 25)) (R 26)));
  (36%nat, Xo (R 36) (R 31));
  (25%nat, RLo (R 36) 1);
  (42%nat, Xo (R 42) (R 32));
  (26%nat, RLo (R 42) 6);
  (48%nat, Xo (R 48) (R 33));
  (27%nat, RLo (R 48) 25);
  (54%nat, Xo (R 54) (R 34));
  (28%nat, RLo (R 54) 8);
  (55%nat, Xo (R 55) (R 30));
  (29%nat, RLo (R 55) 18);
  (10%nat, Xo (R 25) (An (No (R 26)) (R 27)));
  (11%nat, Xo (R 26) (An (No (R 27)) (R 28)));
  (12%nat, Xo (R 27) (An (No (R 28)) (R 29)));
  (13%nat, Xo (R 28) (An (No (R 29)) (R 25)));
  (14%nat, Xo (R 29) (An (No (R 25)) (R 26)));
  (39%nat, Xo (R 39) (R 34));
  (25%nat, RLo (R 39) 27);
  (40%nat, Xo (R 40) (R 30));
  (26%nat, RLo (R 40) 36);
  (46%nat, Xo (R 46) (R 31));
  (27%nat, RLo (R 46) 10);
  (52%nat, Xo (R 52) (R 32));
  (28%nat, RLo (R 52) 15);
  (58%nat, Xo (R 58) (R 33));
  (29%nat, RLo (R 58) 56);
  (15%nat, Xo (R 25) (An (No (R 26)) (R 27)));
  (16%nat, Xo (R 26) (An (No (R 27)) (R 28)));
  (17%nat, Xo (R 27) (An (No (R 28)) (R 29)));
  (18%nat, Xo (R 28) (An (No (R 29)) (R 25)));
  (19%nat, Xo (R 29) (An (No (R 25)) (R 26)));
  (37%nat, Xo (R 37) (R 32));
  (25%nat, RLo (R 37) 62);
  (43%nat, Xo (R 43) (R 33));
  (26%nat, RLo (R 43) 55);
  (49%nat, Xo (R 49) (R 34));
  (27%nat, RLo (R 49) 39);
  (50%nat, Xo (R 50) (R 30));
  (28%nat, RLo (R 50) 41);
  (56%nat, Xo (R 56) (R 31));
  (29%nat, RLo (R 56) 2);
  (20%nat, Xo (R 25) (An (No (R 26)) (R 27)));
  (21%nat, Xo (R 26) (An (No (R 27)) (R 28)));
  (22%nat, Xo (R 27) (An (No (R 28)) (R 29)));
  (23%nat, Xo (R 28) (An (No (R 29)) (R 25)));
  (24%nat, Xo (R 29) (An (No (R 25)) (R 26)));
  (25%nat, Xo (Xo (Xo (Xo (R 0) (R 5)) (R 10)) (R 15)) (R 20));
  (26%nat, Xo (Xo (Xo (Xo (R 1) (R 6)) (R 11)) (R 16)) (R 21));
  (27%nat, Xo (Xo (Xo (Xo (R 2) (R 7)) (R 12)) (R 17)) (R 22));
  (28%nat, Xo (Xo (Xo (Xo (R 3) (R 8)) (R 13)) (R 18)) (R 23));
  (29%nat, Xo (Xo (Xo (Xo (R 4) (R 9)) (R 14)) (R 19)) (R 24));
  (30%nat, Xo (R 29) (RLo (R 26) 1));
  (31%nat, Xo (R 25) (RLo (R 27) 1));
  (32%nat, Xo (R 26) (RLo (R 28) 1));
  (33%nat, Xo (R 27) (RLo (R 29) 1));
  (34%nat, Xo (R 28) (RLo (R 25) 1));
  (0%nat, Xo (R 0) (R 30));
  (25%nat, R 0);
  (6%nat, Xo (R 6) (R 31));
  (26%nat, RLo (R 6) 44);
  (12%nat, Xo (R 12) (R 32));
  (27%nat, RLo (R 12) 43);
  (18%nat, Xo (R 18) (R 33));
  (28%nat, RLo (R 18) 21);
  (24%nat, Xo (R 24) (R 34));
  (29%nat, RLo (R 24) 14);
  (35%nat, Xo (R 25) (An (No (R 26)) (R 27)));
  (35%nat, Xo (R 35) (K 0x808B));
  (36%nat, Xo (R 26) (An (No (R 27)) (R 28)));
  (37%nat, Xo (R 27) (An (No (R 28)) (R 29)));
  (38%nat, Xo (R 28) (An (No (R 29)) (R 25)));
  (39%nat, Xo (R 29) (An (No (R 25)) (R 26)));
  (3%nat, Xo (R 3) (R 33));
  (25%nat, RLo (R 3) 28);
  (9%nat, Xo (R 9) (R 34));
  (26%nat, RLo (R 9) 20);
  (10%nat, Xo (R 10) (R 30));
  (27%nat, RLo (R 10) 3);
  (16%nat, Xo (R 16) (R 31));
  (28%nat, RLo (R 16) 45);
  (22%nat, Xo (R 22) (R 32));
  (29%nat, RLo (R 22) 61);
  (40%nat, Xo (R 25) (An (No (R 26)) (R 27)));
  (41%nat, Xo (R 26) (An (No (R 27)) (R 28)));
  (42%nat, Xo (R 27) (An (No (R 28)) (R 29)));
  (43%nat, Xo (R 28) (An (No (R 29)) (R 25)));
  (44%nat, Xo (R 29) (An (No (R 25)) (R 26)));
  (1%nat, Xo (R 1) (R 31));
  (25%nat, RLo (R 1) 1);
  (7%nat, Xo (R 7) (R 32));
  (26%nat, RLo (R 7) 6);
  (13%nat, Xo (R 13) (R 33));
  (27%nat, RLo (R 13) 25);
  (19%nat, Xo (R 19) (R 34));
  (28%nat, RLo (R 19) 8);
  (20%nat, Xo (R 20) (R 30));
  (29%nat, RLo (R 20) 18);
  (45%nat, Xo (R 25) (An (No (R 26)) (R 27)));
  (46%nat, Xo (R 26) (An (No (R 27)) (R 28)));
  (47%nat, Xo (R 27) (An (No (R 28)) (R 29)));
  (48%nat, Xo (R 28) (An (No (R 29)) (R 25)));
  (49%nat, Xo (R 29) (An (No (R 25)) (R 26)));
  (4%nat, Xo (R 4) (R 34));
  (25%nat, RLo (R 4) 27);
  (5%nat, Xo (R 5) (R 30));
  (26%nat, RLo (R 5) 36);
  (11%nat, Xo (R 11) (R 31));
  (27%nat, RLo (R 11) 10);
  (17%nat, Xo (R 17) (R 32));
  (28%nat, RLo (R 17) 15);
  (23%nat, Xo (R 23) (R 33));
  (29%nat, RLo (R 23) 56);
  (50%nat, Xo (R 25) (An (No (R 26)) (R 27)));
  (51%nat, Xo (R 26) (An (No (R 27)) (R 28)));
  (52%nat, Xo (R 27) (An (No (R 28)) (R 29)));
  (53%nat, Xo (R 28) (An (No (R 29)) (R 25)));
  (54%nat, Xo (R 29) (An (No (R 25)) (R 26)));
  (2%nat, Xo (R 2) (R 32));
  (25%nat, RLo (R 2) 62);
  (8%nat, Xo (R 8) (R 33));
  (26%nat, RLo (R 8) 55);
  (14%nat, Xo (R 14) (R 34));
  (27%nat, RLo (R 14) 39);
  (15%nat, Xo (R 15) (R 30));
  (28%nat, RLo (R 15) 41);
  (21%nat, Xo (R 21) (R 31));
  (29%nat, RLo (R 21) 2);
  (55%nat, Xo (R 25) (An (No (R 26)) (R 27)));
  (56%nat, Xo (R 26) (An (No (R 27)) (R 28)));
  (57%nat, Xo (R 27) (An (No (R 28)) (R 29)));
  (58%nat, Xo (R 28) (An (No (R 29)) (R 25)));
  (59%nat, Xo (R 29) (An (No (R 25)) (R 26)));
  (25%nat, Xo (Xo (Xo (Xo (R 35) (R 40)) (R 45)) (R 50)) (R 55));
  (26%nat, Xo (Xo (Xo (Xo (R 36) (R 41)) (R 46)) (R 51)) (R 56));
  (27%nat, Xo (Xo (Xo (Xo (R 37) (R 42)) (R 47)) (R 52)) (R 57));
  (28%nat, Xo (Xo (Xo (Xo (R 38) (R 43)) (R 48)) (R 53)) (R 58));
  (29%nat, Xo (Xo (Xo (Xo (R 39) (R 44)) (R 49)) (R 54)) (R 59));
  (30%nat, Xo (R 29) (RLo (R 26) 1));
  (31%nat, Xo (R 25) (RLo (R 27) 1));
  (32%nat, Xo (R 26) (RLo (R 28) 1));
  (33%nat, Xo (R 27) (RLo (R 29) 1));
  (34%nat, Xo (R 28) (RLo (R 25) 1));
  (35%nat, Xo (R 35) (R 30));
  (25%nat, R 35);
  (41%nat, Xo (R 41) (R 31));
  (26%nat, RLo (R 41) 44);
  (47%nat, Xo (R 47) (R 32));
  (27%nat, RLo (R 47) 43);
  (53%nat, Xo (R 53) (R 33));
  (28%nat, RLo (R 53) 21);
  (59%nat, Xo (R 59) (R 34));
  (29%nat, RLo (R 59) 14);
  (0%nat, Xo (R 25) (An (No (R 26)) (R 27)));
  (0%nat, Xo (R 0) (K 0x80000001));
  (1%nat, Xo (R 26) (An (No (R 27)) (R 28)));
  (2%nat, Xo (R 27) (An (No (R 28)) (R 29)));
  (3%nat, Xo (R 28) (An (No (R 29)) (R 25)));
  (4%nat, Xo (R 29) (An (No (R 25)) (R 26)));
  (38%nat, Xo (R 38) (R 33));
  (25%nat, RLo (R 38) 28);
  (44%nat, Xo (R 44) (R 34));
  (26%nat, RLo (R 44) 20);
  (45%nat, Xo (R 45) (R 30));
  (27%nat, RLo (R 45) 3);
  (51%nat, Xo (R 51) (R 31));
  (28%nat, RLo (R 51) 45);
  (57%nat, Xo (R 57) (R 32));
  (29%nat, RLo (R 57) 61);
  (5%nat, Xo (R 25) (An (No (R 26)) (R 27)));
  (6%nat, Xo (R 26) (An (No (R 27)) (R 28)));
  (7%nat, Xo (R 27) (An (No (R 28)) (R 29)));
  (8%nat, Xo (R 28) (An (No (R 29)) (R 25)));
  (9%nat, Xo (R 29) (An (No (R 25)) (R 26)));
  (36%nat, Xo (R 36) (R 31));
  (25%nat, RLo (R 36) 1);
  (42%nat, Xo (R 42) (R 32));
  (26%nat, RLo (R 42) 6);
  (48%nat, Xo (R 48) (R 33));
  (27%nat, RLo (R 48) 25);
  (54%nat, Xo (R 54) (R 34));
  (28%nat, RLo (R 54) 8);
  (55%nat, Xo (R 55) (R 30));
  (29%nat, RLo (R 55) 18);
  (10%nat, Xo (R 25) (An (No (R 26)) (R 27)));
  (11%nat, Xo (R 26) (An (No (R 27)) (R 28)));
  (12%nat, Xo (R 27) (An (No (R 28)) (R 29)));
  (13%nat, Xo (R 28) (An (No (R 29)) (R 25)));
  (14%nat, Xo (R 29) (An (No (R 25)) (R 26)));
  (39%nat, Xo (R 39) (R 34));
  (25%nat, RLo (R 39) 27);
  (40%nat, Xo (R 40) (R 30));
  (26%nat, RLo (R 40) 36);
  (46%nat, Xo (R 46) (R 31));
  (27%nat, RLo (R 46) 10);
  (52%nat, Xo (R 52) (R 32));
  (28%nat, RLo (R 52) 15);
  (58%nat, Xo (R 58) (R 33));
  (29%nat, RLo (R 58) 56);
  (15%nat, Xo (R 25) (An (No (R 26)) (R 27)));
  (16%nat, Xo (R 26) (An (No (R 27)) (R 28)));
  (17%nat, Xo (R 27) (An (No (R 28)) (R 29)));
  (18%nat, Xo (R 28) (An (No (R 29)) (R 25)));
  (19%nat, Xo (R 29) (An (No (R 25)) (R 26)));
  (37%nat, Xo (R 37) (R 32));
  (25%nat, RLo (R 37) 62);
  (43%nat, Xo (R 43) (R 33));
  (26%nat, RLo (R 43) 55);
  (49%nat, Xo (R 49) (R 34));
  (27%nat, RLo (R 49) 39);
  (50%nat, Xo (R 50) (R 30));
  (28%nat, RLo (R 50) 41);
  (56%nat, Xo (R 56) (R 31));
  (29%nat, RLo (R 56) 2);
  (20%nat, Xo (R 25) (An (No (R 26)) (R 27)));
  (21%nat, Xo (R 26) (An (No (R 27)) (R 28)));
  (22%nat, Xo (R 27) (An (No (R 28)) (R 29)));
  (23%nat, Xo (R 28) (An (No (R 29)) (R 25)));
  (24%nat, Xo (R 29) (An (No (R 25)) (R 26)));
  (25%nat, Xo (Xo (Xo (Xo (R 0) (R 5)) (R 10)) (R 15)) (R 20));
  (26%nat, Xo (Xo (Xo (Xo (R 1) (R 6)) (R 11)) (R 16)) (R 21));
  (27%nat, Xo (Xo (Xo (Xo (R 2) (R 7)) (R 12)) (R 17)) (R 22));
  (28%nat, Xo (Xo (Xo (Xo (R 3) (R 8)) (R 13)) (R 18)) (R 23));
  (29%nat, Xo (Xo (Xo (Xo (R 4) (R 9)) (R 14)) (R 19)) (R 24));
  (30%nat, Xo (R 29) (RLo (R 26) 1));
  (31%nat, Xo (R 25) (RLo (R 27) 1));
  (32%nat, Xo (R 26) (RLo (R 28) 1));
  (33%nat, Xo (R 27) (RLo (R 29) 1));
  (34%nat, Xo (R 28) (RLo (R 25) 1));
  (0%nat, Xo (R 0) (R 30));
  (25%nat, R 0);
  (6%nat, Xo (R 6) (R 31));
  (26%nat, RLo (R 6) 44);
  (12%nat, Xo (R 12) (R 32));
  (27%nat, RLo (R 12) 43);
  (18%nat, Xo (R 18) (R 33));
  (28%nat, RLo (R 18) 21);
  (24%nat, Xo (R 24) (R 34));
  (29%nat, RLo (R 24) 14);
  (35%nat, Xo (R 25) (An (No (R 26)) (R 27)));
  (35%nat, Xo (R 35) (K 0x8000000080008081));
  (36%nat, Xo (R 26) (An (No (R 27)) (R 28)));
  (37%nat, Xo (R 27) (An (No (R 28)) (R 29)));
  (38%nat, Xo (R 28) (An (No (R 29)) (R 25)));
  (39%nat, Xo (R 29) (An (No (R 25)) (R 26)));
  (3%nat, Xo (R 3) (R 33));
  (25%nat, RLo (R 3) 28);
  (9%nat, Xo (R 9) (R 34));
  (26%nat, RLo (R 9) 20);
  (10%nat, Xo (R 10) (R 30));
  (27%nat, RLo (R 10) 3);
  (16%nat, Xo (R 16) (R 31));
  (28%nat, RLo (R 16) 45);
  (22%nat, Xo (R 22) (R 32));
  (29%nat, RLo (R 22) 61);
  (40%nat, Xo (R 25) (An (No (R 26)) (R 27)));
  (41%nat, Xo (R 26) (An (No (R 27)) (R 28)));
  (42%nat, Xo (R 27) (An (No (R 28)) (R 29)));
  (43%nat, Xo (R 28) (An (No (R 29)) (R 25)));
  (44%nat, Xo (R 29) (An (No (R 25)) (R 26)));
  (1%nat, Xo (R 1) (R 31));
  (25%nat, RLo (R 1) 1);
  (7%nat, Xo (R 7) (R 32));
  (26%nat, RLo (R 7) 6);
  (13%nat, Xo (R 13) (R 33));
  (27%nat, RLo (R 13) 25);
  (19%nat, Xo (R 19) (R 34));
  (28%nat, RLo (R 19) 8);
  (20%nat, Xo (R 20) (R 30));
  (29%nat, RLo (R 20) 18);
  (45%nat, Xo (R 25) (An (No (R 26)) (R 27)));
  (46%nat, Xo (R 26) (An (No (R 27)) (R 28)));
  (47%nat, Xo (R 27) (An (No (R 28)) (R 29)));
  (48%nat, Xo (R 28) (An (No (R 29)) (R 25)));
  (49%nat, Xo (R 29) (An (No (R 25)) (R 26)));
  (4%nat, Xo (R 4) (R 34));
  (25%nat, RLo (R 4) 27);
  (5%nat, Xo (R 5) (R 30));
  (26%nat, RLo (R 5) 36);
  (11%nat, Xo (R 11) (R 31));
  (27%nat, RLo (R 11) 10);
  (17%nat, Xo (R 17) (R 32));
  (28%nat, RLo (R 17) 15);
  (23%nat, Xo (R 23) (R 33));
  (29%nat, RLo (R 23) 56);
  (50%nat, Xo (R 25) (An (No (R 26)) (R 27)));
  (51%nat, Xo (R 26) (An (No (R 27)) (R 28)));
  (52%nat, Xo (R 27) (An (No (R 28)) (R 29)));
  (53%nat, Xo (R 28) (An (No (R 29)) (R 25)));
  (54%nat, Xo (R 29) (An (No (R 25)) (R 26)));
  (2%nat, Xo (R 2) (R 32));
  (25%nat, RLo (R 2) 62);
  (8%nat, Xo (R 8) (R 33));
  (26%nat, RLo (R 8) 55);
  (14%nat, Xo (R 14) (R 34));
  (27%nat, RLo (R 14) 39);
  (15%nat, Xo (R 15) (R 30));
  (28%nat, RLo (R 15) 41);
  (21%nat, Xo (R 21) (R 31));
  (29%nat, RLo (R 21) 2);
  (55%nat, Xo (R 25) (An (No (R 26)) (R 27)));
  (56%nat, Xo (R 26) (An (No (R 27)) (R 28)));
  (57%nat, Xo (R 27) (An (No (R 28)) (R 29)));
  (58%nat, Xo (R 28) (An (No (R 29)) (R 25)));
  (59%nat, Xo (R 29) (An (No (R 25)) (R 26)));
  (25%nat, Xo (Xo (Xo (Xo (R 35) (R 40)) (R 45)) (R 50)) (R 55));
  (26%nat, Xo (Xo (Xo (Xo (R 36) (R 41)) (R 46)) (R 51)) (R 56));
  (27%nat, Xo (Xo (Xo (Xo (R 37) (R 42)) (R 47)) (R 52)) (R 57));
  (28%nat, Xo (Xo (Xo (Xo (R 38) (R 43)) (R 48)) (R 53)) (R 58));
  (29%nat, Xo (Xo (Xo (Xo (R 39) (R 44)) (R 49)) (R 54)) (R 59));
  (30%nat, Xo (R 29) (RLo (R 26) 1));
  (31%nat, Xo (R 25) (RLo (R 27) 1));
  (32%nat, Xo (R 26) (RLo (R 28) 1));
  (33%nat, Xo (R 27) (RLo (R 29) 1));
  (34%nat, Xo (R 28) (RLo (R 25) 1));
  (35%nat, Xo (R 35) (R 30));
  (25%nat, R 35);
  (41%nat, Xo (R 41) (R 31));
  (26%nat, RLo (R 41) 44);
  (47%nat, Xo (R 47) (R 32));
  (27%nat, RLo (R 47) 43);
  (53%nat, Xo (R 53) (R 33));
  (28%nat, RLo (R 53) 21);
  (59%nat, Xo (R 59) (R 34));
  (29%nat, RLo (R 59) 14);
  (0%nat, Xo (R 25) (An (No (R 26)) (R 27)));
  (0%nat, Xo (R 0) (K 0x8000000000008009));
  (1%nat, Xo (R 26) (An (No (R 27)) (R 28)));
  (2%nat, Xo (R 27) (An (No (R 28)) (R 29)));
  (3%nat, Xo (R 28) (An (No (R 29)) (R 25)));
  (4%nat, Xo (R 29) (An (No (R 25)) (R 26)));
  (38%nat, Xo (R 38) (R 33));
  (25%nat, RLo (R 38) 28);
  (44%nat, Xo (R 44) (R 34));
  (26%nat, RLo (R 44) 20);
  (45%nat, Xo (R 45) (R 30));
  (27%nat, RLo (R 45) 3);
  (51%nat, Xo (R 51) (R 31));
  (28%nat, RLo (R 51) 45);
  (57%nat, Xo (R 57) (R 32));
  (29%nat, RLo (R 57) 61);
  (5%nat, Xo (R 25) (An (No (R 26)) (R 27)));
  (6%nat, Xo (R 26) (An (No (R 27)) (R 28)));
  (7%nat, Xo (R 27) (An (No (R 28)) (R 29)));
  (8%nat, Xo (R 28) (An (No (R 29)) (R 25)));
  (9%nat, Xo (R 29) (An (No (R 25)) (R 26)));
  (36%nat, Xo (R 36) (R 31));
  (25%nat, RLo (R 36) 1);
  (42%nat, Xo (R 42) (R 32));
  (26%nat, RLo (R 42) 6);
  (48%nat, Xo (R 48) (R 33));
  (27%nat, RLo (R 48) 25);
  (54%nat, Xo (R 54) (R 34));
  (28%nat, RLo (R 54) 8);
  (55%nat, Xo (R 55) (R 30));
  (29%nat, RLo (R 55) 18);
  (10%nat, Xo (R 25) (An (No (R 26)) (R 27)));
  (11%nat, Xo (R 26) (An (No (R 27)) (R 28)));
  (12%nat, Xo (R 27) (An (No (R 28)) (R 29)));
  (13%nat, Xo (R 28) (An (No (R 29)) (R 25)));
  (14%nat, Xo (R 29) (An (No (R 25)) (R 26)));
  (39%nat, Xo (R 39) (R 34));
  (25%nat, RLo (R 39) 27);
  (40%nat, Xo (R 40) (R 30));
  (26%nat, RLo (R 40) 36);
  (46%nat, Xo (R 46) (R 31));
  (27%nat, RLo (R 46) 10);
  (52%nat, Xo (R 52) (R 32));
  (28%nat, RLo (R 52) 15);
  (58%nat, Xo (R 58) (R 33));
  (29%nat, RLo (R 58) 56);
  (15%nat, Xo (R 25) (An (No (R 26)) (R 27)));
  (16%nat, Xo (R 26) (An (No (R 27)) (R 28)));
  (17%nat, Xo (R 27) (An (No (R 28)) (R 29)));
  (18%nat, Xo (R 28) (An (No (R 29)) (R 25)));
  (19%nat, Xo (R 29) (An (No (R 25)) (R 26)));
  (37%nat, Xo (R 37) (R 32));
  (25%nat, RLo (R 37) 62);
  (43%nat, Xo (R 43) (R 33));
  (26%nat, RLo (R 43) 55);
  (49%nat, Xo (R 49) (R 34));
  (27%nat, RLo (R 49) 39);
  (50%nat, Xo (R 50) (R 30));
  (28%nat, RLo (R 50) 41);
  (56%nat, Xo (R 56) (R 31));
  (29%nat, RLo (R 56) 2);
  (20%nat, Xo (R 25) (An (No (R 26)) (R 27)));
  (21%nat, Xo (R 26) (An (No (R 27)) (R 28)));
  (22%nat, Xo (R 27) (An (No (R 28)) (R 29)));
  (23%nat, Xo (R 28) (An (No (R 29)) (R 25)));
  (24%nat, Xo (R 29) (An (No (R 25)) (R 26)));
  (25%nat, Xo (Xo (Xo (Xo (R 0) (R 5)) (R 10)) (R 15)) (R 20));
  (26%nat, Xo (Xo (Xo (Xo (R 1) (R 6)) (R 11)) (R 16)) (R 21));
  (27%nat, Xo (Xo (Xo (Xo (R 2) (R 7)) (R 12)) (R 17)) (R 22));
  (28%nat, Xo (Xo (Xo (Xo (R 3) (R 8)) (R 13)) (R 18)) (R 23));
  (29%nat, Xo (Xo (Xo (Xo (R 4) (R 9)) (R 14)) (R 19)) (R 24));
  (30%nat, Xo (R 29) (RLo (R 26) 1));
  (31%nat, Xo (R 25) (RLo (R 27) 1));
  (32%nat, Xo (R 26) (RLo (R 28) 1));
  (33%nat, Xo (R 27) (RLo (R 29) 1));
  (34%nat, Xo (R 28) (RLo (R 25) 1));
  (0%nat, Xo (R 0) (R 30));
  (25%nat, R 0);
  (6%nat, Xo (R 6) (R 31));
  (26%nat, RLo (R 6) 44);
  (12%nat, Xo (R 12) (R 32));
  (27%nat, RLo (R 12) 43);
  (18%nat, Xo (R 18) (R 33));
  (28%nat, RLo (R 18) 21);
  (24%nat, Xo (R 24) (R 34));
  (29%nat, RLo (R 24) 14);
  (35%nat, Xo (R 25) (An (No (R 26)) (R 27)));
  (35%nat, Xo (R 35) (K 0x8A));
  (36%nat, Xo (R 26) (An (No (R 27)) (R 28)));
  (37%nat, Xo (R 27) (An (No (R 28)) (R 29)));
  (38%nat, Xo (R 28) (An (No (R 29)) (R 25)));
  (39%nat, Xo (R 29) (An (No (R 25)) (R 26)));
  (3%nat, Xo (R 3) (R 33));
  (25%nat, RLo (R 3) 28);
  (9%nat, Xo (R 9) (R 34));
  (26%nat, RLo (R 9) 20);
  (10%nat, Xo (R 10) (R 30));
  (27%nat, RLo (R 10) 3);
  (16%nat, Xo (R 16) (R 31));
  (28%nat, RLo (R 16) 45);
  (22%nat, Xo (R 22) (R 32));
  (29%nat, RLo (R 22) 61);
  (40%nat, Xo (R 25) (An (No (R 26)) (R 27)));
  (41%nat, Xo (R 26) (An (No (R 27)) (R 28)));
  (42%nat, Xo (R 27) (An (No (R 28)) (R 29)));
  (43%nat, Xo (R 28) (An (No (R 29)) (R 25)));
  (44%nat, Xo (R 29) (An (No (R 25)) (R 26)));
  (1%nat, Xo (R 1) (R 31));
  (25%nat, RLo (R 1) 1);
  (7%nat, Xo (R 7) (R 32));
  (26%nat, RLo (R 7) 6);
  (13%nat, Xo (R 13) (R 33));
  (27%nat, RLo (R 13) 25);
  (19%nat, Xo (R 19) (R 34));
  (28%nat, RLo (R 19) 8);
  (20%nat, Xo (R 20) (R 30));
  (29%nat, RLo (R 20) 18);
  (45%nat, Xo (R 25) (An (No (R 26)) (R 27)));
  (46%nat, Xo (R 26) (An (No (R 27)) (R 28)));
  (47%nat, Xo (R 27) (An (No (R 28)) (R 29)));
  (48%nat, Xo (R 28) (An (No (R 29)) (R 25)));
  (49%nat, Xo (R 29) (An (No (R 25)) (R 26)));
  (4%nat, Xo (R 4) (R 34));
  (25%nat, RLo (R 4) 27);
  (5%nat, Xo (R 5) (R 30));
  (26%nat, RLo (R 5) 36);
  (11%nat, Xo (R 11) (R 31));
  (27%nat, RLo (R 11) 10);
  (17%nat, Xo (R 17) (R 32));
  (28%nat, RLo (R 17) 15);
  (23%nat, Xo (R 23) (R 33));
  (29%nat, RLo (R 23) 56);
  (50%nat, Xo (R 25) (An (No (R 26)) (R 27)));
  (51%nat, Xo (R 26) (An (No (R 27)) (R 28)));
  (52%nat, Xo (R 27) (An (No (R 28)) (R 29)));
  (53%nat, Xo (R 28) (An (No (R 29)) (R 25)));
  (54%nat, Xo (R 29) (An (No (R 25)) (R 26)));
  (2%nat, Xo (R 2) (R 32));
  (25%nat, RLo (R 2) 62);
  (8%nat, Xo (R 8) (R 33));
  (26%nat, RLo (R 8) 55);
  (14%nat, Xo (R 14) (R 34));
  (27%nat, RLo (R 14) 39);
  (15%nat, Xo (R 15) (R 30));
  (28%nat, RLo (R 15) 41);
  (21%nat, Xo (R 21) (R 31));
  (29%nat, RLo (R 21) 2);
  (55%nat, Xo (R 25) (An (No (R 26)) (R 27)));
  (56%nat, Xo (R 26) (An (No (R 27)) (R 28)));
  (57%nat, Xo (R 27) (An (No (R 28)) (R 29)));
  (58%nat, Xo (R 28) (An (No (R 29)) (R 25)));
  (59%nat, Xo (R 29) (An (No (R 25)) (R 26)));
  (25%nat, Xo (Xo (Xo (Xo (R 35) (R 40)) (R 45)) (R 50)) (R 55));
  (26%nat, Xo (Xo (Xo (Xo (R 36) (R 41)) (R 46)) (R 51)) (R 56));
  (27%nat, Xo (Xo (Xo (Xo (R 37) (R 42)) (R 47)) (R 52)) (R 57));
  (28%nat, Xo (Xo (Xo (Xo (R 38) (R 43)) (R 48)) (R 53)) (R 58));
  (29%nat, Xo (Xo (Xo (Xo (R 39) (R 44)) (R 49)) (R 54)) (R 59));
  (30%nat, Xo (R 29) (RLo (R 26) 1));
  (31%nat, Xo (R 25) (RLo (R 27) 1));
  (32%nat, Xo (R 26) (RLo (R 28) 1));
  (33%nat, Xo (R 27) (RLo (R 29) 1));
  (34%nat, Xo (R 28) (RLo (R 25) 1));
  (35%nat, Xo (R 35) (R 30));
  (25%nat, R 35);
  (41%nat, Xo (R 41) (R 31));
  (26%nat, RLo (R 41) 44);
  (47%nat, Xo (R 47) (R 32));
  (27%nat, RLo (R 47) 43);
  (53%nat, Xo (R 53) (R 33));
  (28%nat, RLo (R 53) 21);
  (59%nat, Xo (R 59) (R 34));
  (29%nat, RLo (R 59) 14);
  (0%nat, Xo (R 25) (An (No (R 26)) (R 27)));
  (0%nat, Xo (R 0) (K 0x88));
  (1%nat, Xo (R 26) (An (No (R 27)) (R 28)));
  (2%nat, Xo (R 27) (An (No (R 28)) (R 29)));
  (3%nat, Xo (R 28) (An (No (R 29)) (R 25)));
  (4%nat, Xo (R 29) (An (No (R 25)) (R 26)));
  (38%nat, Xo (R 38) (R 33));
  (25%nat, RLo (R 38) 28);
  (44%nat, Xo (R 44) (R 34));
  (26%nat, RLo (R 44) 20);
  (45%nat, Xo (R 45) (R 30));
  (27%nat, RLo (R 45) 3);
  (51%nat, Xo (R 51) (R 31));
  (28%nat, RLo (R 51) 45);
  (57%nat, Xo (R 57) (R 32));
  (29%nat, RLo (R 57) 61);
  (5%nat, Xo (R 25) (An (No (R 26)) (R 27)));
  (6%nat, Xo (R 26) (An (No (R 27)) (R 28)));
  (7%nat, Xo (R 27) (An (No (R 28)) (R 29)));
  (8%nat, Xo (R 28) (An (No (R 29)) (R 25)));
  (9%nat, Xo (R 29) (An (No (R 25)) (R 26)));
  (36%nat, Xo (R 36) (R 31));
  (25%nat, RLo (R 36) 1);
  (42%nat, Xo (R 42) (R 32));
  (26%nat, RLo (R 42) 6);
  (48%nat, Xo (R 48) (R 33));
  (27%nat, RLo (R 48) 25);
  (54%nat, Xo (R 54) (R 34));
  (28%nat, RLo (R 54) 8);
  (55%nat, Xo (R 55) (R 30));
  (29%nat, RLo (R 55) 18);
  (10%nat, Xo (R 25) (An (No (R 26)) (R 27)));
  (11%nat, Xo (R 26) (An (No (R 27)) (R 28)));
  (12%nat, Xo (R 27) (An (No (R 28)) (R 29)));
  (13%nat, Xo (R 28) (An (No (R 29)) (R 25)));
  (14%nat, Xo (R 29) (An (No (R 25)) (R 26)));
  (39%nat, Xo (R 39) (R 34));
  (25%nat, RLo (R 39) 27);
  (40%nat, Xo (R 40) (R 30));
  (26%nat, RLo (R 40) 36);
  (46%nat, Xo (R 46) (R 31));
  (27%nat, RLo (R 46) 10);
  (52%nat, Xo (R 52) (R 32));
  (28%nat, RLo (R 52) 15);
  (58%nat, Xo (R 58) (R 33));
  (29%nat, RLo (R 58) 56);
  (15%nat, Xo (R 25) (An (No (R 26)) (R 27)));
  (16%nat, Xo (R 26) (An (No (R 27)) (R 28)));
  (17%nat, Xo (R 27) (An (No (R 28)) (R 29)));
  (18%nat, Xo (R 28) (An (No (R 29)) (R 25)));
  (19%nat, Xo (R 29) (An (No (R 25)) (R 26)));
  (37%nat, Xo (R 37) (R 32));
  (25%nat, RLo (R 37) 62);
  (43%nat, Xo (R 43) (R 33));
  (26%nat, RLo (R 43) 55);
  (49%nat, Xo (R 49) (R 34));
  (27%nat, RLo (R 49) 39);
  (50%nat, Xo (R 50) (R 30));
  (28%nat, RLo (R 50) 41);
  (56%nat, Xo (R 56) (R 31));
  (29%nat, RLo (R 56) 2);
  (20%nat, Xo (R 25) (An (No (R 26)) (R 27)));
  (21%nat, Xo (R 26) (An (No (R 27)) (R 28)));
  (22%nat, Xo (R 27) (An (No (R 28)) (R 29)));
  (23%nat, Xo (R 28) (An (No (R 29)) (R 25)));
  (24%nat, Xo (R 29) (An (No (R 25)) (R 26)));
  (25%nat, Xo (Xo (Xo (Xo (R 0) (R 5)) (R 10)) (R 15)) (R 20));
  (26%nat, Xo (Xo (Xo (Xo (R 1) (R 6)) (R 11)) (R 16)) (R 21));
  (27%nat, Xo (Xo (Xo (Xo (R 2) (R 7)) (R 12)) (R 17)) (R 22));
  (28%nat, Xo (Xo (Xo (Xo (R 3) (R 8)) (R 13)) (R 18)) (R 23));
  (29%nat, Xo (Xo (Xo (Xo (R 4) (R 9)) (R 14)) (R 19)) (R 24));
  (30%nat, Xo (R 29) (RLo (R 26) 1));
  (31%nat, Xo (R 25) (RLo (R 27) 1));
  (32%nat, Xo (R 26) (RLo (R 28) 1));
  (33%nat, Xo (R 27) (RLo (R 29) 1));
  (34%nat, Xo (R 28) (RLo (R 25) 1));
  (0%nat, Xo (R 0) (R 30));
  (25%nat, R 0);
  (6%nat, Xo (R 6) (R 31));
  (26%nat, RLo (R 6) 44);
  (12%nat, Xo (R 12) (R 32));
  (27%nat, RLo (R 12) 43);
  (18%nat, Xo (R 18) (R 33));
  (28%nat, RLo (R 18) 21);
  (24%nat, Xo (R 24) (R 34));
  (29%nat, RLo (R 24) 14);
  (35%nat, Xo (R 25) (An (No (R 26)) (R 27)));
  (35%nat, Xo (R 35) (K 0x80008009));
  (36%nat, Xo (R 26) (An (No (R 27)) (R 28)));
  (37%nat, Xo (R 27) (An (No (R 28)) (R 29)));
  (38%nat, Xo (R 28) (An (No (R 29)) (R 25)));
  (39%nat, Xo (R 29) (An (No (R 25)) (R 26)));
  (3%nat, Xo (R 3) (R 33));
  (25%nat, RLo (R 3) 28);
  (9%nat, Xo (R 9) (R 34));
  (26%nat, RLo (R 9) 20);
  (10%nat, Xo (R 10) (R 30));
  (27%nat, RLo (R 10) 3);
  (16%nat, Xo (R 16) (R 31));
  (28%nat, RLo (R 16) 45);
  (22%nat, Xo (R 22) (R 32));
  (29%nat, RLo (R 22) 61);
  (40%nat, Xo (R 25) (An (No (R 26)) (R 27)));
  (41%nat, Xo (R 26) (An (No (R 27)) (R 28)));
  (42%nat, Xo (R 27) (An (No (R 28)) (R 29)));
  (43%nat, Xo (R 28) (An (No (R 29)) (R 25)));
  (44%nat, Xo (R 29) (An (No (R 25)) (R 26)));
  (1%nat, Xo (R 1) (R 31));
  (25%nat, RLo (R 1) 1);
  (7%nat, Xo (R 7) (R 32));
  (26%nat, RLo (R 7) 6);
  (13%nat, Xo (R 13) (R 33));
  (27%nat, RLo (R 13) 25);
  (19%nat, Xo (R 19) (R 34));
  (28%nat, RLo (R 19) 8);
  (20%nat, Xo (R 20) (R 30));
  (29%nat, RLo (R 20) 18);
  (45%nat, Xo (R 25) (An (No (R 26)) (R 27)));
  (46%nat, Xo (R 26) (An (No (R 27)) (R 28)));
  (47%nat, Xo (R 27) (An (No (R 28)) (R 29)));
  (48%nat, Xo (R 28) (An (No (R 29)) (R 25)));
  (49%nat, Xo (R 29) (An (No (R 25)) (R 26)));
  (4%nat, Xo (R 4) (R 34));
  (25%nat, RLo (R 4) 27);
  (5%nat, Xo (R 5) (R 30));
  (26%nat, RLo (R 5) 36);
  (11%nat, Xo (R 11) (R 31));
  (27%nat, RLo (R 11) 10);
  (17%nat, Xo (R 17) (R 32));
  (28%nat, RLo (R 17) 15);
  (23%nat, Xo (R 23) (R 33));
  (29%nat, RLo (R 23) 56);
  (50%nat, Xo (R 25) (An (No (R 26)) (R 27)));
  (51%nat, Xo (R 26) (An (No (R 27)) (R 28)));
  (52%nat, Xo (R 27) (An (No (R 28)) (R 29)));
  (53%nat, Xo (R 28) (An (No (R 29)) (R 25)));
  (54%nat, Xo (R 29) (An (No (R 25)) (R 26)));
  (2%nat, Xo (R 2) (R 32));
  (25%nat, RLo (R 2) 62);
  (8%nat, Xo (R 8) (R 33));
  (26%nat, RLo (R 8) 55);
  (14%nat, Xo (R 14) (R 34));
  (27%nat, RLo (R 14) 39);
  (15%nat, Xo (R 15) (R 30));
  (28%nat, RLo (R 15) 41);
  (21%nat, Xo (R 21) (R 31));
  (29%nat, RLo (R 21) 2);
  (55%nat, Xo (R 25) (An (No (R 26)) (R 27)));
  (56%nat, Xo (R 26) (An (No (R 27)) (R 28)));
  (57%nat, Xo (R 27) (An (No (R 28)) (R 29)));
  (58%nat, Xo (R 28) (An (No (R 29)) (R 25)));
  (59%nat, Xo (R 29) (An (No (R 25)) (R 26)));
  (25%nat, Xo (Xo (Xo (Xo (R 35) (R 40)) (R 45)) (R 50)) (R 55));
  (26%nat, Xo (Xo (Xo (Xo (R 36) (R 41)) (R 46)) (R 51)) (R 56));
  (27%nat, Xo (Xo (Xo (Xo (R 37) (R 42)) (R 47)) (R 52)) (R 57));
  (28%nat, Xo (Xo (Xo (Xo (R 38) (R 43)) (R 48)) (R 53)) (R 58));
  (29%nat, Xo (Xo (Xo (Xo (R 39) (R 44)) (R 49)) (R 54)) (R 59));
  (30%nat, Xo (R 29) (RLo (R 26) 1));
  (31%nat, Xo (R 25) (RLo (R 27) 1));
  (32%nat, Xo (R 26) (RLo (R 28) 1));
  (33%nat, Xo (R 27) (RLo (R 29) 1));
  (34%nat, Xo (R 28) (RLo (R 25) 1));
  (35%nat, Xo (R 35) (R 30));
  (25%nat, R 35);
  (41%nat, Xo (R 41) (R 31));
  (26%nat, RLo (R 41) 44);
  (47%nat, Xo (R 47) (R 32));
  (27%nat, RLo (R 47) 43);
  (53%nat, Xo (R 53) (R 33));
  (28%nat, RLo (R 53) 21);
  (59%nat, Xo (R 59) (R 34));
  (29%nat, RLo (R 59) 14);
  (0%nat, Xo (R 25) (An (No (R 26)) (R 27)));
  (0%nat, Xo (R 0) (K 0x8000000A));
  (1%nat, Xo (R 26) (An (No (R 27)) (R 28)));
  (2%nat, Xo (R 27) (An (No (R 28)) (R 29)));
  (3%nat, Xo (R 28) (An (No (R 29)) (R 25)));
  (4%nat, Xo (R 29) (An (No (R 25)) (R 26)));
  (38%nat, Xo (R 38) (R 33));
  (25%nat, RLo (R 38) 28);
  (44%nat, Xo (R 44) (R 34));
  (26%nat, RLo (R 44) 20);
  (45%nat, Xo (R 45) (R 30));
  (27%nat, RLo (R 45) 3);
  (51%nat, Xo (R 51) (R 31));
  (28%nat, RLo (R 51) 45);
  (57%nat, Xo (R 57) (R 32));
  (29%nat, RLo (R 57) 61);
  (5%nat, Xo (R 25) (An (No (R 26)) (R 27)));
  (6%nat, Xo (R 26) (An (No (R 27)) (R 28)));
  (7%nat, Xo (R 27) (An (No (R 28)) (R 29)));
  (8%nat, Xo (R 28) (An (No (R 29)) (R 25)));
  (9%nat, Xo (R 29) (An (No (R 25)) (R 26)));
  (36%nat, Xo (R 36) (R 31));
  (25%nat, RLo (R 36) 1);
  (42%nat, Xo (R 42) (R 32));
  (26%nat, RLo (R 42) 6);
  (48%nat, Xo (R 48) (R 33));
  (27%nat, RLo (R 48) 25);
  (54%nat, Xo (R 54) (R 34));
  (28%nat, RLo (R 54) 8);
  (55%nat, Xo (R 55) (R 30));
  (29%nat, RLo (R 55) 18);
  (10%nat, Xo (R 25) (An (No (R 26)) (R 27)));
  (11%nat, Xo (R 26) (An (No (R 27)) (R 28)));
  (12%nat, Xo (R 27) (An (No (R 28)) (R 29)));
  (13%nat, Xo (R 28) (An (No (R 29)) (R 25)));
  (14%nat, Xo (R 29) (An (No (R 25)) (R 26)));
  (39%nat, Xo (R 39) (R 34));
  (25%nat, RLo (R 39) 27);
  (40%nat, Xo (R 40) (R 30));
  (26%nat, RLo (R 40) 36);
  (46%nat, Xo (R 46) (R 31));
  (27%nat, RLo (R 46) 10);
  (52%nat, Xo (R 52) (R 32));
  (28%nat, RLo (R 52) 15);
  (58%nat, Xo (R 58) (R 33));
  (29%nat, RLo (R 58) 56);
  (15%nat, Xo (R 25) (An (No (R 26)) (R 27)));
  (16%nat, Xo (R 26) (An (No (R 27)) (R 28)));
  (17%nat, Xo (R 27) (An (No (R 28)) (R 29)));
  (18%nat, Xo (R 28) (An (No (R 29)) (R 25)));
  (19%nat, Xo (R 29) (An (No (R 25)) (R 26)));
  (37%nat, Xo (R 37) (R 32));
  (25%nat, RLo (R 37) 62);
  (43%nat, Xo (R 43) (R 33));
  (26%nat, RLo (R 43) 55);
  (49%nat, Xo (R 49) (R 34));
  (27%nat, RLo (R 49) 39);
  (50%nat, Xo (R 50) (R 30));
  (28%nat, RLo (R 50) 41);
  (56%nat, Xo (R 56) (R 31));
  (29%nat, RLo (R 56) 2);
  (20%nat, Xo (R 25) (An (No (R 26)) (R 27)));
  (21%nat, Xo (R 26) (An (No (R 27)) (R 28)));
  (22%nat, Xo (R 27) (An (No (R 28)) (R 29)));
  (23%nat, Xo (R 28) (An (No (R 29)) (R 25)));
  (24%nat, Xo (R 29) (An (No (R 25)) (R 26)));
  (25%nat, Xo (Xo (Xo (Xo (R 0) (R 5)) (R 10)) (R 15)) (R 20));
  (26%nat, Xo (Xo (Xo (Xo (R 1) (R 6)) (R 11)) (R 16)) (R 21));
  (27%nat, Xo (Xo (Xo (Xo (R 2) (R 7)) (R 12)) (R 17)) (R 22));
  (28%nat, Xo (Xo (Xo (Xo (R 3) (R 8)) (R 13)) (R 18)) (R 23));
  (29%nat, Xo (Xo (Xo (Xo (R 4) (R 9)) (R 14)) (R 19)) (R 24));
  (30%nat, Xo (R 29) (RLo (R 26) 1));
  (31%nat, Xo (R 25) (RLo (R 27) 1));
  (32%nat, Xo (R 26) (RLo (R 28) 1));
  (33%nat, Xo (R 27) (RLo (R 29) 1));
  (34%nat, Xo (R 28) (RLo (R 25) 1));
  (0%nat, Xo (R 0) (R 30));
  (25%nat, R 0);
  (6%nat, Xo (R 6) (R 31));
  (26%nat, RLo (R 6) 44);
  (12%nat, Xo (R 12) (R 32));
  (27%nat, RLo (R 12) 43);
  (18%nat, Xo (R 18) (R 33));
  (28%nat, RLo (R 18) 21);
  (24%nat, Xo (R 24) (R 34));
  (29%nat, RLo (R 24) 14);
  (35%nat, Xo (R 25) (An (No (R 26)) (R 27)));
  (35%nat, Xo (R 35) (K 0x8000808B));
  (36%nat, Xo (R 26) (An (No (R 27)) (R 28)));
  (37%nat, Xo (R 27) (An (No (R 28)) (R 29)));
  (38%nat, Xo (R 28) (An (No (R 29)) (R 25)));
  (39%nat, Xo (R 29) (An (No (R 25)) (R 26)));
  (3%nat, Xo (R 3) (R 33));
  (25%nat, RLo (R 3) 28);
  (9%nat, Xo (R 9) (R 34));
  (26%nat, RLo (R 9) 20);
  (10%nat, Xo (R 10) (R 30));
  (27%nat, RLo (R 10) 3);
  (16%nat, Xo (R 16) (R 31));
  (28%nat, RLo (R 16) 45);
  (22%nat, Xo (R 22) (R 32));
  (29%nat, RLo (R 22) 61);
  (40%nat, Xo (R 25) (An (No (R 26)) (R 27)));
  (41%nat, Xo (R 26) (An (No (R 27)) (R 28)));
  (42%nat, Xo (R 27) (An (No (R 28)) (R 29)));
  (43%nat, Xo (R 28) (An (No (R 29)) (R 25)));
  (44%nat, Xo (R 29) (An (No (R 25)) (R 26)));
  (1%nat, Xo (R 1) (R 31));
  (25%nat, RLo (R 1) 1);
  (7%nat, Xo (R 7) (R 32));
  (26%nat, RLo (R 7) 6);
  (13%nat, Xo (R 13) (R 33));
  (27%nat, RLo (R 13) 25);
  (19%nat, Xo (R 19) (R 34));
  (28%nat, RLo (R 19) 8);
  (20%nat, Xo (R 20) (R 30));
  (29%nat, RLo (R 20) 18);
  (45%nat, Xo (R 25) (An (No (R 26)) (R 27)));
  (46%nat, Xo (R 26) (An (No (R 27)) (R 28)));
  (47%nat, Xo (R 27) (An (No (R 28)) (R 29)));
  (48%nat, Xo (R 28) (An (No (R 29)) (R 25)));
  (49%nat, Xo (R 29) (An (No (R 25)) (R 26)));
  (4%nat, Xo (R 4) (R 34));
  (25%nat, RLo (R 4) 27);
  (5%nat, Xo (R 5) (R 30));
  (26%nat, RLo (R 5) 36);
  (11%nat, Xo (R 11) (R 31));
  (27%nat, RLo (R 11) 10);
  (17%nat, Xo (R 17) (R 32));
  (28%nat, RLo (R 17) 15);
  (23%nat, Xo (R 23) (R 33));
  (29%nat, RLo (R 23) 56);
  (50%nat, Xo (R 25) (An (No (R 26)) (R 27)));
  (51%nat, Xo (R 26) (An (No (R 27)) (R 28)));
  (52%nat, Xo (R 27) (An (No (R 28)) (R 29)));
  (53%nat, Xo (R 28) (An (No (R 29)) (R 25)));
  (54%nat, Xo (R 29) (An (No (R 25)) (R 26)));
  (2%nat, Xo (R 2) (R 32));
  (25%nat, RLo (R 2) 62);
  (8%nat, Xo (R 8) (R 33));
  (26%nat, RLo (R 8) 55);
  (14%nat, Xo (R 14) (R 34));
  (27%nat, RLo (R 14) 39);
  (15%nat, Xo (R 15) (R 30));
  (28%nat, RLo (R 15) 41);
  (21%nat, Xo (R 21) (R 31));
  (29%nat, RLo (R 21) 2);
  (55%nat, Xo (R 25) (An (No (R 26)) (R 27)));
  (56%nat, Xo (R 26) (An (No (R 27)) (R 28)));
  (57%nat, Xo (R 27) (An (No (R 28)) (R 29)));
  (58%nat, Xo (R 28) (An (No (R 29)) (R 25)));
  (59%nat, Xo (R 29) (An (No (R 25)) (R 26)));
  (25%nat, Xo (Xo (Xo (Xo (R 35) (R 40)) (R 45)) (R 50)) (R 55));
  (26%nat, Xo (Xo (Xo (Xo (R 36) (R 41)) (R 46)) (R 51)) (R 56));
  (27%nat, Xo (Xo (Xo (Xo (R 37) (R 42)) (R 47)) (R 52)) (R 57));
  (28%nat, Xo (Xo (Xo (Xo (R 38) (R 43)) (R 48)) (R 53)) (R 58));
  (29%nat, Xo (Xo (Xo (Xo (R 39) (R 44)) (R 49)) (R 54)) (R 59));
  (30%nat, Xo (R 29) (RLo (R 26) 1));
  (31%nat, Xo (R 25) (RLo (R 27) 1));
  (32%nat, Xo (R 26) (RLo (R 28) 1));
  (33%nat, Xo (R 27) (RLo (R 29) 1));
  (34%nat, Xo (R 28) (RLo (R 25) 1));
  (35%nat, Xo (R 35) (R 30));
  (25%nat, R 35);
  (41%nat, Xo (R 41) (R 31));
  (26%nat, RLo (R 41) 44);
  (47%nat, Xo (R 47) (R 32));
  (27%nat, RLo (R 47) 43);
  (53%nat, Xo (R 53) (R 33));
  (28%nat, RLo (R 53) 21);
  (59%nat, Xo (R 59) (R 34));
  (29%nat, RLo (R 59) 14);
  (0%nat, Xo (R 25) (An (No (R 26)) (R 27)));
  (0%nat, Xo (R 0) (K 0x800000000000008B));
  (1%nat, Xo (R 26) (An (No (R 27)) (R 28)));
  (2%nat, Xo (R 27) (An (No (R 28)) (R 29)));
  (3%nat, Xo (R 28) (An (No (R 29)) (R 25)));
  (4%nat, Xo (R 29) (An (No (R 25)) (R 26)));
  (38%nat, Xo (R 38) (R 33));
  (25%nat, RLo (R 38) 28);
  (44%nat, Xo (R 44) (R 34));
  (26%nat, RLo (R 44) 20);
  (45%nat, Xo (R 45) (R 30));
  (27%nat, RLo (R 45) 3);
  (51%nat, Xo (R 51) (R 31));
  (28%nat, RLo (R 51) 45);
  (57%nat, Xo (R 57) (R 32));
  (29%nat, RLo (R 57) 61);
  (5%nat, Xo (R 25) (An (No (R 26)) (R 27)));
  (6%nat, Xo (R 26) (An (No (R 27)) (R 28)));
  (7%nat, Xo (R 27) (An (No (R 28)) (R 29)));
  (8%nat, Xo (R 28) (An (No (R 29)) (R 25)));
  (9%nat, Xo (R 29) (An (No (R 25)) (R 26)));
  (36%nat, Xo (R 36) (R 31));
  (25%nat, RLo (R 36) 1);
  (42%nat, Xo (R 42) (R 32));
  (26%nat, RLo (R 42) 6);
  (48%nat, Xo (R 48) (R 33));
  (27%nat, RLo (R 48) 25);
  (54%nat, Xo (R 54) (R 34));
  (28%nat, RLo (R 54) 8);
  (55%nat, Xo (R 55) (R 30));
  (29%nat, RLo (R 55) 18);
  (10%nat, Xo (R 25) (An (No (R 26)) (R 27)));
  (11%nat, Xo (R 26) (An (No (R 27)) (R 28)));
  (12%nat, Xo (R 27) (An (No (R 28)) (R 29)));
  (13%nat, Xo (R 28) (An (No (R 29)) (R 25)));
  (14%nat, Xo (R 29) (An (No (R 25)) (R 26)));
  (39%nat, Xo (R 39) (R 34));
  (25%nat, RLo (R 39) 27);
  (40%nat, Xo (R 40) (R 30));
  (26%nat, RLo (R 40) 36);
  (46%nat, Xo (R 46) (R 31));
  (27%nat, RLo (R 46) 10);
  (52%nat, Xo (R 52) (R 32));
  (28%nat, RLo (R 52) 15);
  (58%nat, Xo (R 58) (R 33));
  (29%nat, RLo (R 58) 56);
  (15%nat, Xo (R 25) (An (No (R 26)) (R 27)));
  (16%nat, Xo (R 26) (An (No (R 27)) (R 28)));
  (17%nat, Xo (R 27) (An (No (R 28)) (R 29)));
  (18%nat, Xo (R 28) (An (No (R 29)) (R 25)));
  (19%nat, Xo (R 29) (An (No (R 25)) (R 26)));
  (37%nat, Xo (R 37) (R 32));
  (25%nat, RLo (R 37) 62);
  (43%nat, Xo (R 43) (R 33));
  (26%nat, RLo (R 43) 55);
  (49%nat, Xo (R 49) (R 34));
  (27%nat, RLo (R 49) 39);
  (50%nat, Xo (R 50) (R 30));
  (28%nat, RLo (R 50) 41);
  (56%nat, Xo (R 56) (R 31));
  (29%nat, RLo (R 56) 2);
  (20%nat, Xo (R 25) (An (No (R 26)) (R 27)));
  (21%nat, Xo (R 26) (An (No (R 27)) (R 28)));
  (22%nat, Xo (R 27) (An (No (R 28)) (R 29)));
  (23%nat, Xo (R 28) (An (No (R 29)) (R 25)));
  (24%nat, Xo (R 29) (An (No (R 25)) (R 26)));
  (25%nat, Xo (Xo (Xo (Xo (R 0) (R 5)) (R 10)) (R 15)) (R 20));
  (26%nat, Xo (Xo (Xo (Xo (R 1) (R 6)) (R 11)) (R 16)) (R 21));
  (27%nat, Xo (Xo (Xo (Xo (R 2) (R 7)) (R 12)) (R 17)) (R 22));
  (28%nat, Xo (Xo (Xo (Xo (R 3) (R 8)) (R 13)) (R 18)) (R 23));
  (29%nat, Xo (Xo (Xo (Xo (R 4) (R 9)) (R 14)) (R 19)) (R 24));
  (30%nat, Xo (R 29) (RLo (R 26) 1));
  (31%nat, Xo (R 25) (RLo (R 27) 1));
  (32%nat, Xo (R 26) (RLo (R 28) 1));
  (33%nat, Xo (R 27) (RLo (R 29) 1));
  (34%nat, Xo (R 28) (RLo (R 25) 1));
  (0%nat, Xo (R 0) (R 30));
  (25%nat, R 0);
  (6%nat, Xo (R 6) (R 31));
  (26%nat, RLo (R 6) 44);
  (12%nat, Xo (R 12) (R 32));
  (27%nat, RLo (R 12) 43);
  (18%nat, Xo (R 18) (R 33));
  (28%nat, RLo (R 18) 21);
  (24%nat, Xo (R 24) (R 34));
  (29%nat, RLo (R 24) 14);
  (35%nat, Xo (R 25) (An (No (R 26)) (R 27)));
  (35%nat, Xo (R 35) (K 0x8000000000008089));
  (36%nat, Xo (R 26) (An (No (R 27)) (R 28)));
  (37%nat, Xo (R 27) (An (No (R 28)) (R 29)));
  (38%nat, Xo (R 28) (An (No (R 29)) (R 25)));
  (39%nat, Xo (R 29) (An (No (R 25)) (R 26)));
  (3%nat, Xo (R 3) (R 33));
  (25%nat, RLo (R 3) 28);
  (9%nat, Xo (R 9) (R 34));
  (26%nat, RLo (R 9) 20);
  (10%nat, Xo (R 10) (R 30));
  (27%nat, RLo (R 10) 3);
  (16%nat, Xo (R 16) (R 31));
  (28%nat, RLo (R 16) 45);
  (22%nat, Xo (R 22) (R 32));
  (29%nat, RLo (R 22) 61);
  (40%nat, Xo (R 25) (An (No (R 26)) (R 27)));
  (41%nat, Xo (R 26) (An (No (R 27)) (R 28)));
  (42%nat, Xo (R 27) (An (No (R 28)) (R 29)));
  (43%nat, Xo (R 28) (An (No (R 29)) (R 25)));
  (44%nat, Xo (R 29) (An (No (R 25)) (R 26)));
  (1%nat, Xo (R 1) (R 31));
  (25%nat, RLo (R 1) 1);
  (7%nat, Xo (R 7) (R 32));
  (26%nat, RLo (R 7) 6);
  (13%nat, Xo (R 13) (R 33));
  (27%nat, RLo (R 13) 25);
  (19%nat, Xo (R 19) (R 34));
  (28%nat, RLo (R 19) 8);
  (20%nat, Xo (R 20) (R 30));
  (29%nat, RLo (R 20) 18);
  (45%nat, Xo (R 25) (An (No (R 26)) (R 27)));
  (46%nat, Xo (R 26) (An (No (R 27)) (R 28)));
  (47%nat, Xo (R 27) (An (No (R 28)) (R 29)));
  (48%nat, Xo (R 28) (An (No (R 29)) (R 25)));
  (49%nat, Xo (R 29) (An (No (R 25)) (R 26)));
  (4%nat, Xo (R 4) (R 34));
  (25%nat, RLo (R 4) 27);
  (5%nat, Xo (R 5) (R 30));
  (26%nat, RLo (R 5) 36);
  (11%nat, Xo (R 11) (R 31));
  (27%nat, RLo (R 11) 10);
  (17%nat, Xo (R 17) (R 32));
  (28%nat, RLo (R 17) 15);
  (23%nat, Xo (R 23) (R 33));
  (29%nat, RLo (R 23) 56);
  (50%nat, Xo (R 25) (An (No (R 26)) (R 27)));
  (51%nat, Xo (R 26) (An (No (R 27)) (R 28)));
  (52%nat, Xo (R 27) (An (No (R 28)) (R 29)));
  (53%nat, Xo (R 28) (An (No (R 29)) (R 25)));
  (54%nat, Xo (R 29) (An (No (R 25)) (R 26)));
  (2%nat, Xo (R 2) (R 32));
  (25%nat, RLo (R 2) 62);
  (8%nat, Xo (R 8) (R 33));
  (26%nat, RLo (R 8) 55);
  (14%nat, Xo (R 14) (R 34));
  (27%nat, RLo (R 14) 39);
  (15%nat, Xo (R 15) (R 30));
  (28%nat, RLo (R 15) 41);
  (21%nat, Xo (R 21) (R 31));
  (29%nat, RLo (R 21) 2);
  (55%nat, Xo (R 25) (An (No (R 26)) (R 27)));
  (56%nat, Xo (R 26) (An (No (R 27)) (R 28)));
  (57%nat, Xo (R 27) (An (No (R 28)) (R 29)));
  (58%nat, Xo (R 28) (An (No (R 29)) (R 25)));
  (59%nat, Xo (R 29) (An (No (R 25)) (R 26)));
  (25%nat, Xo (Xo (Xo (Xo (R 35) (R 40)) (R 45)) (R 50)) (R 55));
  (26%nat, Xo (Xo (Xo (Xo (R 36) (R 41)) (R 46)) (R 51)) (R 56));
  (27%nat, Xo (Xo (Xo (Xo (R 37) (R 42)) (R 47)) (R 52)) (R 57));
  (28%nat, Xo (Xo (Xo (Xo (R 38) (R 43)) (R 48)) (R 53)) (R 58));
  (29%nat, Xo (Xo (Xo (Xo (R 39) (R 44)) (R 49)) (R 54)) (R 59));
  (30%nat, Xo (R 29) (RLo (R 26) 1));
  (31%nat, Xo (R 25) (RLo (R 27) 1));
  (32%nat, Xo (R 26) (RLo (R 28) 1));
  (33%nat, Xo (R 27) (RLo (R 29) 1));
  (34%nat, Xo (R 28) (RLo (R 25) 1));
  (35%nat, Xo (R 35) (R 30));
  (25%nat, R 35);
  (41%nat, Xo (R 41) (R 31));
  (26%nat, RLo (R 41) 44);
  (47%nat, Xo (R 47) (R 32));
  (27%nat, RLo (R 47) 43);
  (53%nat, Xo (R 53) (R 33));
  (28%nat, RLo (R 53) 21);
  (59%nat, Xo (R 59) (R 34));
  (29%nat, RLo (R 59) 14);
  (0%nat, Xo (R 25) (An (No (R 26)) (R 27)));
  (0%nat, Xo (R 0) (K 0x8000000000008003));
  (1%nat, Xo (R 26) (An (No (R 27)) (R 28)));
  (2%nat, Xo (R 27) (An (No (R 28)) (R 29)));
  (3%nat, Xo (R 28) (An (No (R 29)) (R 25)));
  (4%nat, Xo (R 29) (An (No (R 25)) (R 26)));
  (38%nat, Xo (R 38) (R 33));
  (25%nat, RLo (R 38) 28);
  (44%nat, Xo (R 44) (R 34));
  (26%nat, RLo (R 44) 20);
  (45%nat, Xo (R 45) (R 30));
  (27%nat, RLo (R 45) 3);
  (51%nat, Xo (R 51) (R 31));
  (28%nat, RLo (R 51) 45);
  (57%nat, Xo (R 57) (R 32));
  (29%nat, RLo (R 57) 61);
  (5%nat, Xo (R 25) (An (No (R 26)) (R 27)));
  (6%nat, Xo (R 26) (An (No (R 27)) (R 28)));
  (7%nat, Xo (R 27) (An (No (R 28)) (R 29)));
  (8%nat, Xo (R 28) (An (No (R 29)) (R 25)));
  (9%nat, Xo (R 29) (An (No (R 25)) (R 26)));
  (36%nat, Xo (R 36) (R 31));
  (25%nat, RLo (R 36) 1);
  (42%nat, Xo (R 42) (R 32));
  (26%nat, RLo (R 42) 6);
  (48%nat, Xo (R 48) (R 33));
  (27%nat, RLo (R 48) 25);
  (54%nat, Xo (R 54) (R 34));
  (28%nat, RLo (R 54) 8);
  (55%nat, Xo (R 55) (R 30));
  (29%nat, RLo (R 55) 18);
  (10%nat, Xo (R 25) (An (No (R 26)) (R 27)));
  (11%nat, Xo (R 26) (An (No (R 27)) (R 28)));
  (12%nat, Xo (R 27) (An (No (R 28)) (R 29)));
  (13%nat, Xo (R 28) (An (No (R 29)) (R 25)));
  (14%nat, Xo (R 29) (An (No (R 25)) (R 26)));
  (39%nat, Xo (R 39) (R 34));
  (25%nat, RLo (R 39) 27);
  (40%nat, Xo (R 40) (R 30));
  (26%nat, RLo (R 40) 36);
  (46%nat, Xo (R 46) (R 31));
  (27%nat, RLo (R 46) 10);
  (52%nat, Xo (R 52) (R 32));
  (28%nat, RLo (R 52) 15);
  (58%nat, Xo (R 58) (R 33));
  (29%nat, RLo (R 58) 56);
  (15%nat, Xo (R 25) (An (No (R 26)) (R 27)));
  (16%nat, Xo (R 26) (An (No (R 27)) (R 28)));
  (17%nat, Xo (R 27) (An (No (R 28)) (R 29)));
  (18%nat, Xo (R 28) (An (No (R 29)) (R 25)));
  (19%nat, Xo (R 29) (An (No (R 25)) (R 26)));
  (37%nat, Xo (R 37) (R 32));
  (25%nat, RLo (R 37) 62);
  (43%nat, Xo (R 43) (R 33));
  (26%nat, RLo (R 43) 55);
  (49%nat, Xo (R 49) (R 34));
  (27%nat, RLo (R 49) 39);
  (50%nat, Xo (R 50) (R 30));
  (28%nat, RLo (R 50) 41);
  (56%nat, Xo (R 56) (R 31));
  (29%nat, RLo (R 56) 2);
  (20%nat, Xo (R 25) (An (No (R 26)) (R 27)));
  (21%nat, Xo (R 26) (An (No (R 27)) (R 28)));
  (22%nat, Xo (R 27) (An (No (R 28)) (R 29)));
  (23%nat, Xo (R 28) (An (No (R 29)) (R 25)));
  (24%nat, Xo (R 29) (An (No (R 25)) (R 26)));
  (25%nat, Xo (Xo (Xo (Xo (R 0) (R 5)) (R 10)) (R 15)) (R 20));
  (26%nat, Xo (Xo (Xo (Xo (R 1) (R 6)) (R 11)) (R 16)) (R 21));
  (27%nat, Xo (Xo (Xo (Xo (R 2) (R 7)) (R 12)) (R 17)) (R 22));
  (28%nat, Xo (Xo (Xo (Xo (R 3) (R 8)) (R 13)) (R 18)) (R 23));
  (29%nat, Xo (Xo (Xo (Xo (R 4) (R 9)) (R 14)) (R 19)) (R 24));
  (30%nat, Xo (R 29) (RLo (R 26) 1));
  (31%nat, Xo (R 25) (RLo (R 27) 1));
  (32%nat, Xo (R 26) (RLo (R 28) 1));
  (33%nat, Xo (R 27) (RLo (R 29) 1));
  (34%nat, Xo (R 28) (RLo (R 25) 1));
  (0%nat, Xo (R 0) (R 30));
  (25%nat, R 0);
  (6%nat, Xo (R 6) (R 31));
  (26%nat, RLo (R 6) 44);
  (12%nat, Xo (R 12) (R 32));
  (27%nat, RLo (R 12) 43);
  (18%nat, Xo (R 18) (R 33));
  (28%nat, RLo (R 18) 21);
  (24%nat, Xo (R 24) (R 34));
  (29%nat, RLo (R 24) 14);
  (35%nat, Xo (R 25) (An (No (R 26)) (R 27)));
  (35%nat, Xo (R 35) (K 0x8000000000008002));
  (36%nat, Xo (R 26) (An (No (R 27)) (R 28)));
  (37%nat, Xo (R 27) (An (No (R 28)) (R 29)));
  (38%nat, Xo (R 28) (An (No (R 29)) (R 25)));
  (39%nat, Xo (R 29) (An (No (R 25)) (R 26)));
  (3%nat, Xo (R 3) (R 33));
  (25%nat, RLo (R 3) 28);
  (9%nat, Xo (R 9) (R 34));
  (26%nat, RLo (R 9) 20);
  (10%nat, Xo (R 10) (R 30));
  (27%nat, RLo (R 10) 3);
  (16%nat, Xo (R 16) (R 31));
  (28%nat, RLo (R 16) 45);
  (22%nat, Xo (R 22) (R 32));
  (29%nat, RLo (R 22) 61);
  (40%nat, Xo (R 25) (An (No (R 26)) (R 27)));
  (41%nat, Xo (R 26) (An (No (R 27)) (R 28)));
  (42%nat, Xo (R 27) (An (No (R 28)) (R 29)));
  (43%nat, Xo (R 28) (An (No (R 29)) (R 25)));
  (44%nat, Xo (R 29) (An (No (R 25)) (R 26)));
  (1%nat, Xo (R 1) (R 31));
  (25%nat, RLo (R 1) 1);
  (7%nat, Xo (R 7) (R 32));
  (26%nat, RLo (R 7) 6);
  (13%nat, Xo (R 13) (R 33));
  (27%nat, RLo (R 13) 25);
  (19%nat, Xo (R 19) (R 34));
  (28%nat, RLo (R 19) 8);
  (20%nat, Xo (R 20) (R 30));
  (29%nat, RLo (R 20) 18);
  (45%nat, Xo (R 25) (An (No (R 26)) (R 27)));
  (46%nat, Xo (R 26) (An (No (R 27)) (R 28)));
  (47%nat, Xo (R 27) (An (No (R 28)) (R 29)));
  (48%nat, Xo (R 28) (An (No (R 29)) (R 25)));
  (49%nat, Xo (R 29) (An (No (R 25)) (R 26)));
  (4%nat, Xo (R 4) (R 34));
  (25%nat, RLo (R 4) 27);
  (5%nat, Xo (R 5) (R 30));
  (26%nat, RLo (R 5) 36);
  (11%nat, Xo (R 11) (R 31));
  (27%nat, RLo (R 11) 10);
  (17%nat, Xo (R 17) (R 32));
  (28%nat, RLo (R 17) 15);
  (23%nat, Xo (R 23) (R 33));
  (29%nat, RLo (R 23) 56);
  (50%nat, Xo (R 25) (An (No (R 26)) (R 27)));
  (51%nat, Xo (R 26) (An (No (R 27)) (R 28)));
  (52%nat, Xo (R 27) (An (No (R 28)) (R 29)));
  (53%nat, Xo (R 28) (An (No (R 29)) (R 25)));
  (54%nat, Xo (R 29) (An (No (R 25)) (R 26)));
  (2%nat, Xo (R 2) (R 32));
  (25%nat, RLo (R 2) 62);
  (8%nat, Xo (R 8) (R 33));
  (26%nat, RLo (R 8) 55);
  (14%nat, Xo (R 14) (R 34));
  (27%nat, RLo (R 14) 39);
  (15%nat, Xo (R 15) (R 30));
  (28%nat, RLo (R 15) 41);
  (21%nat, Xo (R 21) (R 31));
  (29%nat, RLo (R 21) 2);
  (55%nat, Xo (R 25) (An (No (R 26)) (R 27)));
  (56%nat, Xo (R 26) (An (No (R 27)) (R 28)));
  (57%nat, Xo (R 27) (An (No (R 28)) (R 29)));
  (58%nat, Xo (R 28) (An (No (R 29)) (R 25)));
  (59%nat, Xo (R 29) (An (No (R 25)) (R 26)));
  (25%nat, Xo (Xo (Xo (Xo (R 35) (R 40)) (R 45)) (R 50)) (R 55));
  (26%nat, Xo (Xo (Xo (Xo (R 36) (R 41)) (R 46)) (R 51)) (R 56));
  (27%nat, Xo (Xo (Xo (Xo (R 37) (R 42)) (R 47)) (R 52)) (R 57));
  (28%nat, Xo (Xo (Xo (Xo (R 38) (R 43)) (R 48)) (R 53)) (R 58));
  (29%nat, Xo (Xo (Xo (Xo (R 39) (R 44)) (R 49)) (R 54)) (R 59));
  (30%nat, Xo (R 29) (RLo (R 26) 1));
  (31%nat, Xo (R 25) (RLo (R 27) 1));
  (32%nat, Xo (R 26) (RLo (R 28) 1));
  (33%nat, Xo (R 27) (RLo (R 29) 1));
  (34%nat, Xo (R 28) (RLo (R 25) 1));
  (35%nat, Xo (R 35) (R 30));
  (25%nat, R 35);
  (41%nat, Xo (R 41) (R 31));
  (26%nat, RLo (R 41) 44);
  (47%nat, Xo (R 47) (R 32));
  (27%nat, RLo (R 47) 43);
  (53%nat, Xo (R 53) (R 33));
  (28%nat, RLo (R 53) 21);
  (59%nat, Xo (R 59) (R 34));
  (29%nat, RLo (R 59) 14);
  (0%nat, Xo (R 25) (An (No (R 26)) (R 27)));
  (0%nat, Xo (R 0) (K 0x8000000000000080));
  (1%nat, Xo (R 26) (An (No (R 27)) (R 28)));
  (2%nat, Xo (R 27) (An (No (R 28)) (R 29)));
  (3%nat, Xo (R 28) (An (No (R 29)) (R 25)));
  (4%nat, Xo (R 29) (An (No (R 25)) (R 26)));
  (38%nat, Xo (R 38) (R 33));
  (25%nat, RLo (R 38) 28);
  (44%nat, Xo (R 44) (R 34));
  (26%nat, RLo (R 44) 20);
  (45%nat, Xo (R 45) (R 30));
  (27%nat, RLo (R 45) 3);
  (51%nat, Xo (R 51) (R 31));
  (28%nat, RLo (R 51) 45);
  (57%nat, Xo (R 57) (R 32));
  (29%nat, RLo (R 57) 61);
  (5%nat, Xo (R 25) (An (No (R 26)) (R 27)));
  (6%nat, Xo (R 26) (An (No (R 27)) (R 28)));
  (7%nat, Xo (R 27) (An (No (R 28)) (R 29)));
  (8%nat, Xo (R 28) (An (No (R 29)) (R 25)));
  (9%nat, Xo (R 29) (An (No (R 25)) (R 26)));
  (36%nat, Xo (R 36) (R 31));
  (25%nat, RLo (R 36) 1);
  (42%nat, Xo (R 42) (R 32));
  (26%nat, RLo (R 42) 6);
  (48%nat, Xo (R 48) (R 33));
  (27%nat, RLo (R 48) 25);
  (54%nat, Xo (R 54) (R 34));
  (28%nat, RLo (R 54) 8);
  (55%nat, Xo (R 55) (R 30));
  (29%nat, RLo (R 55) 18);
  (10%nat, Xo (R 25) (An (No (R 26)) (R 27)));
  (11%nat, Xo (R 26) (An (No (R 27)) (R 28)));
  (12%nat, Xo (R 27) (An (No (R 28)) (R 29)));
  (13%nat, Xo (R 28) (An (No (R 29)) (R 25)));
  (14%nat, Xo (R 29) (An (No (R 25)) (R 26)));
  (39%nat, Xo (R 39) (R 34));
  (25%nat, RLo (R 39) 27);
  (40%nat, Xo (R 40) (R 30));
  (26%nat, RLo (R 40) 36);
  (46%nat, Xo (R 46) (R 31));
  (27%nat, RLo (R 46) 10);
  (52%nat, Xo (R 52) (R 32));
  (28%nat, RLo (R 52) 15);
  (58%nat, Xo (R 58) (R 33));
  (29%nat, RLo (R 58) 56);
  (15%nat, Xo (R 25) (An (No (R 26)) (R 27)));
  (16%nat, Xo (R 26) (An (No (R 27)) (R 28)));
  (17%nat, Xo (R 27) (An (No (R 28)) (R 29)));
  (18%nat, Xo (R 28) (An (No (R 29)) (R 25)));
  (19%nat, Xo (R 29) (An (No (R 25)) (R 26)));
  (37%nat, Xo (R 37) (R 32));
  (25%nat, RLo (R 37) 62);
  (43%nat, Xo (R 43) (R 33));
  (26%nat, RLo (R 43) 55);
  (49%nat, Xo (R 49) (R 34));
  (27%nat, RLo (R 49) 39);
  (50%nat, Xo (R 50) (R 30));
  (28%nat, RLo (R 50) 41);
  (56%nat, Xo (R 56) (R 31));
  (29%nat, RLo (R 56) 2);
  (20%nat, Xo (R 25) (An (No (R 26)) (R 27)));
  (21%nat, Xo (R 26) (An (No (R 27)) (R 28)));
  (22%nat, Xo (R 27) (An (No (R 28)) (R 29)));
  (23%nat, Xo (R 28) (An (No (R 29)) (R 25)));
  (24%nat, Xo (R 29) (An (No (R 25)) (R 26)));
  (25%nat, Xo (Xo (Xo (Xo (R 0) (R 5)) (R 10)) (R 15)) (R 20));
  (26%nat, Xo (Xo (Xo (Xo (R 1) (R 6)) (R 11)) (R 16)) (R 21));
  (27%nat, Xo (Xo (Xo (Xo (R 2) (R 7)) (R 12)) (R 17)) (R 22));
  (28%nat, Xo (Xo (Xo (Xo (R 3) (R 8)) (R 13)) (R 18)) (R 23));
  (29%nat, Xo (Xo (Xo (Xo (R 4) (R 9)) (R 14)) (R 19)) (R 24));
  (30%nat, Xo (R 29) (RLo (R 26) 1));
  (31%nat, Xo (R 25) (RLo (R 27) 1));
  (32%nat, Xo (R 26) (RLo (R 28) 1));
  (33%nat, Xo (R 27) (RLo (R 29) 1));
  (34%nat, Xo (R 28) (RLo (R 25) 1));
  (0%nat, Xo (R 0) (R 30));
  (25%nat, R 0);
  (6%nat, Xo (R 6) (R 31));
  (26%nat, RLo (R 6) 44);
  (12%nat, Xo (R 12) (R 32));
  (27%nat, RLo (R 12) 43);
  (18%nat, Xo (R 18) (R 33));
  (28%nat, RLo (R 18) 21);
  (24%nat, Xo (R 24) (R 34));
  (29%nat, RLo (R 24) 14);
  (35%nat, Xo (R 25) (An (No (R 26)) (R 27)));
  (35%nat, Xo (R 35) (K 0x800A));
  (36%nat, Xo (R 26) (An (No (R 27)) (R 28)));
  (37%nat, Xo (R 27) (An (No (R 28)) (R 29)));
  (38%nat, Xo (R 28) (An (No (R 29)) (R 25)));
  (39%nat, Xo (R 29) (An (No (R 25)) (R 26)));
  (3%nat, Xo (R 3) (R 33));
  (25%nat, RLo (R 3) 28);
  (9%nat, Xo (R 9) (R 34));
  (26%nat, RLo (R 9) 20);
  (10%nat, Xo (R 10) (R 30));
  (27%nat, RLo (R 10) 3);
  (16%nat, Xo (R 16) (R 31));
  (28%nat, RLo (R 16) 45);
  (22%nat, Xo (R 22) (R 32));
  (29%nat, RLo (R 22) 61);
  (40%nat, Xo (R 25) (An (No (R 26)) (R 27)));
  (41%nat, Xo (R 26) (An (No (R 27)) (R 28)));
  (42%nat, Xo (R 27) (An (No (R 28)) (R 29)));
  (43%nat, Xo (R 28) (An (No (R 29)) (R 25)));
  (44%nat, Xo (R 29) (An (No (R 25)) (R 26)));
  (1%nat, Xo (R 1) (R 31));
  (25%nat, RLo (R 1) 1);
  (7%nat, Xo (R 7) (R 32));
  (26%nat, RLo (R 7) 6);
  (13%nat, Xo (R 13) (R 33));
  (27%nat, RLo (R 13) 25);
  (19%nat, Xo (R 19) (R 34));
  (28%nat, RLo (R 19) 8);
  (20%nat, Xo (R 20) (R 30));
  (29%nat, RLo (R 20) 18);
  (45%nat, Xo (R 25) (An (No (R 26)) (R 27)));
  (46%nat, Xo (R 26) (An (No (R 27)) (R 28)));
  (47%nat, Xo (R 27) (An (No (R 28)) (R 29)));
  (48%nat, Xo (R 28) (An (No (R 29)) (R 25)));
  (49%nat, Xo (R 29) (An (No (R 25)) (R 26)));
  (4%nat, Xo (R 4) (R 34));
  (25%nat, RLo (R 4) 27);
  (5%nat, Xo (R 5) (R 30));
  (26%nat, RLo (R 5) 36);
  (11%nat, Xo (R 11) (R 31));
  (27%nat, RLo (R 11) 10);
  (17%nat, Xo (R 17) (R 32));
  (28%nat, RLo (R 17) 15);
  (23%nat, Xo (R 23) (R 33));
  (29%nat, RLo (R 23) 56);
  (50%nat, Xo (R 25) (An (No (R 26)) (R 27)));
  (51%nat, Xo (R 26) (An (No (R 27)) (R 28)));
  (52%nat, Xo (R 27) (An (No (R 28)) (R 29)));
  (53%nat, Xo (R 28) (An (No (R 29)) (R 25)));
  (54%nat, Xo (R 29) (An (No (R 25)) (R 26)));
  (2%nat, Xo (R 2) (R 32));
  (25%nat, RLo (R 2) 62);
  (8%nat, Xo (R 8) (R 33));
  (26%nat, RLo (R 8) 55);
  (14%nat, Xo (R 14) (R 34));
  (27%nat, RLo (R 14) 39);
  (15%nat, Xo (R 15) (R 30));
  (28%nat, RLo (R 15) 41);
  (21%nat, Xo (R 21) (R 31));
  (29%nat, RLo (R 21) 2);
  (55%nat, Xo (R 25) (An (No (R 26)) (R 27)));
  (56%nat, Xo (R 26) (An (No (R 27)) (R 28)));
  (57%nat, Xo (R 27) (An (No (R 28)) (R 29)));
  (58%nat, Xo (R 28) (An (No (R 29)) (R 25)));
  (59%nat, Xo (R 29) (An (No (R 25)) (R 26)));
  (25%nat, Xo (Xo (Xo (Xo (R 35) (R 40)) (R 45)) (R 50)) (R 55));
  (26%nat, Xo (Xo (Xo (Xo (R 36) (R 41)) (R 46)) (R 51)) (R 56));
  (27%nat, Xo (Xo (Xo (Xo (R 37) (R 42)) (R 47)) (R 52)) (R 57));
  (28%nat, Xo (Xo (Xo (Xo (R 38) (R 43)) (R 48)) (R 53)) (R 58));
  (29%nat, Xo (Xo (Xo (Xo (R 39) (R 44)) (R 49)) (R 54)) (R 59));
  (30%nat, Xo (R 29) (RLo (R 26) 1));
  (31%nat, Xo (R 25) (RLo (R 27) 1));
  (32%nat, Xo (R 26) (RLo (R 28) 1));
  (33%nat, Xo (R 27) (RLo (R 29) 1));
  (34%nat, Xo (R 28) (RLo (R 25) 1));
  (35%nat, Xo (R 35) (R 30));
  (25%nat, R 35);
  (41%nat, Xo (R 41) (R 31));
  (26%nat, RLo (R 41) 44);
  (47%nat, Xo (R 47) (R 32));
  (27%nat, RLo (R 47) 43);
  (53%nat, Xo (R 53) (R 33));
  (28%nat, RLo (R 53) 21);
  (59%nat, Xo (R 59) (R 34));
  (29%nat, RLo (R 59) 14);
  (0%nat, Xo (R 25) (An (No (R 26)) (R 27)));
  (0%nat, Xo (R 0) (K 0x800000008000000A));
  (1%nat, Xo (R 26) (An (No (R 27)) (R 28)));
  (2%nat, Xo (R 27) (An (No (R 28)) (R 29)));
  (3%nat, Xo (R 28) (An (No (R 29)) (R 25)));
  (4%nat, Xo (R 29) (An (No (R 25)) (R 26)));
  (38%nat, Xo (R 38) (R 33));
  (25%nat, RLo (R 38) 28);
  (44%nat, Xo (R 44) (R 34));
  (26%nat, RLo (R 44) 20);
  (45%nat, Xo (R 45) (R 30));
  (27%nat, RLo (R 45) 3);
  (51%nat, Xo (R 51) (R 31));
  (28%nat, RLo (R 51) 45);
  (57%nat, Xo (R 57) (R 32));
  (29%nat, RLo (R 57) 61);
  (5%nat, Xo (R 25) (An (No (R 26)) (R 27)));
  (6%nat, Xo (R 26) (An (No (R 27)) (R 28)));
  (7%nat, Xo (R 27) (An (No (R 28)) (R 29)));
  (8%nat, Xo (R 28) (An (No (R 29)) (R 25)));
  (9%nat, Xo (R 29) (An (No (R 25)) (R 26)));
  (36%nat, Xo (R 36) (R 31));
  (25%nat, RLo (R 36) 1);
  (42%nat, Xo (R 42) (R 32));
  (26%nat, RLo (R 42) 6);
  (48%nat, Xo (R 48) (R 33));
  (27%nat, RLo (R 48) 25);
  (54%nat, Xo (R 54) (R 34));
  (28%nat, RLo (R 54) 8);
  (55%nat, Xo (R 55) (R 30));
  (29%nat, RLo (R 55) 18);
  (10%nat, Xo (R 25) (An (No (R 26)) (R 27)));
  (11%nat, Xo (R 26) (An (No (R 27)) (R 28)));
  (12%nat, Xo (R 27) (An (No (R 28)) (R 29)));
  (13%nat, Xo (R 28) (An (No (R 29)) (R 25)));
  (14%nat, Xo (R 29) (An (No (R 25)) (R 26)));
  (39%nat, Xo (R 39) (R 34));
  (25%nat, RLo (R 39) 27);
  (40%nat, Xo (R 40) (R 30));
  (26%nat, RLo (R 40) 36);
  (46%nat, Xo (R 46) (R 31));
  (27%nat, RLo (R 46) 10);
  (52%nat, Xo (R 52) (R 32));
  (28%nat, RLo (R 52) 15);
  (58%nat, Xo (R 58) (R 33));
  (29%nat, RLo (R 58) 56);
  (15%nat, Xo (R 25) (An (No (R 26)) (R 27)));
  (16%nat, Xo (R 26) (An (No (R 27)) (R 28)));
  (17%nat, Xo (R 27) (An (No (R 28)) (R 29)));
  (18%nat, Xo (R 28) (An (No (R 29)) (R 25)));
  (19%nat, Xo (R 29) (An (No (R 25)) (R 26)));
  (37%nat, Xo (R 37) (R 32));
  (25%nat, RLo (R 37) 62);
  (43%nat, Xo (R 43) (R 33));
  (26%nat, RLo (R 43) 55);
  (49%nat, Xo (R 49) (R 34));
  (27%nat, RLo (R 49) 39);
  (50%nat, Xo (R 50) (R 30));
  (28%nat, RLo (R 50) 41);
  (56%nat, Xo (R 56) (R 31));
  (29%nat, RLo (R 56) 2);
  (20%nat, Xo (R 25) (An (No (R 26)) (R 27)));
  (21%nat, Xo (R 26) (An (No (R 27)) (R 28)));
  (22%nat, Xo (R 27) (An (No (R 28)) (R 29)));
  (23%nat, Xo (R 28) (An (No (R 29)) (R 25)));
  (24%nat, Xo (R 29) (An (No (R 25)) (R 26)));
  (25%nat, Xo (Xo (Xo (Xo (R 0) (R 5)) (R 10)) (R 15)) (R 20));
  (26%nat, Xo (Xo (Xo (Xo (R 1) (R 6)) (R 11)) (R 16)) (R 21));
  (27%nat, Xo (Xo (Xo (Xo (R 2) (R 7)) (R 12)) (R 17)) (R 22));
  (28%nat, Xo (Xo (Xo (Xo (R 3) (R 8)) (R 13)) (R 18)) (R 23));
  (29%nat, Xo (Xo (Xo (Xo (R 4) (R 9)) (R 14)) (R 19)) (R 24));
  (30%nat, Xo (R 29) (RLo (R 26) 1));
  (31%nat, Xo (R 25) (RLo (R 27) 1));
  (32%nat, Xo (R 26) (RLo (R 28) 1));
  (33%nat, Xo (R 27) (RLo (R 29) 1));
  (34%nat, Xo (R 28) (RLo (R 25) 1));
  (0%nat, Xo (R 0) (R 30));
  (25%nat, R 0);
  (6%nat, Xo (R 6) (R 31));
  (26%nat, RLo (R 6) 44);
  (12%nat, Xo (R 12) (R 32));
  (27%nat, RLo (R 12) 43);
  (18%nat, Xo (R 18) (R 33));
  (28%nat, RLo (R 18) 21);
  (24%nat, Xo (R 24) (R 34));
  (29%nat, RLo (R 24) 14);
  (35%nat, Xo (R 25) (An (No (R 26)) (R 27)));
  (35%nat, Xo (R 35) (K 0x8000000080008081));
  (36%nat, Xo (R 26) (An (No (R 27)) (R 28)));
  (37%nat, Xo (R 27) (An (No (R 28)) (R 29)));
  (38%nat, Xo (R 28) (An (No (R 29)) (R 25)));
  (39%nat, Xo (R 29) (An (No (R 25)) (R 26)));
  (3%nat, Xo (R 3) (R 33));
  (25%nat, RLo (R 3) 28);
  (9%nat, Xo (R 9) (R 34));
  (26%nat, RLo (R 9) 20);
  (10%nat, Xo (R 10) (R 30));
  (27%nat, RLo (R 10) 3);
  (16%nat, Xo (R 16) (R 31));
  (28%nat, RLo (R 16) 45);
  (22%nat, Xo (R 22) (R 32));
  (29%nat, RLo (R 22) 61);
  (40%nat, Xo (R 25) (An (No (R 26)) (R 27)));
  (41%nat, Xo (R 26) (An (No (R 27)) (R 28)));
  (42%nat, Xo (R 27) (An (No (R 28)) (R 29)));
  (43%nat, Xo (R 28) (An (No (R 29)) (R 25)));
  (44%nat, Xo (R 29) (An (No (R 25)) (R 26)));
  (1%nat, Xo (R 1) (R 31));
  (25%nat, RLo (R 1) 1);
  (7%nat, Xo (R 7) (R 32));
  (26%nat, RLo (R 7) 6);
  (13%nat, Xo (R 13) (R 33));
  (27%nat, RLo (R 13) 25);
  (19%nat, Xo (R 19) (R 34));
  (28%nat, RLo (R 19) 8);
  (20%nat, Xo (R 20) (R 30));
  (29%nat, RLo (R 20) 18);
  (45%nat, Xo (R 25) (An (No (R 26)) (R 27)));
  (46%nat, Xo (R 26) (An (No (R 27)) (R 28)));
  (47%nat, Xo (R 27) (An (No (R 28)) (R 29)));
  (48%nat, Xo (R 28) (An (No (R 29)) (R 25)));
  (49%nat, Xo (R 29) (An (No (R 25)) (R 26)));
  (4%nat, Xo (R 4) (R 34));
  (25%nat, RLo (R 4) 27);
  (5%nat, Xo (R 5) (R 30));
  (26%nat, RLo (R 5) 36);
  (11%nat, Xo (R 11) (R 31));
  (27%nat, RLo (R 11) 10);
  (17%nat, Xo (R 17) (R 32));
  (28%nat, RLo (R 17) 15);
  (23%nat, Xo (R 23) (R 33));
  (29%nat, RLo (R 23) 56);
  (50%nat, Xo (R 25) (An (No (R 26)) (R 27)));
  (51%nat, Xo (R 26) (An (No (R 27)) (R 28)));
  (52%nat, Xo (R 27) (An (No (R 28)) (R 29)));
  (53%nat, Xo (R 28) (An (No (R 29)) (R 25)));
  (54%nat, Xo (R 29) (An (No (R 25)) (R 26)));
  (2%nat, Xo (R 2) (R 32));
  (25%nat, RLo (R 2) 62);
  (8%nat, Xo (R 8) (R 33));
  (26%nat, RLo (R 8) 55);
  (14%nat, Xo (R 14) (R 34));
  (27%nat, RLo (R 14) 39);
  (15%nat, Xo (R 15) (R 30));
  (28%nat, RLo (R 15) 41);
  (21%nat, Xo (R 21) (R 31));
  (29%nat, RLo (R 21) 2);
  (55%nat, Xo (R 25) (An (No (R 26)) (R 27)));
  (56%nat, Xo (R 26) (An (No (R 27)) (R 28)));
  (57%nat, Xo (R 27) (An (No (R 28)) (R 29)));
  (58%nat, Xo (R 28) (An (No (R 29)) (R 25)));
  (59%nat, Xo (R 29) (An (No (R 25)) (R 26)));
  (25%nat, Xo (Xo (Xo (Xo (R 35) (R 40)) (R 45)) (R 50)) (R 55));
  (26%nat, Xo (Xo (Xo (Xo (R 36) (R 41)) (R 46)) (R 51)) (R 56));
  (27%nat, Xo (Xo (Xo (Xo (R 37) (R 42)) (R 47)) (R 52)) (R 57));
  (28%nat, Xo (Xo (Xo (Xo (R 38) (R 43)) (R 48)) (R 53)) (R 58));
  (29%nat, Xo (Xo (Xo (Xo (R 39) (R 44)) (R 49)) (R 54)) (R 59));
  (30%nat, Xo (R 29) (RLo (R 26) 1));
  (31%nat, Xo (R 25) (RLo (R 27) 1));
  (32%nat, Xo (R 26) (RLo (R 28) 1));
  (33%nat, Xo (R 27) (RLo (R 29) 1));
  (34%nat, Xo (R 28) (RLo (R 25) 1));
  (35%nat, Xo (R 35) (R 30));
  (25%nat, R 35);
  (41%nat, Xo (R 41) (R 31));
  (26%nat, RLo (R 41) 44);
  (47%nat, Xo (R 47) (R 32));
  (27%nat, RLo (R 47) 43);
  (53%nat, Xo (R 53) (R 33));
  (28%nat, RLo (R 53) 21);
  (59%nat, Xo (R 59) (R 34));
  (29%nat, RLo (R 59) 14);
  (0%nat, Xo (R 25) (An (No (R 26)) (R 27)));
  (0%nat, Xo (R 0) (K 0x8000000000008080));
  (1%nat, Xo (R 26) (An (No (R 27)) (R 28)));
  (2%nat, Xo (R 27) (An (No (R 28)) (R 29)));
  (3%nat, Xo (R 28) (An (No (R 29)) (R 25)));
  (4%nat, Xo (R 29) (An (No (R 25)) (R 26)));
  (38%nat, Xo (R 38) (R 33));
  (25%nat, RLo (R 38) 28);
  (44%nat, Xo (R 44) (R 34));
  (26%nat, RLo (R 44) 20);
  (45%nat, Xo (R 45) (R 30));
  (27%nat, RLo (R 45) 3);
  (51%nat, Xo (R 51) (R 31));
  (28%nat, RLo (R 51) 45);
  (57%nat, Xo (R 57) (R 32));
  (29%nat, RLo (R 57) 61);
  (5%nat, Xo (R 25) (An (No (R 26)) (R 27)));
  (6%nat, Xo (R 26) (An (No (R 27)) (R 28)));
  (7%nat, Xo (R 27) (An (No (R 28)) (R 29)));
  (8%nat, Xo (R 28) (An (No (R 29)) (R 25)));
  (9%nat, Xo (R 29) (An (No (R 25)) (R 26)));
  (36%nat, Xo (R 36) (R 31));
  (25%nat, RLo (R 36) 1);
  (42%nat, Xo (R 42) (R 32));
  (26%nat, RLo (R 42) 6);
  (48%nat, Xo (R 48) (R 33));
  (27%nat, RLo (R 48) 25);
  (54%nat, Xo (R 54) (R 34));
  (28%nat, RLo (R 54) 8);
  (55%nat, Xo (R 55) (R 30));
  (29%nat, RLo (R 55) 18);
  (10%nat, Xo (R 25) (An (No (R 26)) (R 27)));
  (11%nat, Xo (R 26) (An (No (R 27)) (R 28)));
  (12%nat, Xo (R 27) (An (No (R 28)) (R 29)));
  (13%nat, Xo (R 28) (An (No (R 29)) (R 25)));
  (14%nat, Xo (R 29) (An (No (R 25)) (R 26)));
  (39%nat, Xo (R 39) (R 34));
  (25%nat, RLo (R 39) 27);
  (40%nat, Xo (R 40) (R 30));
  (26%nat, RLo (R 40) 36);
  (46%nat, Xo (R 46) (R 31));
  (27%nat, RLo (R 46) 10);
  (52%nat, Xo (R 52) (R 32));
  (28%nat, RLo (R 52) 15);
  (58%nat, Xo (R 58) (R 33));
  (29%nat, RLo (R 58) 56);
  (15%nat, Xo (R 25) (An (No (R 26)) (R 27)));
  (16%nat, Xo (R 26) (An (No (R 27)) (R 28)));
  (17%nat, Xo (R 27) (An (No (R 28)) (R 29)));
  (18%nat, Xo (R 28) (An (No (R 29)) (R 25)));
  (19%nat, Xo (R 29) (An (No (R 25)) (R 26)));
  (37%nat, Xo (R 37) (R 32));
  (25%nat, RLo (R 37) 62);
  (43%nat, Xo (R 43) (R 33));
  (26%nat, RLo (R 43) 55);
  (49%nat, Xo (R 49) (R 34));
  (27%nat, RLo (R 49) 39);
  (50%nat, Xo (R 50) (R 30));
  (28%nat, RLo (R 50) 41);
  (56%nat, Xo (R 56) (R 31));
  (29%nat, RLo (R 56) 2);
  (20%nat, Xo (R 25) (An (No (R 26)) (R 27)));
  (21%nat, Xo (R 26) (An (No (R 27)) (R 28)));
  (22%nat, Xo (R 27) (An (No (R 28)) (R 29)));
  (23%nat, Xo (R 28) (An (No (R 29)) (R 25)));
  (24%nat, Xo (R 29) (An (No (R 25)) (R 26)));
  (25%nat, Xo (Xo (Xo (Xo (R 0) (R 5)) (R 10)) (R 15)) (R 20));
  (26%nat, Xo (Xo (Xo (Xo (R 1) (R 6)) (R 11)) (R 16)) (R 21));
  (27%nat, Xo (Xo (Xo (Xo (R 2) (R 7)) (R 12)) (R 17)) (R 22));
  (28%nat, Xo (Xo (Xo (Xo (R 3) (R 8)) (R 13)) (R 18)) (R 23));
  (29%nat, Xo (Xo (Xo (Xo (R 4) (R 9)) (R 14)) (R 19)) (R 24));
  (30%nat, Xo (R 29) (RLo (R 26) 1));
  (31%nat, Xo (R 25) (RLo (R 27) 1));
  (32%nat, Xo (R 26) (RLo (R 28) 1));
  (33%nat, Xo (R 27) (RLo (R 29) 1));
  (34%nat, Xo (R 28) (RLo (R 25) 1));
  (0%nat, Xo (R 0) (R 30));
  (25%nat, R 0);
  (6%nat, Xo (R 6) (R 31));
  (26%nat, RLo (R 6) 44);
  (12%nat, Xo (R 12) (R 32));
  (27%nat, RLo (R 12) 43);
  (18%nat, Xo (R 18) (R 33));
  (28%nat, RLo (R 18) 21);
  (24%nat, Xo (R 24) (R 34));
  (29%nat, RLo (R 24) 14);
  (35%nat, Xo (R 25) (An (No (R 26)) (R 27)));
  (35%nat, Xo (R 35) (K 0x80000001));
  (36%nat, Xo (R 26) (An (No (R 27)) (R 28)));
  (37%nat, Xo (R 27) (An (No (R 28)) (R 29)));
  (38%nat, Xo (R 28) (An (No (R 29)) (R 25)));
  (39%nat, Xo (R 29) (An (No (R 25)) (R 26)));
  (3%nat, Xo (R 3) (R 33));
  (25%nat, RLo (R 3) 28);
  (9%nat, Xo (R 9) (R 34));
  (26%nat, RLo (R 9) 20);
  (10%nat, Xo (R 10) (R 30));
  (27%nat, RLo (R 10) 3);
  (16%nat, Xo (R 16) (R 31));
  (28%nat, RLo (R 16) 45);
  (22%nat, Xo (R 22) (R 32));
  (29%nat, RLo (R 22) 61);
  (40%nat, Xo (R 25) (An (No (R 26)) (R 27)));
  (41%nat, Xo (R 26) (An (No (R 27)) (R 28)));
  (42%nat, Xo (R 27) (An (No (R 28)) (R 29)));
  (43%nat, Xo (R 28) (An (No (R 29)) (R 25)));
  (44%nat, Xo (R 29) (An (No (R 25)) (R 26)));
  (1%nat, Xo (R 1) (R 31));
  (25%nat, RLo (R 1) 1);
  (7%nat, Xo (R 7) (R 32));
  (26%nat, RLo (R 7) 6);
  (13%nat, Xo (R 13) (R 33));
  (27%nat, RLo (R 13) 25);
  (19%nat, Xo (R 19) (R 34));
  (28%nat, RLo (R 19) 8);
  (20%nat, Xo (R 20) (R 30));
  (29%nat, RLo (R 20) 18);
  (45%nat, Xo (R 25) (An (No (R 26)) (R 27)));
  (46%nat, Xo (R 26) (An (No (R 27)) (R 28)));
  (47%nat, Xo (R 27) (An (No (R 28)) (R 29)));
  (48%nat, Xo (R 28) (An (No (R 29)) (R 25)));
  (49%nat, Xo (R 29) (An (No (R 25)) (R 26)));
  (4%nat, Xo (R 4) (R 34));
  (25%nat, RLo (R 4) 27);
  (5%nat, Xo (R 5) (R 30));
  (26%nat, RLo (R 5) 36);
  (11%nat, Xo (R 11) (R 31));
  (27%nat, RLo (R 11) 10);
  (17%nat, Xo (R 17) (R 32));
  (28%nat, RLo (R 17) 15);
  (23%nat, Xo (R 23) (R 33));
  (29%nat, RLo (R 23) 56);
  (50%nat, Xo (R 25) (An (No (R 26)) (R 27)));
  (51%nat, Xo (R 26) (An (No (R 27)) (R 28)));
  (52%nat, Xo (R 27) (An (No (R 28)) (R 29)));
  (53%nat, Xo (R 28) (An (No (R 29)) (R 25)));
  (54%nat, Xo (R 29) (An (No (R 25)) (R 26)));
  (2%nat, Xo (R 2) (R 32));
  (25%nat, RLo (R 2) 62);
  (8%nat, Xo (R 8) (R 33));
  (26%nat, RLo (R 8) 55);
  (14%nat, Xo (R 14) (R 34));
  (27%nat, RLo (R 14) 39);
  (15%nat, Xo (R 15) (R 30));
  (28%nat, RLo (R 15) 41);
  (21%nat, Xo (R 21) (R 31));
  (29%nat, RLo (R 21) 2);
  (55%nat, Xo (R 25) (An (No (R 26)) (R 27)));
  (56%nat, Xo (R 26) (An (No (R 27)) (R 28)));
  (57%nat, Xo (R 27) (An (No (R 28)) (R 29)));
  (58%nat, Xo (R 28) (An (No (R 29)) (R 25)));
  (59%nat, Xo (R 29) (An (No (R 25)) (R 26)));
  (25%nat, Xo (Xo (Xo (Xo (R 35) (R 40)) (R 45)) (R 50)) (R 55));
  (26%nat, Xo (Xo (Xo (Xo (R 36) (R 41)) (R 46)) (R 51)) (R 56));
  (27%nat, Xo (Xo (Xo (Xo (R 37) (R 42)) (R 47)) (R 52)) (R 57));
  (28%nat, Xo (Xo (Xo (Xo (R 38) (R 43)) (R 48)) (R 53)) (R 58));
  (29%nat, Xo (Xo (Xo (Xo (R 39) (R 44)) (R 49)) (R 54)) (R 59));
  (30%nat, Xo (R 29) (RLo (R 26) 1));
  (31%nat, Xo (R 25) (RLo (R 27) 1));
  (32%nat, Xo (R 26) (RLo (R 28) 1));
  (33%nat, Xo (R 27) (RLo (R 29) 1));
  (34%nat, Xo (R 28) (RLo (R 25) 1));
  (35%nat, Xo (R 35) (R 30));
  (25%nat, R 35);
  (41%nat, Xo (R 41) (R 31));
  (26%nat, RLo (R 41) 44);
  (47%nat, Xo (R 47) (R 32));
  (27%nat, RLo (R 47) 43);
  (53%nat, Xo (R 53) (R 33));
  (28%nat, RLo (R 53) 21);
  (59%nat, Xo (R 59) (R 34));
  (29%nat, RLo (R 59) 14);
  (0%nat, Xo (R 25) (An (No (R 26)) (R 27)));
  (0%nat, Xo (R 0) (K 0x8000000080008008));
  (1%nat, Xo (R 26) (An (No (R 27)) (R 28)));
  (2%nat, Xo (R 27) (An (No (R 28)) (R 29)));
  (3%nat, Xo (R 28) (An (No (R 29)) (R 25)));
  (4%nat, Xo (R 29) (An (No (R 25)) (R 26)));
  (38%nat, Xo (R 38) (R 33));
  (25%nat, RLo (R 38) 28);
  (44%nat, Xo (R 44) (R 34));
  (26%nat, RLo (R 44) 20);
  (45%nat, Xo (R 45) (R 30));
  (27%nat, RLo (R 45) 3);
  (51%nat, Xo (R 51) (R 31));
  (28%nat, RLo (R 51) 45);
  (57%nat, Xo (R 57) (R 32));
  (29%nat, RLo (R 57) 61);
  (5%nat, Xo (R 25) (An (No (R 26)) (R 27)));
  (6%nat, Xo (R 26) (An (No (R 27)) (R 28)));
  (7%nat, Xo (R 27) (An (No (R 28)) (R 29)));
  (8%nat, Xo (R 28) (An (No (R 29)) (R 25)));
  (9%nat, Xo (R 29) (An (No (R 25)) (R 26)));
  (36%nat, Xo (R 36) (R 31));
  (25%nat, RLo (R 36) 1);
  (42%nat, Xo (R 42) (R 32));
  (26%nat, RLo (R 42) 6);
  (48%nat, Xo (R 48) (R 33));
  (27%nat, RLo (R 48) 25);
  (54%nat, Xo (R 54) (R 34));
  (28%nat, RLo (R 54) 8);
  (55%nat, Xo (R 55) (R 30));
  (29%nat, RLo (R 55) 18);
  (10%nat, Xo (R 25) (An (No (R 26)) (R 27)));
  (11%nat, Xo (R 26) (An (No (R 27)) (R 28)));
  (12%nat, Xo (R 27) (An (No (R 28)) (R 29)));
  (13%nat, Xo (R 28) (An (No (R 29)) (R 25)));
  (14%nat, Xo (R 29) (An (No (R 25)) (R 26)));
  (39%nat, Xo (R 39) (R 34));
  (25%nat, RLo (R 39) 27);
  (40%nat, Xo (R 40) (R 30));
  (26%nat, RLo (R 40) 36);
  (46%nat, Xo (R 46) (R 31));
  (27%nat, RLo (R 46) 10);
  (52%nat, Xo (R 52) (R 32));
  (28%nat, RLo (R 52) 15);
  (58%nat, Xo (R 58) (R 33));
  (29%nat, RLo (R 58) 56);
  (15%nat, Xo (R 25) (An (No (R 26)) (R 27)));
  (16%nat, Xo (R 26) (An (No (R 27)) (R 28)));
  (17%nat, Xo (R 27) (An (No (R 28)) (R 29)));
  (18%nat, Xo (R 28) (An (No (R 29)) (R 25)));
  (19%nat, Xo (R 29) (An (No (R 25)) (R 26)));
  (37%nat, Xo (R 37) (R 32));
  (25%nat, RLo (R 37) 62);
  (43%nat, Xo (R 43) (R 33));
  (26%nat, RLo (R 43) 55);
  (49%nat, Xo (R 49) (R 34));
  (27%nat, RLo (R 49) 39);
  (50%nat, Xo (R 50) (R 30));
  (28%nat, RLo (R 50) 41);
  (56%nat, Xo (R 56) (R 31));
  (29%nat, RLo (R 56) 2);
  (20%nat, Xo (R 25) (An (No (R 26)) (R 27)));
  (21%nat, Xo (R 26) (An (No (R 27)) (R 28)));
  (22%nat, Xo (R 27) (An (No (R 28)) (R 29)));
  (23%nat, Xo (R 28) (An (No (R 29)) (R 25)));
  (24%nat, Xo (R 29) (An (No (R 25)) (R 26)));
  (60%nat, R 0);
  (61%nat, R 1);
  (62%nat, R 2);
  (63%nat, R 3);
  (64%nat, R 4);
  (65%nat, R 5);
  (66%nat, R 6);
  (67%nat, R 7);
  (68%nat, R 8);
  (69%nat, R 9);
  (70%nat, R 10);
  (71%nat, R 11);
  (72%nat, R 12);
  (73%nat, R 13);
  (74%nat, R 14);
  (75%nat, R 15);
  (76%nat, R 16);
  (77%nat, R 17);
  (78%nat, R 18);
  (79%nat, R 19);
  (80%nat, R 20);
  (81%nat, R 21);
  (82%nat, R 22);
  (83%nat, R 23);
  (84%nat, R 24)
].

(** CEX/Keccak.h:3063-7351, body of Keccak::PermuteR48P1600U: generated by tools/straight.py, one entry per statement.
    Registers: 0=Aba, 1=Abe, 2=Abi, 3=Abo, 4=Abu, 5=Aga, 6=Age, 7=Agi, 8=Ago, 9=Agu, 10=Aka, 11=Ake, 12=Aki, 13=Ako, 14=Aku, 15=Ama, 16=Ame, 17=Ami, 18=Amo, 19=Amu, 20=Asa, 21=Ase, 22=Asi, 23=Aso, 24=Asu, 25=Ca, 26=Ce, 27=Ci, 28=Co, 29=Cu, 30=Da, 31=De, 32=Di, 33=Do, 34=Du, 35=Eba, 36=Ebe, 37=Ebi, 38=Ebo, 39=Ebu, 40=Ega, 41=Ege, 42=Egi, 43=Ego, 44=Egu, 45=Eka, 46=Eke, 47=Eki, 48=Eko, 49=Eku, 50=Ema, 51=Eme, 52=Emi, 53=Emo, 54=Emu, 55=Esa, 56=Ese, 57=Esi, 58=Eso, 59=Esu, 60=State[0], 61=State[1], 62=State[2], 63=State[3], 64=State[4], 65=State[5], 66=State[6], 67=State[7], 68=State[8], 69=State[9], 70=State[10], 71=State[11], 72=State[12], 73=State[13], 74=State[14], 75=State[15], 76=State[16], 77=State[17], 78=State[18], 79=State[19], 80=State[20], 81=State[21], 82=State[22], 83=State[23], 84=State[24]. *)
Definition keccak48_U : prog := [
  (0%nat, R 60);
  (1%nat, R 61);
  (2%nat, R 62);
  (3%nat, R 63);
  (4%nat, R 64);
  (5%nat, R 65);
  (6%nat, R 66);
  (7%nat, R 67);
  (8%nat, R 68);
  (9%nat, R 69);
  (10%nat, R 70);
  (11%nat, R 71);
  (12%nat, R 72);
  (13%nat, R 73);
  (14%nat, R 74);
  (15%nat, R 75);
  (16%nat, R 76);
  (17%nat, R 77);
  (18%nat, R 78);
  (19%nat, R 79);
  (20%nat, R 80);
  (21%nat, R 81);
  (22%nat, R 82);
  (23%nat, R 83);
  (24%nat, R 84);
  (25%nat, Xo (Xo (Xo (Xo (R 0) (R 5)) (R 10)) (R 15)) (R 20));
  (26%nat, Xo (Xo (Xo (Xo (R 1) (R 6)) (R 11)) (R 16)) (R 21));
  (27%nat, Xo (Xo (Xo (Xo (R 2) (R 7)) (R 12)) (R 17)) (R 22));
  (28%nat, Xo (Xo (Xo (Xo (R 3) (R 8)) (R 13)) (R 18)) (R 23));
  (29%nat, Xo (Xo (Xo (Xo (R 4) (R 9)) (R 14)) (R 19)) (R 24));
  (30%nat, Xo (R 29) (RLo (R 26) 1));
  (31%nat, Xo (R 25) (RLo (R 27) 1));
  (32%nat, Xo (R 26) (RLo (R 28) 1));
  (33%nat, Xo (R 27) (RLo (R 29) 1));
  (34%nat, Xo (R 28) (RLo (R 25) 1));
  (0%nat, Xo (R 0) (R 30));
  (25%nat, R 0);
  (6%nat, Xo (R 6) (R 31));
  (26%nat, RLo (R 6) 44);
  (12%nat, Xo (R 12) (R 32));
  (27%nat, RLo (R 12) 43);
  (18%nat, Xo (R 18) (R 33));
  (28%nat, RLo (R 18) 21);
  (24%nat, Xo (R 24) (R 34));
  (29%nat, RLo (R 24) 14);
  (35%nat, Xo (R 25) (An (No (R 26)) (R 27)));
  (35%nat, Xo (R 35) (K 0x1));
  (36%nat, Xo (R 26) (An (No (R 27)) (R 28)));
  (37%nat, Xo (R 27) (An (No (R 28)) (R 29)));
  (38%nat, Xo (R 28) (An (No (R 29)) (R 25)));
  (39%nat, Xo (R 29) (An (No (R 25)) (R 26)));
  (3%nat, Xo (R 3) (R 33));
  (25%nat, RLo (R 3) 28);
  (9%nat, Xo (R 9) (R 34));
  (26%nat, RLo (R 9) 20);
  (10%nat, Xo (R 10) (R 30));
  (27%nat, RLo (R 10) 3);
  (16%nat, Xo (R 16) (R 31));
  (28%nat, RLo (R 16) 45);
  (22%nat, Xo (R 22) (R 32));
  (29%nat, RLo (R 22) 61);
  (40%nat, Xo (R 25) (An (No (R 26)) (R 27)));
  (41%nat, Xo (R 26) (An (No (R 27)) (R 28)));
  (42%nat, Xo (R 27) (An (No (R 28)) (R 29)));
  (43%nat, Xo (R 28) (An (No (R 29)) (R 25)));
  (44%nat, Xo (R 29) (An (No (R 25)) (R 26)));
  (1%nat, Xo (R 1) (R 31));
  (25%nat, RLo (R 1) 1);
  (7%nat, Xo (R 7) (R 32));
  (26%nat, RLo (R 7) 6);
  (13%nat, Xo (R 13) (R 33));
  (27%nat, RLo (R 13) 25);
  (19%nat, Xo (R 19) (R 34));
  (28%nat, RLo (R 19) 8);
  (20%nat, Xo (R 20) (R 30));
  (29%nat, RLo (R 20) 18);
  (45%nat, Xo (R 25) (An (No (R 26)) (R 27)));
  (46%nat, Xo (R 26) (An (No (R 27)) (R 28)));
  (47%nat, Xo (R 27) (An (No (R 28)) (R 29)));
  (48%nat, Xo (R 28) (An (No (R 29)) (R 25)));
  (49%nat, Xo (R 29) (An (No (R 25)) (R 26)));
  (4%nat, Xo (R 4) (R 34));
  (25%nat, RLo (R 4) 27);
  (5%nat, Xo (R 5) (R 30));
  (26%nat, RLo (R 5) 36);
  (11%nat, Xo (R 11) (R 31));
  (27%nat, RLo (R 11) 10);
  (17%nat, Xo (R 17) (R 32));
  (28%nat, RLo (R 17) 15);
  (23%nat, Xo (R 23) (R 33));
  (29%nat, RLo (R 23) 56);
  (50%nat, Xo (R 25) (An (No (R 26)) (R 27)));
  (51%nat, Xo (R 26) (An (No (R 27)) (R 28)));
  (52%nat, Xo (R 27) (An (No (R 28)) (R 29)));
  (53%nat, Xo (R 28) (An (No (R 29)) (R 25)));
  (54%nat, Xo (R 29) (An (No (R 25)) (R 26)));
  (2%nat, Xo (R 2) (R 32));
  (25%nat, RLo (R 2) 62);
  (8%nat, Xo (R 8) (R 33));
  (26%nat, RLo (R 8) 55);
  (14%nat, Xo (R 14) (R 34));
  (27%nat, RLo (R 14) 39);
  (15%nat, Xo (R 15) (R 30));
  (28%nat, RLo (R 15) 41);
  (21%nat, Xo (R 21) (R 31));
  (29%nat, RLo (R 21) 2);
  (55%nat, Xo (R 25) (An (No (R 26)) (R 27)));
  (56%nat, Xo (R 26) (An (No (R 27)) (R 28)));
  (57%nat, Xo (R 27) (An (No (R 28)) (R 29)));
  (58%nat, Xo (R 28) (An (No (R 29)) (R 25)));
  (59%nat, Xo (R 29) (An (No (R 25)) (R 26)));
  (25%nat, Xo (Xo (Xo (Xo (R 35) (R 40)) (R 45)) (R 50)) (R 55));
  (26%nat, Xo (Xo (Xo (Xo (R 36) (R 41)) (R 46)) (R 51)) (R 56));
  (27%nat, Xo (Xo (Xo (Xo (R 37) (R 42)) (R 47)) (R 52)) (R 57));
  (28%nat, Xo (Xo (Xo (Xo (R 38) (R 43)) (R 48)) (R 53)) (R 58));
  (29%nat, Xo (Xo (Xo (Xo (R 39) (R 44)) (R 49)) (R 54)) (R 59));
  (30%nat, Xo (R 29) (RLo (R 26) 1));
  (31%nat, Xo (R 25) (RLo (R 27) 1));
  (32%nat, Xo (R 26) (RLo (R 28) 1));
  (33%nat, Xo (R 27) (RLo (R 29) 1));
  (34%nat, Xo (R 28) (RLo (R 25) 1));
  (35%nat, Xo (R 35) (R 30));
  (25%nat, R 35);
  (41%nat, Xo (R 41) (R 31));
  (26%nat, RLo (R 41) 44);
  (47%nat, Xo (R 47) (R 32));
  (27%nat, RLo (R 47) 43);
  (53%nat, Xo (R 53) (R 33));
  (28%nat, RLo (R 53) 21);
  (59%nat, Xo (R 59) (R 34));
  (29%nat, RLo (R 59) 14);
  (0%nat, Xo (R 25) (An (No (R 26)) (R 27)));
  (0%nat, Xo (R 0) (K 0x8082));
  (1%nat, Xo (R 26) (An (No (R 27)) (R 28)));
  (2%nat, Xo (R 27) (An (No (R 28)) (R 29)));
  (3%nat, Xo (R 28) (An (No (R 29)) (R 25)));
  (4%nat, Xo (R 29) (An (No (R 25)) (R 26)));
  (38%nat, Xo (R 38) (R 33));
  (25%nat, RLo (R 38) 28);
  (44%nat, Xo (R 44) (R 34));
  (26%nat, RLo (R 44) 20);
  (45%nat, Xo (R 45) (R 30));
  (27%nat, RLo (R 45) 3);
  (51%nat, Xo (R 51) (R 31));
  (28%nat, RLo (R 51) 45);
  (57%nat, Xo (R 57) (R 32));
  (29%nat, RLo (R 57) 61);
  (5%nat, Xo (R 25) (An (No (R 26)) (R 27)));
  (6%nat, Xo (R 26) (An (No (R 27)) (R 28)));
  (7%nat, Xo (R 27) (An (No (R 28)) (R 29)));
  (8%nat, Xo (R 28) (An (No (R 29)) (R 25)));
  (9%nat, Xo (R 29) (An (No (R 25)) (R 26)));
  (36%nat, Xo (R 36) (R 31));
  (25%nat, RLo (R 36) 1);
  (42%nat, Xo (R 42) (R 32));
  (26%nat, RLo (R 42) 6);
  (48%nat, Xo (R 48) (R 33));
  (27%nat, RLo (R 48) 25);
  (54%nat, Xo (R 54) (R 34));
  (28%nat, RLo (R 54) 8);
  (55%nat, Xo (R 55) (R 30));
  (29%nat, RLo (R 55) 18);
  (10%nat, Xo (R 25) (An (No (R 26)) (R 27)));
  (11%nat, Xo (R 26) (An (No (R 27)) (R 28)));
  (12%nat, Xo (R 27) (An (No (R 28)) (R 29)));
  (13%nat, Xo (R 28) (An (No (R 29)) (R 25)));
  (14%nat, Xo (R 29) (An (No (R 25)) (R 26)));
  (39%nat, Xo (R 39) (R 34));
  (25%nat, RLo (R 39) 27);
  (40%nat, Xo (R 40) (R 30));
  (26%nat, RLo (R 40) 36);
  (46%nat, Xo (R 46) (R 31));
  (27%nat, RLo (R 46) 10);
  (52%nat, Xo (R 52) (R 32));
  (28%nat, RLo (R 52) 15);
  (58%nat, Xo (R 58) (R 33));
  (29%nat, RLo (R 58) 56);
  (15%nat, Xo (R 25) (An (No (R 26)) (R 27)));
  (16%nat, Xo (R 26) (An (No (R 27)) (R 28)));
  (17%nat, Xo (R 27) (An (No (R 28)) (R 29)));
  (18%nat, Xo (R 28) (An (No (R 29)) (R 25)));
  (19%nat, Xo (R 29) (An (No (R 25)) (R 26)));
  (37%nat, Xo (R 37) (R 32));
  (25%nat, RLo (R 37) 62);
  (43%nat, Xo (R 43) (R 33));
  (26%nat, RLo (R 43) 55);
  (49%nat, Xo (R 49) (R 34));
  (27%nat, RLo (R 49) 39);
  (50%nat, Xo (R 50) (R 30));
  (28%nat, RLo (R 50) 41);
  (56%nat, Xo (R 56) (R 31));
  (29%nat, RLo (R 56) 2);
  (20%nat, Xo (R 25) (An (No (R 26)) (R 27)));
  (21%nat, Xo (R 26) (An (No (R 27)) (R 28)));
  (22%nat, Xo (R 27) (An (No (R 28)) (R 29)));
  (23%nat, Xo (R 28) (An (No (R 29)) (R 25)));
  (24%nat, Xo (R 29) (An (No (R 25)) (R 26)));
  (25%nat, Xo (Xo (Xo (Xo (R 0) (R 5)) (R 10)) (R 15)) (R 20));
  (26%nat, Xo (Xo (Xo (Xo (R 1) (R 6)) (R 11)) (R 16)) (R 21));
  (27%nat, Xo (Xo (Xo (Xo (R 2) (R 7)) (R 12)) (R 17)) (R 22));
  (28%nat, Xo (Xo (Xo (Xo (R 3) (R 8)) (R 13)) (R 18)) (R 23));
  (29%nat, Xo (Xo (Xo (Xo (R 4) (R 9)) (R 14)) (R 19)) (R 24));
  (30%nat, Xo (R 29) (RLo (R 26) 1));
  (31%nat, Xo (R 25) (RLo (R 27) 1));
  (32%nat, Xo (R 26) (RLo (R 28) 1));
  (33%nat, Xo (R 27) (RLo (R 29) 1));
  (34%nat, Xo (R 28) (RLo (R 25) 1));
  (0%nat, Xo (R 0) (R 30));
  (25%nat, R 0);
  (6%nat, Xo (R 6) (R 31));
  (26%nat, RLo (R 6) 44);
  (12%nat, Xo (R 12) (R 32));
  (27%nat, RLo (R 12) 43);
  (18%nat, Xo (R 18) (R 33));
  (28%nat, RLo (R 18) 21);
  (24%nat, Xo (R 24) (R 34));
  (29%nat, RLo (R 24) 14);
  (35%nat, Xo (R 25) (An (No (R 26)) (R 27)));
  (35%nat, Xo (R 35) (K 0x800000000000808A));
  (36%nat, Xo (R 26) (An (No (R 27)) (R 28)));
  (37%nat, Xo (R 27) (An (No (R 28)) (R 29)));
  (38%nat, Xo (R 28) (An (No (R 29)) (R 25)));
  (39%nat, Xo (R 29) (An (No (R 25)) (R 26)));
  (3%nat, Xo (R 3) (R 33));
  (25%nat, RLo (R 3) 28);
  (9%nat, Xo (R 9) (R 34));
  (26%nat, RLo (R 9) 20);
  (10%nat, Xo (R 10) (R 30));
  (27%nat, RLo (R 10) 3);
  (16%nat, Xo (R 16) (R 31));
  (28%nat, RLo (R 16) 45);
  (22%nat, Xo (R 22) (R 32));
  (29%nat, RLo (R 22) 61);
  (40%nat, Xo (R 25) (An (No (R 26)) (R 27)));
  (41%nat, Xo (R 26) (An (No (R 27)) (R 28)));
  (42%nat, Xo (R 27) (An (No (R 28)) (R 29)));
  (43%nat, Xo (R 28) (An (No (R 29)) (R 25)));
  (44%nat, Xo (R 29) (An (No (R 25)) (R 26)));
  (1%nat, Xo (R 1) (R 31));
  (25%nat, RLo (R 1) 1);
  (7%nat, Xo (R 7) (R 32));
  (26%nat, RLo (R 7) 6);
  (13%nat, Xo (R 13) (R 33));
  (27%nat, RLo (R 13) 25);
  (19%nat, Xo (R 19) (R 34));
  (28%nat, RLo (R 19) 8);
  (20%nat, Xo (R 20) (R 30));
  (29%nat, RLo (R 20) 18);
  (45%nat, Xo (R 25) (An (No (R 26)) (R 27)));
  (46%nat, Xo (R 26) (An (No (R 27)) (R 28)));
  (47%nat, Xo (R 27) (An (No (R 28)) (R 29)));
  (48%nat, Xo (R 28) (An (No (R 29)) (R 25)));
  (49%nat, Xo (R 29) (An (No (R 25)) (R 26)));
  (4%nat, Xo (R 4) (R 34));
  (25%nat, RLo (R 4) 27);
  (5%nat, Xo (R 5) (R 30));
  (26%nat, RLo (R 5) 36);
  (11%nat, Xo (R 11) (R 31));
  (27%nat, RLo (R 11) 10);
  (17%nat, Xo (R 17) (R 32));
  (28%nat, RLo (R 17) 15);
  (23%nat, Xo (R 23) (R 33));
  (29%nat, RLo (R 23) 56);
  (50%nat, Xo (R 25) (An (No (R 26)) (R 27)));
  (51%nat, Xo (R 26) (An (No (R 27)) (R 28)));
  (52%nat, Xo (R 27) (An (No (R 28)) (R 29)));
  (53%nat, Xo (R 28) (An (No (R 29)) (R 25)));
  (54%nat, Xo (R 29) (An (No (R 25)) (R 26)));
  (2%nat, Xo (R 2) (R 32));
  (25%nat, RLo (R 2) 62);
  (8%nat, Xo (R 8) (R 33));
  (26%nat, RLo (R 8) 55);
  (14%nat, Xo (R 14) (R 34));
  (27%nat, RLo (R 14) 39);
  (15%nat, Xo (R 15) (R 30));
  (28%nat, RLo (R 15) 41);
  (21%nat, Xo (R 21) (R 31));
  (29%nat, RLo (R 21) 2);
  (55%nat, Xo (R 25) (An (No (R 26)) (R 27)));
  (56%nat, Xo (R 26) (An (No (R 27)) (R 28)));
  (57%nat, Xo (R 27) (An (No (R 28)) (R 29)));
  (58%nat, Xo (R 28) (An (No (R 29)) (R 25)));
  (59%nat, Xo (R 29) (An (No (R 25)) (R 26)));
  (25%nat, Xo (Xo (Xo (Xo (R 35) (R 40)) (R 45)) (R 50)) (R 55));
  (26%nat, Xo (Xo (Xo (Xo (R 36) (R 41)) (R 46)) (R 51)) (R 56));
  (27%nat, Xo (Xo (Xo (Xo (R 37) (R 42)) (R 47)) (R 52)) (R 57));
  (28%nat, Xo (Xo (Xo (Xo (R 38) (R 43)) (R 48)) (R 53)) (R 58));
  (29%nat, Xo (Xo (Xo (Xo (R 39) (R 44)) (R 49)) (R 54)) (R 59));
  (30%nat, Xo (R 29) (RLo (R 26) 1));
  (31%nat, Xo (R 25) (RLo (R 27) 1));
  (32%nat, Xo (R 26) (RLo (R 28) 1));
  (33%nat, Xo (R 27) (RLo (R 29) 1));
  (34%nat, Xo (R 28) (RLo (R 25) 1));
  (35%nat, Xo (R 35) (R 30));
  (25%nat, R 35);
  (41%nat, Xo (R 41) (R 31));
  (26%nat, RLo (R 41) 44);
  (47%nat, Xo (R 47) (R 32));
  (27%nat, RLo (R 47) 43);
  (53%nat, Xo (R 53) (R 33));
  (28%nat, RLo (R 53) 21);
  (59%nat, Xo (R 59) (R 34));
  (29%nat, RLo (R 59) 14);
  (0%nat, Xo (R 25) (An (No (R 26)) (R 27)));
  (0%nat, Xo (R 0) (K 0x8000000080008000));
  (1%nat, Xo (R 26) (An (No (R 27)) (R 28)));
  (2%nat, Xo (R 27) (An (No (R 28)) (R 29)));
  (3%nat, Xo (R 28) (An (No (R 29)) (R 25)));
  (4%nat, Xo (R 29) (An (No (R 25)) (R 26)));
  (38%nat, Xo (R 38) (R 33));
  (25%nat, RLo (R 38) 28);
  (44%nat, Xo (R 44) (R 34));
  (26%nat, RLo (R 44) 20);
  (45%nat, Xo (R 45) (R 30));
  (27%nat, RLo (R 45) 3);
  (51%nat, Xo (R 51) (R 31));
  (28%nat, RLo (R 51) 45);
  (57%nat, Xo (R 57) (R 32));
  (29%nat, RLo (R 57) 61);
  (5%nat, Xo (R 25) (An (No (R 26)) (R 27)));
  (6%nat, Xo (R 26) (An (No (R 27)) (R 28)));
  (7%nat, Xo (R 27) (An (No (R 28)) (R 29)));
  (8%nat, Xo (R 28) (An (No (R 29)) (R 25)));
  (9%nat, Xo (R 29) (An (No (R 25)) (R 26)));
  (36%nat, Xo (R 36) (R 31));
  (25%nat, RLo (R 36) 1);
  (42%nat, Xo (R 42) (R 32));
  (26%nat, RLo (R 42) 6);
  (48%nat, Xo (R 48) (R 33));
  (27%nat, RLo (R 48) 25);
  (54%nat, Xo (R 54) (R 34));
  (28%nat, RLo (R 54) 8);
  (55%nat, Xo (R 55) (R 30));
  (29%nat, RLo (R 55) 18);
  (10%nat, Xo (R 25) (An (No (R 26)) (R 27)));
  (11%nat, Xo (R 26) (An (No (R 27)) (R 28)));
  (12%nat, Xo (R 27) (An (No (R 28)) (R 29)));
  (13%nat, Xo (R 28) (An (No (R 29)) (R 25)));
  (14%nat, Xo (R 29) (An (No (R 25)) (R 26)));
  (39%nat, Xo (R 39) (R 34));
  (25%nat, RLo (R 39) 27);
  (40%nat, Xo (R 40) (R 30));
  (26%nat, RLo (R 40) 36);
  (46%nat, Xo (R 46) (R 31));
  (27%nat, RLo (R 46) 10);
  (52%nat, Xo (R 52) (R 32));
  (28%nat, RLo (R 52) 15);
  (58%nat, Xo (R 58) (R 33));
  (29%nat, RLo (R 58) 56);
  (15%nat, Xo (R 25) (An (No (R 26)) (R 27)));
  (16%nat, Xo (R 26) (An (No (R 27)) (R 28)));
  (17%nat, Xo (R 27) (An (No (R 28)) (R 29)));
  (18%nat, Xo (R 28) (An (No (R 29)) (R 25)));
  (19%nat, Xo (R 29) (An (No (R 25)) (R 26)));
  (37%nat, Xo (R 37) (R 32));
  (25%nat, RLo (R 37) 62);
  (43%nat, Xo (R 43) (R 33));
  (26%nat, RLo (R 43) 55);
  (49%nat, Xo (R 49) (R 34));
  (27%nat, RLo (R 49) 39);
  (50%nat, Xo (R 50) (R 30));
  (28%nat, RLo (R 50) 41);
  (56%nat, Xo (R 56) (R 31));
  (29%nat, RLo (R 56) 2);
  (20%nat, Xo (R 25) (An (No (R 26)) (R 27)));
  (21%nat, Xo (R 26) (An (No (R 27)) (R 28)));
  (22%nat, Xo (R 27) (An (No (R 28)) (R 29)));
  (23%nat, Xo (R 28) (An (No (R 29)) (R 25)));
  (24%nat, Xo (R 29) (An (No (R 25)) (R 26)));
  (25%nat, Xo (Xo (Xo (Xo (R 0) (R 5)) (R 10)) (R 15)) (R 20));
  (26%nat, Xo (Xo (Xo (Xo (R 1) (R 6)) (R 11)) (R 16)) (R 21));
  (27%nat, Xo (Xo (Xo (Xo (R 2) (R 7)) (R 12)) (R 17)) (R 22));
  (28%nat, Xo (Xo (Xo (Xo (R 3) (R 8)) (R 13)) (R 18)) (R 23));
  (29%nat, Xo (Xo (Xo (Xo (R 4) (R 9)) (R 14)) (R 19)) (R 24));
  (30%nat, Xo (R 29) (RLo (R 26) 1));
  (31%nat, Xo (R 25) (RLo (R 27) 1));
  (32%nat, Xo (R 26) (RLo (R 28) 1));
  (33%nat, Xo (R 27) (RLo (R 29) 1));
  (34%nat, Xo (R 28) (RLo (R 25) 1));
  (0%nat, Xo (R 0) (R 30));
  (25%nat, R 0);
  (6%nat, Xo (R 6) (R 31));
  (26%nat, RLo (R 6) 44);
  (12%nat, Xo (R 12) (R 32));
  (27%nat, RLo (R 12) 43);
  (18%nat, Xo (R 18) (R 33));
  (28%nat, RLo (R 18) 21);
  (24%nat, Xo (R 24) (R 34));
  (29%nat, RLo (R 24) 14);
  (35%nat, Xo (R 25) (An (No (R 26)) (R 27)));
  (35%nat, Xo (R 35) (K 0x808B));
  (36%nat, Xo (R 26) (An (No (R 27)) (R 28)));
  (37%nat, Xo (R 27) (An (No (R 28)) (R 29)));
  (38%nat, Xo (R 28) (An (No (R 29)) (R 25)));
  (39%nat, Xo (R 29) (An (No (R 25)) (R 26)));
  (3%nat, Xo (R 3) (R 33));
  (25%nat, RLo (R 3) 28);
  (9%nat, Xo (R 9) (R 34));
  (26%nat, RLo (R 9) 20);
  (10%nat, Xo (R 10) (R 30));
  (27%nat, RLo (R 10) 3);
  (16%nat, Xo (R 16) (R 31));
  (28%nat, RLo (R 16) 45);
  (22%nat, Xo (R 22) (R 32));
  (29%nat, RLo (R 22) 61);
  (40%nat, Xo (R 25) (An (No (R 26)) (R 27)));
  (41%nat, Xo (R 26) (An (No (R 27)) (R 28)));
  (42%nat, Xo (R 27) (An (No (R 28)) (R 29)));
  (43%nat, Xo (R 28) (An (No (R 29)) (R 25)));
  (44%nat, Xo (R 29) (An (No (R 25)) (R 26)));
  (1%nat, Xo (R 1) (R 31));
  (25%nat, RLo (R 1) 1);
  (7%nat, Xo (R 7) (R 32));
  (26%nat, RLo (R 7) 6);
  (13%nat, Xo (R 13) (R 33));
  (27%nat, RLo (R 13) 25);
  (19%nat, Xo (R 19) (R 34));
  (28%nat, RLo (R 19) 8);
  (20%nat, Xo (R 20) (R 30));
  (29%nat, RLo (R 20) 18);
  (45%nat, Xo (R 25) (An (No (R 26)) (R 27)));
  (46%nat, Xo (R 26) (An (No (R 27)) (R 28)));
  (47%nat, Xo (R 27) (An (No (R 28)) (R 29)));
  (48%nat, Xo (R 28) (An (No (R 29)) (R 25)));
  (49%nat, Xo (R 29) (An (No (R 25)) (R 26)));
  (4%nat, Xo (R 4) (R 34));
  (25%nat, RLo (R 4) 27);
  (5%nat, Xo (R 5) (R 30));
  (26%nat, RLo (R 5) 36);
  (11%nat, Xo (R 11) (R 31));
  (27%nat, RLo (R 11) 10);
  (17%nat, Xo (R 17) (R 32));
  (28%nat, RLo (R 17) 15);
  (23%nat, Xo (R 23) (R 33));
  (29%nat, RLo (R 23) 56);
  (50%nat, Xo (R 25) (An (No (R 26)) (R 27)));
  (51%nat, Xo (R 26) (An (No (R 27)) (R 28)));
  (52%nat, Xo (R 27) (An (No (R 28)) (R 29)));
  (53%nat, Xo (R 28) (An (No (R 29)) (R 25)));
  (54%nat, Xo (R 29) (An (No (R 25)) (R 26)));
  (2%nat, Xo (R 2) (R 32));
  (25%nat, RLo (R 2) 62);
  (8%nat, Xo (R 8) (R 33));
  (26%nat, RLo (R 8) 55);
  (14%nat, Xo (R 14) (R 34));
  (27%nat, RLo (R 14) 39);
  (15%nat, Xo (R 15) (R 30));
  (28%nat, RLo (R 15) 41);
  (21%nat, Xo (R 21) (R 31));
  (29%nat, RLo (R 21) 2);
  (55%nat, Xo (R 25) (An (No (R 26)) (R 27)));
  (56%nat, Xo (R 26) (An (No (R 27)) (R 28)));
  (57%nat, Xo (R 27) (An (No (R 28)) (R 29)));
  (58%nat, Xo (R 28) (An (No (R 29)) (R 25)));
  (59%nat, Xo (R 29) (An (No (R 25)) (R 26)));
  (25%nat, Xo (Xo (Xo (Xo (R 35) (R 40)) (R 45)) (R 50)) (R 55));
  (26%nat, Xo (Xo (Xo (Xo (R 36) (R 41)) (R 46)) (R 51)) (R 56));
  (27%nat, Xo (Xo (Xo (Xo (R 37) (R 42)) (R 47)) (R 52)) (R 57));
  (28%nat, Xo (Xo (Xo (Xo (R 38) (R 43)) (R 48)) (R 53)) (R 58));
  (29%nat, Xo (Xo (Xo (Xo (R 39) (R 44)) (R 49)) (R 54)) (R 59));
  (30%nat, Xo (R 29) (RLo (R 26) 1));
  (31%nat, Xo (R 25) (RLo (R 27) 1));
  (32%nat, Xo (R 26) (RLo (R 28) 1));
  (33%nat, Xo (R 27) (RLo (R 29) 1));
  (34%nat, Xo (R 28) (RLo (R 25) 1));
  (35%nat, Xo (R 35) (R 30));
  (25%nat, R 35);
  (41%nat, Xo (R 41) (R 31));
  (26%nat, RLo (R 41) 44);
  (47%nat, Xo (R 47) (R 32));
  (27%nat, RLo (R 47) 43);
  (53%nat, Xo (R 53) (R 33));
  (28%nat, RLo (R 53) 21);
  (59%nat, Xo (R 59) (R 34));
  (29%nat, RLo (R 59) 14);
  (0%nat, Xo (R 25) (An (No (R 26)) (R 27)));
  (0%nat, Xo (R 0) (K 0x80000001));
  (1%nat, Xo (R 26) (An (No (R 27)) (R 28)));
  (2%nat, Xo (R 27) (An (No (R 28)) (R 29)));
  (3%nat, Xo (R 28) (An (No (R 29)) (R 25)));
  (4%nat, Xo (R 29) (An (No (R 25)) (R 26)));
  (38%nat, Xo (R 38) (R 33));
  (25%nat, RLo (R 38) 28);
  (44%nat, Xo (R 44) (R 34));
  (26%nat, RLo (R 44) 20);
  (45%nat, Xo (R 45) (R 30));
  (27%nat, RLo (R 45) 3);
  (51%nat, Xo (R 51) (R 31));
  (28%nat, RLo (R 51) 45);
  (57%nat, Xo (R 57) (R 32));
  (29%nat, RLo (R 57) 61);
  (5%nat, Xo (R 25) (An (No (R 26)) (R 27)));
  (6%nat, Xo (R 26) (An (No (R 27)) (R 28)));
  (7%nat, Xo (R 27) (An (No (R 28)) (R 29)));
  (8%nat, Xo (R 28) (An (No (R 29)) (R 25)));
  (9%nat, Xo (R 29) (An (No (R 25)) (R 26)));
  (36%nat, Xo (R 36) (R 31));
  (25%nat, RLo (R 36) 1);
  (42%nat, Xo (R 42) (R 32));
  (26%nat, RLo (R 42) 6);
  (48%nat, Xo (R 48) (R 33));
  (27%nat, RLo (R 48) 25);
  (54%nat, Xo (R 54) (R 34));
  (28%nat, RLo (R 54) 8);
  (55%nat, Xo (R 55) (R 30));
  (29%nat, RLo (R 55) 18);
  (10%nat, Xo (R 25) (An (No (R 26)) (R 27)));
  (11%nat, Xo (R 26) (An (No (R 27)) (R 28)));
  (12%nat, Xo (R 27) (An (No (R 28)) (R 29)));
  (13%nat, Xo (R 28) (An (No (R 29)) (R 25)));
  (14%nat, Xo (R 29) (An (No (R 25)) (R 26)));
  (39%nat, Xo (R 39) (R 34));
  (25%nat, RLo (R 39) 27);
  (40%nat, Xo (R 40) (R 30));
  (26%nat, RLo (R 40) 36);
  (46%nat, Xo (R 46) (R 31));
  (27%nat, RLo (R 46) 10);
  (52%nat, Xo (R 52) (R 32));
  (28%nat, RLo (R 52) 15);
  (58%nat, Xo (R 58) (R 33));
  (29%nat, RLo (R 58) 56);
  (15%nat, Xo (R 25) (An (No (R 26)) (R 27)));
  (16%nat, Xo (R 26) (An (No (R 27)) (R 28)));
  (17%nat, Xo (R 27) (An (No (R 28)) (R 29)));
  (18%nat, Xo (R 28) (An (No (R 29)) (R 25)));
  (19%nat, Xo (R 29) (An (No (R 25)) (R 26)));
  (37%nat, Xo (R 37) (R 32));
  (25%nat, RLo (R 37) 62);
  (43%nat, Xo (R 43) (R 33));
  (26%nat, RLo (R 43) 55);
  (49%nat, Xo (R 49) (R 34));
  (27%nat, RLo (R 49) 39);
  (50%nat, Xo (R 50) (R 30));
  (28%nat, RLo (R 50) 41);
  (56%nat, Xo (R 56) (R 31));
  (29%nat, RLo (R 56) 2);
  (20%nat, Xo (R 25) (An (No (R 26)) (R 27)));
  (21%nat, Xo (R 26) (An (No (R 27)) (R 28)));
  (22%nat, Xo (R 27) (An (No (R 28)) (R 29)));
  (23%nat, Xo (R 28) (An (No (R 29)) (R 25)));
  (24%nat, Xo (R 29) (An (No (R 25)) (R 26)));
  (25%nat, Xo (Xo (Xo (Xo (R 0) (R 5)) (R 10)) (R 15)) (R 20));
  (26%nat, Xo (Xo (Xo (Xo (R 1) (R 6)) (R 11)) (R 16)) (R 21));
  (27%nat, Xo (Xo (Xo (Xo (R 2) (R 7)) (R 12)) (R 17)) (R 22));
  (28%nat, Xo (Xo (Xo (Xo (R 3) (R 8)) (R 13)) (R 18)) (R 23));
  (29%nat, Xo (Xo (Xo (Xo (R 4) (R 9)) (R 14)) (R 19)) (R 24));
  (30%nat, Xo (R 29) (RLo (R 26) 1));
  (31%nat, Xo (R 25) (RLo (R 27) 1));
  (32%nat, Xo (R 26) (RLo (R 28) 1));
  (33%nat, Xo (R 27) (RLo (R 29) 1));
  (34%nat, Xo (R 28) (RLo (R 25) 1));
  (0%nat, Xo (R 0) (R 30));
  (25%nat, R 0);
  (6%nat, Xo (R 6) (R 31));
  (26%nat, RLo (R 6) 44);
  (12%nat, Xo (R 12) (R 32));
  (27%nat, RLo (R 12) 43);
  (18%nat, Xo (R 18) (R 33));
  (28%nat, RLo (R 18) 21);
  (24%nat, Xo (R 24) (R 34));
  (29%nat, RLo (R 24) 14);
  (35%nat, Xo (R 25) (An (No (R 26)) (R 27)));
  (35%nat, Xo (R 35) (K 0x8000000080008081));
  (36%nat, Xo (R 26) (An (No (R 27)) (R 28)));
  (37%nat, Xo (R 27) (An (No (R 28)) (R 29)));
  (38%nat, Xo (R 28) (An (No (R 29)) (R 25)));
  (39%nat, Xo (R 29) (An (No (R 25)) (R 26)));
  (3%nat, Xo (R 3) (R 33));
  (25%nat, RLo (R 3) 28);
  (9%nat, Xo (R 9) (R 34));
  (26%nat, RLo (R 9) 20);
  (10%nat, Xo (R 10) (R 30));
  (27%nat, RLo (R 10) 3);
  (16%nat, Xo (R 16) (R 31));
  (28%nat, RLo (R 16) 45);
  (22%nat, Xo (R 22) (R 32));
  (29%nat, RLo (R 22) 61);
  (40%nat, Xo (R 25) (An (No (R 26)) (R 27)));
  (41%nat, Xo (R 26) (An (No (R 27)) (R 28)));
  (42%nat, Xo (R 27) (An (No (R 28)) (R 29)));
  (43%nat, Xo (R 28) (An (No (R 29)) (R 25)));
  (44%nat, Xo (R 29) (An (No (R 25)) (R 26)));
  (1%nat, Xo (R 1) (R 31));
  (25%nat, RLo (R 1) 1);
  (7%nat, Xo (R 7) (R 32));
  (26%nat, RLo (R 7) 6);
  (13%nat, Xo (R 13) (R 33));
  (27%nat, RLo (R 13) 25);
  (19%nat, Xo (R 19) (R 34));
  (28%nat, RLo (R 19) 8);
  (20%nat, Xo (R 20) (R 30));
  (29%nat, RLo (R 20) 18);
  (45%nat, Xo (R 25) (An (No (R 26)) (R 27)));
  (46%nat, Xo (R 26) (An (No (R 27)) (R 28)));
  (47%nat, Xo (R 27) (An (No (R 28)) (R 29)));
  (48%nat, Xo (R 28) (An (No (R 29)) (R 25)));
  (49%nat, Xo (R 29) (An (No (R 25)) (R 26)));
  (4%nat, Xo (R 4) (R 34));
  (25%nat, RLo (R 4) 27);
  (5%nat, Xo (R 5) (R 30));
  (26%nat, RLo (R 5) 36);
  (11%nat, Xo (R 11) (R 31));
  (27%nat, RLo (R 11) 10);
  (17%nat, Xo (R 17) (R 32));
  (28%nat, RLo (R 17) 15);
  (23%nat, Xo (R 23) (R 33));
  (29%nat, RLo (R 23) 56);
  (50%nat, Xo (R 25) (An (No (R 26)) (R 27)));
  (51%nat, Xo (R 26) (An (No (R 27)) (R 28)));
  (52%nat, Xo (R 27) (An (No (R 28)) (R 29)));
  (53%nat, Xo (R 28) (An (No (R 29)) (R 25)));
  (54%nat, Xo (R 29) (An (No (R 25)) (R 26)));
  (2%nat, Xo (R 2) (R 32));
  (25%nat, RLo (R 2) 62);
  (8%nat, Xo (R 8) (R 33));
  (26%nat, RLo (R 8) 55);
  (14%nat, Xo (R 14) (R 34));
  (27%nat, RLo (R 14) 39);
  (15%nat, Xo (R 15) (R 30));
  (28%nat, RLo (R 15) 41);
  (21%nat, Xo (R 21) (R 31));
  (29%nat, RLo (R 21) 2);
  (55%nat, Xo (R 25) (An (No (R 26)) (R 27)));
  (56%nat, Xo (R 26) (An (No (R 27)) (R 28)));
  (57%nat, Xo (R 27) (An (No (R 28)) (R 29)));
  (58%nat, Xo (R 28) (An (No (R 29)) (R 25)));
  (59%nat, Xo (R 29) (An (No (R 25)) (R 26)));
  (25%nat, Xo (Xo (Xo (Xo (R 35) (R 40)) (R 45)) (R 50)) (R 55));
  (26%nat, Xo (Xo (Xo (Xo (R 36) (R 41)) (R 46)) (R 51)) (R 56));
  (27%nat, Xo (Xo (Xo (Xo (R 37) (R 42)) (R 47)) (R 52)) (R 57));
  (28%nat, Xo (Xo (Xo (Xo (R 38) (R 43)) (R 48)) (R 53)) (R 58));
  (29%nat, Xo (Xo (Xo (Xo (R 39) (R 44)) (R 49)) (R 54)) (R 59));
  (30%nat, Xo (R 29) (RLo (R 26) 1));
  (31%nat, Xo (R 25) (RLo (R 27) 1));
  (32%nat, Xo (R 26) (RLo (R 28) 1));
  (33%nat, Xo (R 27) (RLo (R 29) 1));
  (34%nat, Xo (R 28) (RLo (R 25) 1));
  (35%nat, Xo (R 35) (R 30));
  (25%nat, R 35);
  (41%nat, Xo (R 41) (R 31));
  (26%nat, RLo (R 41) 44);
  (47%nat, Xo (R 47) (R 32));
  (27%nat, RLo (R 47) 43);
  (53%nat, Xo (R 53) (R 33));
  (28%nat, RLo (R 53) 21);
  (59%nat, Xo (R 59) (R 34));
  (29%nat, RLo (R 59) 14);
  (0%nat, Xo (R 25) (An (No (R 26)) (R 27)));
  (0%nat, Xo (R 0) (K 0x8000000000008009));
  (1%nat, Xo (R 26) (An (No (R 27)) (R 28)));
  (2%nat, Xo (R 27) (An (No (R 28)) (R 29)));
  (3%nat, Xo (R 28) (An (No (R 29)) (R 25)));
  (4%nat, Xo (R 29) (An (No (R 25)) (R 26)));
  (38%nat, Xo (R 38) (R 33));
  (25%nat, RLo (R 38) 28);
  (44%nat, Xo (R 44) (R 34));
  (26%nat, RLo (R 44) 20);
  (45%nat, Xo (R 45) (R 30));
  (27%nat, RLo (R 45) 3);
  (51%nat, Xo (R 51) (R 31));
  (28%nat, RLo (R 51) 45);
  (57%nat, Xo (R 57) (R 32));
  (29%nat, RLo (R 57) 61);
  (5%nat, Xo (R 25) (An (No (R 26)) (R 27)));
  (6%nat, Xo (R 26) (An (No (R 27)) (R 28)));
  (7%nat, Xo (R 27) (An (No (R 28)) (R 29)));
  (8%nat, Xo (R 28) (An (No (R 29)) (R 25)));
  (9%nat, Xo (R 29) (An (No (R 25)) (R 26)));
  (36%nat, Xo (R 36) (R 31));
  (25%nat, RLo (R 36) 1);
  (42%nat, Xo (R 42) (R 32));
  (26%nat, RLo (R 42) 6);
  (48%nat, Xo (R 48) (R 33));
  (27%nat, RLo (R 48) 25);
  (54%nat, Xo (R 54) (R 34));
  (28%nat, RLo (R 54) 8);
  (55%nat, Xo (R 55) (R 30));
  (29%nat, RLo (R 55) 18);
  (10%nat, Xo (R 25) (An (No (R 26)) (R 27)));
  (11%nat, Xo (R 26) (An (No (R 27)) (R 28)));
  (12%nat, Xo (R 27) (An (No (R 28)) (R 29)));
  (13%nat, Xo (R 28) (An (No (R 29)) (R 25)));
  (14%nat, Xo (R 29) (An (No (R 25)) (R 26)));
  (39%nat, Xo (R 39) (R 34));
  (25%nat, RLo (R 39) 27);
  (40%nat, Xo (R 40) (R 30));
  (26%nat, RLo (R 40) 36);
  (46%nat, Xo (R 46) (R 31));
  (27%nat, RLo (R 46) 10);
  (52%nat, Xo (R 52) (R 32));
  (28%nat, RLo (R 52) 15);
  (58%nat, Xo (R 58) (R 33));
  (29%nat, RLo (R 58) 56);
  (15%nat, Xo (R 25) (An (No (R 26)) (R 27)));
  (16%nat, Xo (R 26) (An (No (R 27)) (R 28)));
  (17%nat, Xo (R 27) (An (No (R 28)) (R 29)));
  (18%nat, Xo (R 28) (An (No (R 29)) (R 25)));
  (19%nat, Xo (R 29) (An (No (R 25)) (R 26)));
  (37%nat, Xo (R 37) (R 32));
  (25%nat, RLo (R 37) 62);
  (43%nat, Xo (R 43) (R 33));
  (26%nat, RLo (R 43) 55);
  (49%nat, Xo (R 49) (R 34));
  (27%nat, RLo (R 49) 39);
  (50%nat, Xo (R 50) (R 30));
  (28%nat, RLo (R 50) 41);
  (56%nat, Xo (R 56) (R 31));
  (29%nat, RLo (R 56) 2);
  (20%nat, Xo (R 25) (An (No (R 26)) (R 27)));
  (21%nat, Xo (R 26) (An (No (R 27)) (R 28)));
  (22%nat, Xo (R 27) (An (No (R 28)) (R 29)));
  (23%nat, Xo (R 28) (An (No (R 29)) (R 25)));
  (24%nat, Xo (R 29) (An (No (R 25)) (R 26)));
  (25%nat, Xo (Xo (Xo (Xo (R 0) (R 5)) (R 10)) (R 15)) (R 20));
  (26%nat, Xo (Xo (Xo (Xo (R 1) (R 6)) (R 11)) (R 16)) (R 21));
  (27%nat, Xo (Xo (Xo (Xo (R 2) (R 7)) (R 12)) (R 17)) (R 22));
  (28%nat, Xo (Xo (Xo (Xo (R 3) (R 8)) (R 13)) (R 18)) (R 23));
  (29%nat, Xo (Xo (Xo (Xo (R 4) (R 9)) (R 14)) (R 19)) (R 24));
  (30%nat, Xo (R 29) (RLo (R 26) 1));
  (31%nat, Xo (R 25) (RLo (R 27) 1));
  (32%nat, Xo (R 26) (RLo (R 28) 1));
  (33%nat, Xo (R 27) (RLo (R 29) 1));
  (34%nat, Xo (R 28) (RLo (R 25) 1));
  (0%nat, Xo (R 0) (R 30));
  (25%nat, R 0);
  (6%nat, Xo (R 6) (R 31));
  (26%nat, RLo (R 6) 44);
  (12%nat, Xo (R 12) (R 32));
  (27%nat, RLo (R 12) 43);
  (18%nat, Xo (R 18) (R 33));
  (28%nat, RLo (R 18) 21);
  (24%nat, Xo (R 24) (R 34));
  (29%nat, RLo (R 24) 14);
  (35%nat, Xo (R 25) (An (No (R 26)) (R 27)));
  (35%nat, Xo (R 35) (K 0x8A));
  (36%nat, Xo (R 26) (An (No (R 27)) (R 28)));
  (37%nat, Xo (R 27) (An (No (R 28)) (R 29)));
  (38%nat, Xo (R 28) (An (No (R 29)) (R 25)));
  (39%nat, Xo (R 29) (An (No (R 25)) (R 26)));
  (3%nat, Xo (R 3) (R 33));
  (25%nat, RLo (R 3) 28);
  (9%nat, Xo (R 9) (R 34));
  (26%nat, RLo (R 9) 20);
  (10%nat, Xo (R 10) (R 30));
  (27%nat, RLo (R 10) 3);
  (16%nat, Xo (R 16) (R 31));
  (28%nat, RLo (R 16) 45);
  (22%nat, Xo (R 22) (R 32));
  (29%nat, RLo (R 22) 61);
  (40%nat, Xo (R 25) (An (No (R 26)) (R 27)));
  (41%nat, Xo (R 26) (An (No (R 27)) (R 28)));
  (42%nat, Xo (R 27) (An (No (R 28)) (R 29)));
  (43%nat, Xo (R 28) (An (No (R 29)) (R 25)));
  (44%nat, Xo (R 29) (An (No (R 25)) (R 26)));
  (1%nat, Xo (R 1) (R 31));
  (25%nat, RLo (R 1) 1);
  (7%nat, Xo (R 7) (R 32));
  (26%nat, RLo (R 7) 6);
  (13%nat, Xo (R 13) (R 33));
  (27%nat, RLo (R 13) 25);
  (19%nat, Xo (R 19) (R 34));
  (28%nat, RLo (R 19) 8);
  (20%nat, Xo (R 20) (R 30));
  (29%nat, RLo (R 20) 18);
  (45%nat, Xo (R 25) (An (No (R 26)) (R 27)));
  (46%nat, Xo (R 26) (An (No (R 27)) (R 28)));
  (47%nat, Xo (R 27) (An (No (R 28)) (R 29)));
  (48%nat, Xo (R 28) (An (No (R 29)) (R 25)));
  (49%nat, Xo (R 29) (An (No (R 25)) (R 26)));
  (4%nat, Xo (R 4) (R 34));
  (25%nat, RLo (R 4) 27);
  (5%nat, Xo (R 5) (R 30));
  (26%nat, RLo (R 5) 36);
  (11%nat, Xo (R 11) (R 31));
  (27%nat, RLo (R 11) 10);
  (17%nat, Xo (R 17) (R 32));
  (28%nat, RLo (R 17) 15);
  (23%nat, Xo (R 23) (R 33));
  (29%nat, RLo (R 23) 56);
  (50%nat, Xo (R 25) (An (No (R 26)) (R 27)));
  (51%nat, Xo (R 26) (An (No (R 27)) (R 28)));
  (52%nat, Xo (R 27) (An (No (R 28)) (R 29)));
  (53%nat, Xo (R 28) (An (No (R 29)) (R 25)));
  (54%nat, Xo (R 29) (An (No (R 25)) (R 26)));
  (2%nat, Xo (R 2) (R 32));
  (25%nat, RLo (R 2) 62);
  (8%nat, Xo (R 8) (R 33));
  (26%nat, RLo (R 8) 55);
  (14%nat, Xo (R 14) (R 34));
  (27%nat, RLo (R 14) 39);
  (15%nat, Xo (R 15) (R 30));
  (28%nat, RLo (R 15) 41);
  (21%nat, Xo (R 21) (R 31));
  (29%nat, RLo (R 21) 2);
  (55%nat, Xo (R 25) (An (No (R 26)) (R 27)));
  (56%nat, Xo (R 26) (An (No (R 27)) (R 28)));
  (57%nat, Xo (R 27) (An (No (R 28)) (R 29)));
  (58%nat, Xo (R 28) (An (No (R 29)) (R 25)));
  (59%nat, Xo (R 29) (An (No (R 25)) (R 26)));
  (25%nat, Xo (Xo (Xo (Xo (R 35) (R 40)) (R 45)) (R 50)) (R 55));
  (26%nat, Xo (Xo (Xo (Xo (R 36) (R 41)) (R 46)) (R 51)) (R 56));
  (27%nat, Xo (Xo (Xo (Xo (R 37) (R 42)) (R 47)) (R 52)) (R 57));
  (28%nat, Xo (Xo (Xo (Xo (R 38) (R 43)) (R 48)) (R 53)) (R 58));
  (29%nat, Xo (Xo (Xo (Xo (R 39) (R 44)) (R 49)) (R 54)) (R 59));
  (30%nat, Xo (R 29) (RLo (R 26) 1));
  (31%nat, Xo (R 25) (RLo (R 27) 1));
  (32%nat, Xo (R 26) (RLo (R 28) 1));
  (33%nat, Xo (R 27) (RLo (R 29) 1));
  (34%nat, Xo (R 28) (RLo (R 25) 1));
  (35%nat, Xo (R 35) (R 30));
  (25%nat, R 35);
  (41%nat, Xo (R 41) (R 31));
  (26%nat, RLo (R 41) 44);
  (47%nat, Xo (R 47) (R 32));
  (27%nat, RLo (R 47) 43);
  (53%nat, Xo (R 53) (R 33));
  (28%nat, RLo (R 53) 21);
  (59%nat, Xo (R 59) (R 34));
  (29%nat, RLo (R 59) 14);
  (0%nat, Xo (R 25) (An (No (R 26)) (R 27)));
  (0%nat, Xo (R 0) (K 0x88));
  (1%nat, Xo (R 26) (An (No (R 27)) (R 28)));
  (2%nat, Xo (R 27) (An (No (R 28)) (R 29)));
  (3%nat, Xo (R 28) (An (No (R 29)) (R 25)));
  (4%nat, Xo (R 29) (An (No (R 25)) (R 26)));
  (38%nat, Xo (R 38) (R 33));
  (25%nat, RLo (R 38) 28);
  (44%nat, Xo (R 44) (R 34));
  (26%nat, RLo (R 44) 20);
  (45%nat, Xo (R 45) (R 30));
  (27%nat, RLo (R 45) 3);
  (51%nat, Xo (R 51) (R 31));
  (28%nat, RLo (R 51) 45);
  (57%nat, Xo (R 57) (R 32));
  (29%nat, RLo (R 57) 61);
  (5%nat, Xo (R 25) (An (No (R 26)) (R 27)));
  (6%nat, Xo (R 26) (An (No (R 27)) (R 28)));
  (7%nat, Xo (R 27) (An (No (R 28)) (R 29)));
  (8%nat, Xo (R 28) (An (No (R 29)) (R 25)));
  (9%nat, Xo (R 29) (An (No (R 25)) (R 26)));
  (36%nat, Xo (R 36) (R 31));
  (25%nat, RLo (R 36) 1);
  (42%nat, Xo (R 42) (R 32));
  (26%nat, RLo (R 42) 6);
  (48%nat, Xo (R 48) (R 33));
  (27%nat, RLo (R 48) 25);
  (54%nat, Xo (R 54) (R 34));
  (28%nat, RLo (R 54) 8);
  (55%nat, Xo (R 55) (R 30));
  (29%nat, RLo (R 55) 18);
  (10%nat, Xo (R 25) (An (No (R 26)) (R 27)));
  (11%nat, Xo (R 26) (An (No (R 27)) (R 28)));
  (12%nat, Xo (R 27) (An (No (R 28)) (R 29)));
  (13%nat, Xo (R 28) (An (No (R 29)) (R 25)));
  (14%nat, Xo (R 29) (An (No (R 25)) (R 26)));
  (39%nat, Xo (R 39) (R 34));
  (25%nat, RLo (R 39) 27);
  (40%nat, Xo (R 40) (R 30));
  (26%nat, RLo (R 40) 36);
  (46%nat, Xo (R 46) (R 31));
  (27%nat, RLo (R 46) 10);
  (52%nat, Xo (R 52) (R 32));
  (28%nat, RLo (R 52) 15);
  (58%nat, Xo (R 58) (R 33));
  (29%nat, RLo (R 58) 56);
  (15%nat, Xo (R 25) (An (No (R 26)) (R 27)));
  (16%nat, Xo (R 26) (An (No (R 27)) (R 28)));
  (17%nat, Xo (R 27) (An (No (R 28)) (R 29)));
  (18%nat, Xo (R 28) (An (No (R 29)) (R 25)));
  (19%nat, Xo (R 29) (An (No (R 25)) (R 26)));
  (37%nat, Xo (R 37) (R 32));
  (25%nat, RLo (R 37) 62);
  (43%nat, Xo (R 43) (R 33));
  (26%nat, RLo (R 43) 55);
  (49%nat, Xo (R 49) (R 34));
  (27%nat, RLo (R 49) 39);
  (50%nat, Xo (R 50) (R 30));
  (28%nat, RLo (R 50) 41);
  (56%nat, Xo (R 56) (R 31));
  (29%nat, RLo (R 56) 2);
  (20%nat, Xo (R 25) (An (No (R 26)) (R 27)));
  (21%nat, Xo (R 26) (An (No (R 27)) (R 28)));
  (22%nat, Xo (R 27) (An (No (R 28)) (R 29)));
  (23%nat, Xo (R 28) (An (No (R 29)) (R 25)));
  (24%nat, Xo (R 29) (An (No (R 25)) (R 26)));
  (25%nat, Xo (Xo (Xo (Xo (R 0) (R 5)) (R 10)) (R 15)) (R 20));
  (26%nat, Xo (Xo (Xo (Xo (R 1) (R 6)) (R 11)) (R 16)) (R 21));
  (27%nat, Xo (Xo (Xo (Xo (R 2) (R 7)) (R 12)) (R 17)) (R 22));
  (28%nat, Xo (Xo (Xo (Xo (R 3) (R 8)) (R 13)) (R 18)) (R 23));
  (29%nat, Xo (Xo (Xo (Xo (R 4) (R 9)) (R 14)) (R 19)) (R 24));
  (30%nat, Xo (R 29) (RLo (R 26) 1));
  (31%nat, Xo (R 25) (RLo (R 27) 1));
  (32%nat, Xo (R 26) (RLo (R 28) 1));
  (33%nat, Xo (R 27) (RLo (R 29) 1));
  (34%nat, Xo (R 28) (RLo (R 25) 1));
  (0%nat, Xo (R 0) (R 30));
  (25%nat, R 0);
  (6%nat, Xo (R 6) (R 31));
  (26%nat, RLo (R 6) 44);
  (12%nat, Xo (R 12) (R 32));
  (27%nat, RLo (R 12) 43);
  (18%nat, Xo (R 18) (R 33));
  (28%nat, RLo (R 18) 21);
  (24%nat, Xo (R 24) (R 34));
  (29%nat, RLo (R 24) 14);
  (35%nat, Xo (R 25) (An (No (R 26)) (R 27)));
  (35%nat, Xo (R 35) (K 0x80008009));
  (36%nat, Xo (R 26) (An (No (R 27)) (R 28)));
  (37%nat, Xo (R 27) (An (No (R 28)) (R 29)));
  (38%nat, Xo (R 28) (An (No (R 29)) (R 25)));
  (39%nat, Xo (R 29) (An (No (R 25)) (R 26)));
  (3%nat, Xo (R 3) (R 33));
  (25%nat, RLo (R 3) 28);
  (9%nat, Xo (R 9) (R 34));
  (26%nat, RLo (R 9) 20);
  (10%nat, Xo (R 10) (R 30));
  (27%nat, RLo (R 10) 3);
  (16%nat, Xo (R 16) (R 31));
  (28%nat, RLo (R 16) 45);
  (22%nat, Xo (R 22) (R 32));
  (29%nat, RLo (R 22) 61);
  (40%nat, Xo (R 25) (An (No (R 26)) (R 27)));
  (41%nat, Xo (R 26) (An (No (R 27)) (R 28)));
  (42%nat, Xo (R 27) (An (No (R 28)) (R 29)));
  (43%nat, Xo (R 28) (An (No (R 29)) (R 25)));
  (44%nat, Xo (R 29) (An (No (R 25)) (R 26)));
  (1%nat, Xo (R 1) (R 31));
  (25%nat, RLo (R 1) 1);
  (7%nat, Xo (R 7) (R 32));
  (26%nat, RLo (R 7) 6);
  (13%nat, Xo (R 13) (R 33));
  (27%nat, RLo (R 13) 25);
  (19%nat, Xo (R 19) (R 34));
  (28%nat, RLo (R 19) 8);
  (20%nat, Xo (R 20) (R 30));
  (29%nat, RLo (R 20) 18);
  (45%nat, Xo (R 25) (An (No (R 26)) (R 27)));
  (46%nat, Xo (R 26) (An (No (R 27)) (R 28)));
  (47%nat, Xo (R 27) (An (No (R 28)) (R 29)));
  (48%nat, Xo (R 28) (An (No (R 29)) (R 25)));
  (49%nat, Xo (R 29) (An (No (R 25)) (R 26)));
  (4%nat, Xo (R 4) (R 34));
  (25%nat, RLo (R 4) 27);
  (5%nat, Xo (R 5) (R 30));
  (26%nat, RLo (R 5) 36);
  (11%nat, Xo (R 11) (R 31));
  (27%nat, RLo (R 11) 10);
  (17%nat, Xo (R 17) (R 32));
  (28%nat, RLo (R 17) 15);
  (23%nat, Xo (R 23) (R 33));
  (29%nat, RLo (R 23) 56);
  (50%nat, Xo (R 25) (An (No (R 26)) (R 27)));
  (51%nat, Xo (R 26) (An (No (R 27)) (R 28)));
  (52%nat, Xo (R 27) (An (No (R 28)) (R 29)));
  (53%nat, Xo (R 28) (An (No (R 29)) (R 25)));
  (54%nat, Xo (R 29) (An (No (R 25)) (R 26)));
  (2%nat, Xo (R 2) (R 32));
  (25%nat, RLo (R 2) 62);
  (8%nat, Xo (R 8) (R 33));
  (26%nat, RLo (R 8) 55);
  (14%nat, Xo (R 14) (R 34));
  (27%nat, RLo (R 14) 39);
  (15%nat, Xo (R 15) (R 30));
  (28%nat, RLo (R 15) 41);
  (21%nat, Xo (R 21) (R 31));
  (29%nat, RLo (R 21) 2);
  (55%nat, Xo (R 25) (An (No (R 26)) (R 27)));
  (56%nat, Xo (R 26) (An (No (R 27)) (R 28)));
  (57%nat, Xo (R 27) (An (No (R 28)) (R 29)));
  (58%nat, Xo (R 28) (An (No (R 29)) (R 25)));
  (59%nat, Xo (R 29) (An (No (R 25)) (R 26)));
  (25%nat, Xo (Xo (Xo (Xo (R 35) (R 40)) (R 45)) (R 50)) (R 55));
  (26%nat, Xo (Xo (Xo (Xo (R 36) (R 41)) (R 46)) (R 51)) (R 56));
  (27%nat, Xo (Xo (Xo (Xo (R 37) (R 42)) (R 47)) (R 52)) (R 57));
  (28%nat, Xo (Xo (Xo (Xo (R 38) (R 43)) (R 48)) (R 53)) (R 58));
  (29%nat, Xo (Xo (Xo (Xo (R 39) (R 44)) (R 49)) (R 54)) (R 59));
  (30%nat, Xo (R 29) (RLo (R 26) 1));
  (31%nat, Xo (R 25) (RLo (R 27) 1));
  (32%nat, Xo (R 26) (RLo (R 28) 1));
  (33%nat, Xo (R 27) (RLo (R 29) 1));
  (34%nat, Xo (R 28) (RLo (R 25) 1));
  (35%nat, Xo (R 35) (R 30));
  (25%nat, R 35);
  (41%nat, Xo (R 41) (R 31));
  (26%nat, RLo (R 41) 44);
  (47%nat, Xo (R 47) (R 32));
  (27%nat, RLo (R 47) 43);
  (53%nat, Xo (R 53) (R 33));
  (28%nat, RLo (R 53) 21);
  (59%nat, Xo (R 59) (R 34));
  (29%nat, RLo (R 59) 14);
  (0%nat, Xo (R 25) (An (No (R 26)) (R 27)));
  (0%nat, Xo (R 0) (K 0x8000000A));
  (1%nat, Xo (R 26) (An (No (R 27)) (R 28)));
  (2%nat, Xo (R 27) (An (No (R 28)) (R 29)));
  (3%nat, Xo (R 28) (An (No (R 29)) (R 25)));
  (4%nat, Xo (R 29) (An (No (R 25)) (R 26)));
  (38%nat, Xo (R 38) (R 33));
  (25%nat, RLo (R 38) 28);
  (44%nat, Xo (R 44) (R 34));
  (26%nat, RLo (R 44) 20);
  (45%nat, Xo (R 45) (R 30));
  (27%nat, RLo (R 45) 3);
  (51%nat, Xo (R 51) (R 31));
  (28%nat, RLo (R 51) 45);
  (57%nat, Xo (R 57) (R 32));
  (29%nat, RLo (R 57) 61);
  (5%nat, Xo (R 25) (An (No (R 26)) (R 27)));
  (6%nat, Xo (R 26) (An (No (R 27)) (R 28)));
  (7%nat, Xo (R 27) (An (No (R 28)) (R 29)));
  (8%nat, Xo (R 28) (An (No (R 29)) (R 25)));
  (9%nat, Xo (R 29) (An (No (R 25)) (R 26)));
  (36%nat, Xo (R 36) (R 31));
  (25%nat, RLo (R 36) 1);
  (42%nat, Xo (R 42) (R 32));
  (26%nat, RLo (R 42) 6);
  (48%nat, Xo (R 48) (R 33));
  (27%nat, RLo (R 48) 25);
  (54%nat, Xo (R 54) (R 34));
  (28%nat, RLo (R 54) 8);
  (55%nat, Xo (R 55) (R 30));
  (29%nat, RLo (R 55) 18);
  (10%nat, Xo (R 25) (An (No (R 26)) (R 27)));
  (11%nat, Xo (R 26) (An (No (R 27)) (R 28)));
  (12%nat, Xo (R 27) (An (No (R 28)) (R 29)));
  (13%nat, Xo (R 28) (An (No (R 29)) (R 25)));
  (14%nat, Xo (R 29) (An (No (R 25)) (R 26)));
  (39%nat, Xo (R 39) (R 34));
  (25%nat, RLo (R 39) 27);
  (40%nat, Xo (R 40) (R 30));
  (26%nat, RLo (R 40) 36);
  (46%nat, Xo (R 46) (R 31));
  (27%nat, RLo (R 46) 10);
  (52%nat, Xo (R 52) (R 32));
  (28%nat, RLo (R 52) 15);
  (58%nat, Xo (R 58) (R 33));
  (29%nat, RLo (R 58) 56);
  (15%nat, Xo (R 25) (An (No (R 26)) (R 27)));
  (16%nat, Xo (R 26) (An (No (R 27)) (R 28)));
  (17%nat, Xo (R 27) (An (No (R 28)) (R 29)));
  (18%nat, Xo (R 28) (An (No (R 29)) (R 25)));
  (19%nat, Xo (R 29) (An (No (R 25)) (R 26)));
  (37%nat, Xo (R 37) (R 32));
  (25%nat, RLo (R 37) 62);
  (43%nat, Xo (R 43) (R 33));
  (26%nat, RLo (R 43) 55);
  (49%nat, Xo (R 49) (R 34));
  (27%nat, RLo (R 49) 39);
  (50%nat, Xo (R 50) (R 30));
  (28%nat, RLo (R 50) 41);
  (56%nat, Xo (R 56) (R 31));
  (29%nat, RLo (R 56) 2);
  (20%nat, Xo (R 25) (An (No (R 26)) (R 27)));
  (21%nat, Xo (R 26) (An (No (R 27)) (R 28)));
  (22%nat, Xo (R 27) (An (No (R 28)) (R 29)));
  (23%nat, Xo (R 28) (An (No (R 29)) (R 25)));
  (24%nat, Xo (R 29) (An (No (R 25)) (R 26)));
  (25%nat, Xo (Xo (Xo (Xo (R 0) (R 5)) (R 10)) (R 15)) (R 20));
  (26%nat, Xo (Xo (Xo (Xo (R 1) (R 6)) (R 11)) (R 16)) (R 21));
  (27%nat, Xo (Xo (Xo (Xo (R 2) (R 7)) (R 12)) (R 17)) (R 22));
  (28%nat, Xo (Xo (Xo (Xo (R 3) (R 8)) (R 13)) (R 18)) (R 23));
  (29%nat, Xo (Xo (Xo (Xo (R 4) (R 9)) (R 14)) (R 19)) (R 24));
  (30%nat, Xo (R 29) (RLo (R 26) 1));
  (31%nat, Xo (R 25) (RLo (R 27) 1));
  (32%nat, Xo (R 26) (RLo (R 28) 1));
  (33%nat, Xo (R 27) (RLo (R 29) 1));
  (34%nat, Xo (R 28) (RLo (R 25) 1));
  (0%nat, Xo (R 0) (R 30));
  (25%nat, R 0);
  (6%nat, Xo (R 6) (R 31));
  (26%nat, RLo (R 6) 44);
  (12%nat, Xo (R 12) (R 32));
  (27%nat, RLo (R 12) 43);
  (18%nat, Xo (R 18) (R 33));
  (28%nat, RLo (R 18) 21);
  (24%nat, Xo (R 24) (R 34));
  (29%nat, RLo (R 24) 14);
  (35%nat, Xo (R 25) (An (No (R 26)) (R 27)));
  (35%nat, Xo (R 35) (K 0x8000808B));
  (36%nat, Xo (R 26) (An (No (R 27)) (R 28)));
  (37%nat, Xo (R 27) (An (No (R 28)) (R 29)));
  (38%nat, Xo (R 28) (An (No (R 29)) (R 25)));
  (39%nat, Xo (R 29) (An (No (R 25)) (R 26)));
  (3%nat, Xo (R 3) (R 33));
  (25%nat, RLo (R 3) 28);
  (9%nat, Xo (R 9) (R 34));
  (26%nat, RLo (R 9) 20);
  (10%nat, Xo (R 10) (R 30));
  (27%nat, RLo (R 10) 3);
  (16%nat, Xo (R 16) (R 31));
  (28%nat, RLo (R 16) 45);
  (22%nat, Xo (R 22) (R 32));
  (29%nat, RLo (R 22) 61);
  (40%nat, Xo (R 25) (An (No (R 26)) (R 27)));
  (41%nat, Xo (R 26) (An (No (R 27)) (R 28)));
  (42%nat, Xo (R 27) (An (No (R 28)) (R 29)));
  (43%nat, Xo (R 28) (An (No (R 29)) (R 25)));
  (44%nat, Xo (R 29) (An (No (R 25)) (R 26)));
  (1%nat, Xo (R 1) (R 31));
  (25%nat, RLo (R 1) 1);
  (7%nat, Xo (R 7) (R 32));
  (26%nat, RLo (R 7) 6);
  (13%nat, Xo (R 13) (R 33));
  (27%nat, RLo (R 13) 25);
  (19%nat, Xo (R 19) (R 34));
  (28%nat, RLo (R 19) 8);
  (20%nat, Xo (R 20) (R 30));
  (29%nat, RLo (R 20) 18);
  (45%nat, Xo (R 25) (An (No (R 26)) (R 27)));
  (46%nat, Xo (R 26) (An (No (R 27)) (R 28)));
  (47%nat, Xo (R 27) (An (No (R 28)) (R 29)));
  (48%nat, Xo (R 28) (An (No (R 29)) (R 25)));
  (49%nat, Xo (R 29) (An (No (R 25)) (R 26)));
  (4%nat, Xo (R 4) (R 34));
  (25%nat, RLo (R 4) 27);
  (5%nat, Xo (R 5) (R 30));
  (26%nat, RLo (R 5) 36);
  (11%nat, Xo (R 11) (R 31));
  (27%nat, RLo (R 11) 10);
  (17%nat, Xo (R 17) (R 32));
  (28%nat, RLo (R 17) 15);
  (23%nat, Xo (R 23) (R 33));
  (29%nat, RLo (R 23) 56);
  (50%nat, Xo (R 25) (An (No (R 26)) (R 27)));
  (51%nat, Xo (R 26) (An (No (R 27)) (R 28)));
  (52%nat, Xo (R 27) (An (No (R 28)) (R 29)));
  (53%nat, Xo (R 28) (An (No (R 29)) (R 25)));
  (54%nat, Xo (R 29) (An (No (R 25)) (R 26)));
  (2%nat, Xo (R 2) (R 32));
  (25%nat, RLo (R 2) 62);
  (8%nat, Xo (R 8) (R 33));
  (26%nat, RLo (R 8) 55);
  (14%nat, Xo (R 14) (R 34));
  (27%nat, RLo (R 14) 39);
  (15%nat, Xo (R 15) (R 30));
  (28%nat, RLo (R 15) 41);
  (21%nat, Xo (R 21) (R 31));
  (29%nat, RLo (R 21) 2);
  (55%nat, Xo (R 25) (An (No (R 26)) (R 27)));
  (56%nat, Xo (R 26) (An (No (R 27)) (R 28)));
  (57%nat, Xo (R 27) (An (No (R 28)) (R 29)));
  (58%nat, Xo (R 28) (An (No (R 29)) (R 25)));
  (59%nat, Xo (R 29) (An (No (R 25)) (R 26)));
  (25%nat, Xo (Xo (Xo (Xo (R 35) (R 40)) (R 45)) (R 50)) (R 55));
  (26%nat, Xo (Xo (Xo (Xo (R 36) (R 41)) (R 46)) (R 51)) (R 56));
  (27%nat, Xo (Xo (Xo (Xo (R 37) (R 42)) (R 47)) (R 52)) (R 57));
  (28%nat, Xo (Xo (Xo (Xo (R 38) (R 43)) (R 48)) (R 53)) (R 58));
  (29%nat, Xo (Xo (Xo (Xo (R 39) (R 44)) (R 49)) (R 54)) (R 59));
  (30%nat, Xo (R 29) (RLo (R 26) 1));
  (31%nat, Xo (R 25) (RLo (R 27) 1));
  (32%nat, Xo (R 26) (RLo (R 28) 1));
  (33%nat, Xo (R 27) (RLo (R 29) 1));
  (34%nat, Xo (R 28) (RLo (R 25) 1));
  (35%nat, Xo (R 35) (R 30));
  (25%nat, R 35);
  (41%nat, Xo (R 41) (R 31));
  (26%nat, RLo (R 41) 44);
  (47%nat, Xo (R 47) (R 32));
  (27%nat, RLo (R 47) 43);
  (53%nat, Xo (R 53) (R 33));
  (28%nat, RLo (R 53) 21);
  (59%nat, Xo (R 59) (R 34));
  (29%nat, RLo (R 59) 14);
  (0%nat, Xo (R 25) (An (No (R 26)) (R 27)));
  (0%nat, Xo (R 0) (K 0x800000000000008B));
  (1%nat, Xo (R 26) (An (No (R 27)) (R 28)));
  (2%nat, Xo (R 27) (An (No (R 28)) (R 29)));
  (3%nat, Xo (R 28) (An (No (R 29)) (R 25)));
  (4%nat, Xo (R 29) (An (No (R 25)) (R 26)));
  (38%nat, Xo (R 38) (R 33));
  (25%nat, RLo (R 38) 28);
  (44%nat, Xo (R 44) (R 34));
  (26%nat, RLo (R 44) 20);
  (45%nat, Xo (R 45) (R 30));
  (27%nat, RLo (R 45) 3);
  (51%nat, Xo (R 51) (R 31));
  (28%nat, RLo (R 51) 45);
  (57%nat, Xo (R 57) (R 32));
  (29%nat, RLo (R 57) 61);
  (5%nat, Xo (R 25) (An (No (R 26)) (R 27)));
  (6%nat, Xo (R 26) (An (No (R 27)) (R 28)));
  (7%nat, Xo (R 27) (An (No (R 28)) (R 29)));
  (8%nat, Xo (R 28) (An (No (R 29)) (R 25)));
  (9%nat, Xo (R 29) (An (No (R 25)) (R 26)));
  (36%nat, Xo (R 36) (R 31));
  (25%nat, RLo (R 36) 1);
  (42%nat, Xo (R 42) (R 32));
  (26%nat, RLo (R 42) 6);
  (48%nat, Xo (R 48) (R 33));
  (27%nat, RLo (R 48) 25);
  (54%nat, Xo (R 54) (R 34));
  (28%nat, RLo (R 54) 8);
  (55%nat, Xo (R 55) (R 30));
  (29%nat, RLo (R 55) 18);
  (10%nat, Xo (R 25) (An (No (R 26)) (R 27)));
  (11%nat, Xo (R 26) (An (No (R 27)) (R 28)));
  (12%nat, Xo (R 27) (An (No (R 28)) (R 29)));
  (13%nat, Xo (R 28) (An (No (R 29)) (R 25)));
  (14%nat, Xo (R 29) (An (No (R 25)) (R 26)));
  (39%nat, Xo (R 39) (R 34));
  (25%nat, RLo (R 39) 27);
  (40%nat, Xo (R 40) (R 30));
  (26%nat, RLo (R 40) 36);
  (46%nat, Xo (R 46) (R 31));
  (27%nat, RLo (R 46) 10);
  (52%nat, Xo (R 52) (R 32));
  (28%nat, RLo (R 52) 15);
  (58%nat, Xo (R 58) (R 33));
  (29%nat, RLo (R 58) 56);
  (15%nat, Xo (R 25) (An (No (R 26)) (R 27)));
  (16%nat, Xo (R 26) (An (No (R 27)) (R 28)));
  (17%nat, Xo (R 27) (An (No (R 28)) (R 29)));
  (18%nat, Xo (R 28) (An (No (R 29)) (R 25)));
  (19%nat, Xo (R 29) (An (No (R 25)) (R 26)));
  (37%nat, Xo (R 37) (R 32));
  (25%nat, RLo (R 37) 62);
  (43%nat, Xo (R 43) (R 33));
  (26%nat, RLo (R 43) 55);
  (49%nat, Xo (R 49) (R 34));
  (27%nat, RLo (R 49) 39);
  (50%nat, Xo (R 50) (R 30));
  (28%nat, RLo (R 50) 41);
  (56%nat, Xo (R 56) (R 31));
  (29%nat, RLo (R 56) 2);
  (20%nat, Xo (R 25) (An (No (R 26)) (R 27)));
  (21%nat, Xo (R 26) (An (No (R 27)) (R 28)));
  (22%nat, Xo (R 27) (An (No (R 28)) (R 29)));
  (23%nat, Xo (R 28) (An (No (R 29)) (R 25)));
  (24%nat, Xo (R 29) (An (No (R 25)) (R 26)));
  (25%nat, Xo (Xo (Xo (Xo (R 0) (R 5)) (R 10)) (R 15)) (R 20));
  (26%nat, Xo (Xo (Xo (Xo (R 1) (R 6)) (R 11)) (R 16)) (R 21));
  (27%nat, Xo (Xo (Xo (Xo (R 2) (R 7)) (R 12)) (R 17)) (R 22));
  (28%nat, Xo (Xo (Xo (Xo (R 3) (R 8)) (R 13)) (R 18)) (R 23));
  (29%nat, Xo (Xo (Xo (Xo (R 4) (R 9)) (R 14)) (R 19)) (R 24));
  (30%nat, Xo (R 29) (RLo (R 26) 1));
  (31%nat, Xo (R 25) (RLo (R 27) 1));
  (32%nat, Xo (R 26) (RLo (R 28) 1));
  (33%nat, Xo (R 27) (RLo (R 29) 1));
  (34%nat, Xo (R 28) (RLo (R 25) 1));
  (0%nat, Xo (R 0) (R 30));
  (25%nat, R 0);
  (6%nat, Xo (R 6) (R 31));
  (26%nat, RLo (R 6) 44);
  (12%nat, Xo (R 12) (R 32));
  (27%nat, RLo (R 12) 43);
  (18%nat, Xo (R 18) (R 33));
  (28%nat, RLo (R 18) 21);
  (24%nat, Xo (R 24) (R 34));
  (29%nat, RLo (R 24) 14);
  (35%nat, Xo (R 25) (An (No (R 26)) (R 27)));
  (35%nat, Xo (R 35) (K 0x8000000000008089));
  (36%nat, Xo (R 26) (An (No (R 27)) (R 28)));
  (37%nat, Xo (R 27) (An (No (R 28)) (R 29)));
  (38%nat, Xo (R 28) (An (No (R 29)) (R 25)));
  (39%nat, Xo (R 29) (An (No (R 25)) (R 26)));
  (3%nat, Xo (R 3) (R 33));
  (25%nat, RLo (R 3) 28);
  (9%nat, Xo (R 9) (R 34));
  (26%nat, RLo (R 9) 20);
  (10%nat, Xo (R 10) (R 30));
  (27%nat, RLo (R 10) 3);
  (16%nat, Xo (R 16) (R 31));
  (28%nat, RLo (R 16) 45);
  (22%nat, Xo (R 22) (R 32));
  (29%nat, RLo (R 22) 61);
  (40%nat, Xo (R 25) (An (No (R 26)) (R 27)));
  (41%nat, Xo (R 26) (An (No (R 27)) (R 28)));
  (42%nat, Xo (R 27) (An (No (R 28)) (R 29)));
  (43%nat, Xo (R 28) (An (No (R 29)) (R 25)));
  (44%nat, Xo (R 29) (An (No (R 25)) (R 26)));
  (1%nat, Xo (R 1) (R 31));
  (25%nat, RLo (R 1) 1);
  (7%nat, Xo (R 7) (R 32));
  (26%nat, RLo (R 7) 6);
  (13%nat, Xo (R 13) (R 33));
  (27%nat, RLo (R 13) 25);
  (19%nat, Xo (R 19) (R 34));
  (28%nat, RLo (R 19) 8);
  (20%nat, Xo (R 20) (R 30));
  (29%nat, RLo (R 20) 18);
  (45%nat, Xo (R 25) (An (No (R 26)) (R 27)));
  (46%nat, Xo (R 26) (An (No (R 27)) (R 28)));
  (47%nat, Xo (R 27) (An (No (R 28)) (R 29)));
  (48%nat, Xo (R 28) (An (No (R 29)) (R 25)));
  (49%nat, Xo (R 29) (An (No (R 25)) (R 26)));
  (4%nat, Xo (R 4) (R 34));
  (25%nat, RLo (R 4) 27);
  (5%nat, Xo (R 5) (R 30));
  (26%nat, RLo (R 5) 36);
  (11%nat, Xo (R 11) (R 31));
  (27%nat, RLo (R 11) 10);
  (17%nat, Xo (R 17) (R 32));
  (28%nat, RLo (R 17) 15);
  (23%nat, Xo (R 23) (R 33));
  (29%nat, RLo (R 23) 56);
  (50%nat, Xo (R 25) (An (No (R 26)) (R 27)));
  (51%nat, Xo (R 26) (An (No (R 27)) (R 28)));
  (52%nat, Xo (R 27) (An (No (R 28)) (R 29)));
  (53%nat, Xo (R 28) (An (No (R 29)) (R 25)));
  (54%nat, Xo (R 29) (An (No (R 25)) (R 26)));
  (2%nat, Xo (R 2) (R 32));
  (25%nat, RLo (R 2) 62);
  (8%nat, Xo (R 8) (R 33));
  (26%nat, RLo (R 8) 55);
  (14%nat, Xo (R 14) (R 34));
  (27%nat, RLo (R 14) 39);
  (15%nat, Xo (R 15) (R 30));
  (28%nat, RLo (R 15) 41);
  (21%nat, Xo (R 21) (R 31));
  (29%nat, RLo (R 21) 2);
  (55%nat, Xo (R 25) (An (No (R 26)) (R 27)));
  (56%nat, Xo (R 26) (An (No (R 27)) (R 28)));
  (57%nat, Xo (R 27) (An (No (R 28)) (R 29)));
  (58%nat, Xo (R 28) (An (No (R 29)) (R 25)));
  (59%nat, Xo (R 29) (An (No (R 25)) (R 26)));
  (25%nat, Xo (Xo (Xo (Xo (R 35) (R 40)) (R 45)) (R 50)) (R 55));
  (26%nat, Xo (Xo (Xo (Xo (R 36) (R 41)) (R 46)) (R 51)) (R 56));
  (27%nat, Xo (Xo (Xo (Xo (R 37) (R 42)) (R 47)) (R 52)) (R 57));
  (28%nat, Xo (Xo (Xo (Xo (R 38) (R 43)) (R 48)) (R 53)) (R 58));
  (29%nat, Xo (Xo (Xo (Xo (R 39) (R 44)) (R 49)) (R 54)) (R 59));
  (30%nat, Xo (R 29) (RLo (R 26) 1));
  (31%nat, Xo (R 25) (RLo (R 27) 1));
  (32%nat, Xo (R 26) (RLo (R 28) 1));
  (33%nat, Xo (R 27) (RLo (R 29) 1));
  (34%nat, Xo (R 28) (RLo (R 25) 1));
  (35%nat, Xo (R 35) (R 30));
  (25%nat, R 35);
  (41%nat, Xo (R 41) (R 31));
  (26%nat, RLo (R 41) 44);
  (47%nat, Xo (R 47) (R 32));
  (27%nat, RLo (R 47) 43);
  (53%nat, Xo (R 53) (R 33));
  (28%nat, RLo (R 53) 21);
  (59%nat, Xo (R 59) (R 34));
  (29%nat, RLo (R 59) 14);
  (0%nat, Xo (R 25) (An (No (R 26)) (R 27)));
  (0%nat, Xo (R 0) (K 0x8000000000008003));
  (1%nat, Xo (R 26) (An (No (R 27)) (R 28)));
  (2%nat, Xo (R 27) (An (No (R 28)) (R 29)));
  (3%nat, Xo (R 28) (An (No (R 29)) (R 25)));
  (4%nat, Xo (R 29) (An (No (R 25)) (R 26)));
  (38%nat, Xo (R 38) (R 33));
  (25%nat, RLo (R 38) 28);
  (44%nat, Xo (R 44) (R 34));
  (26%nat, RLo (R 44) 20);
  (45%nat, Xo (R 45) (R 30));
  (27%nat, RLo (R 45) 3);
  (51%nat, Xo (R 51) (R 31));
  (28%nat, RLo (R 51) 45);
  (57%nat, Xo (R 57) (R 32));
  (29%nat, RLo (R 57) 61);
  (5%nat, Xo (R 25) (An (No (R 26)) (R 27)));
  (6%nat, Xo (R 26) (An (No (R 27)) (R 28)));
  (7%nat, Xo (R 27) (An (No (R 28)) (R 29)));
  (8%nat, Xo (R 28) (An (No (R 29)) (R 25)));
  (9%nat, Xo (R 29) (An (No (R 25)) (R 26)));
  (36%nat, Xo (R 36) (R 31));
  (25%nat, RLo (R 36) 1);
  (42%nat, Xo (R 42) (R 32));
  (26%nat, RLo (R 42) 6);
  (48%nat, Xo (R 48) (R 33));
  (27%nat, RLo (R 48) 25);
  (54%nat, Xo (R 54) (R 34));
  (28%nat, RLo (R 54) 8);
  (55%nat, Xo (R 55) (R 30));
  (29%nat, RLo (R 55) 18);
  (10%nat, Xo (R 25) (An (No (R 26)) (R 27)));
  (11%nat, Xo (R 26) (An (No (R 27)) (R 28)));
  (12%nat, Xo (R 27) (An (No (R 28)) (R 29)));
  (13%nat, Xo (R 28) (An (No (R 29)) (R 25)));
  (14%nat, Xo (R 29) (An (No (R 25)) (R 26)));
  (39%nat, Xo (R 39) (R 34));
  (25%nat, RLo (R 39) 27);
  (40%nat, Xo (R 40) (R 30));
  (26%nat, RLo (R 40) 36);
  (46%nat, Xo (R 46) (R 31));
  (27%nat, RLo (R 46) 10);
  (52%nat, Xo (R 52) (R 32));
  (28%nat, RLo (R 52) 15);
  (58%nat, Xo (R 58) (R 33));
  (29%nat, RLo (R 58) 56);
  (15%nat, Xo (R 25) (An (No (R 26)) (R 27)));
  (16%nat, Xo (R 26) (An (No (R 27)) (R 28)));
  (17%nat, Xo (R 27) (An (No (R 28)) (R 29)));
  (18%nat, Xo (R 28) (An (No (R 29)) (R 25)));
  (19%nat, Xo (R 29) (An (No (R 25)) (R 26)));
  (37%nat, Xo (R 37) (R 32));
  (25%nat, RLo (R 37) 62);
  (43%nat, Xo (R 43) (R 33));
  (26%nat, RLo (R 43) 55);
  (49%nat, Xo (R 49) (R 34));
  (27%nat, RLo (R 49) 39);
  (50%nat, Xo (R 50) (R 30));
  (28%nat, RLo (R 50) 41);
  (56%nat, Xo (R 56) (R 31));
  (29%nat, RLo (R 56) 2);
  (20%nat, Xo (R 25) (An (No (R 26)) (R 27)));
  (21%nat, Xo (R 26) (An (No (R 27)) (R 28)));
  (22%nat, Xo (R 27) (An (No (R 28)) (R 29)));
  (23%nat, Xo (R 28) (An (No (R 29)) (R 25)));
  (24%nat, Xo (R 29) (An (No (R 25)) (R 26)));
  (25%nat, Xo (Xo (Xo (Xo (R 0) (R 5)) (R 10)) (R 15)) (R 20));
  (26%nat, Xo (Xo (Xo (Xo (R 1) (R 6)) (R 11)) (R 16)) (R 21));
  (27%nat, Xo (Xo (Xo (Xo (R 2) (R 7)) (R 12)) (R 17)) (R 22));
  (28%nat, Xo (Xo (Xo (Xo (R 3) (R 8)) (R 13)) (R 18)) (R 23));
  (29%nat, Xo (Xo (Xo (Xo (R 4) (R 9)) (R 14)) (R 19)) (R 24));
  (30%nat, Xo (R 29) (RLo (R 26) 1));
  (31%nat, Xo (R 25) (RLo (R 27) 1));
  (32%nat, Xo (R 26) (RLo (R 28) 1));
  (33%nat, Xo (R 27) (RLo (R 29) 1));
  (34%nat, Xo (R 28) (RLo (R 25) 1));
  (0%nat, Xo (R 0) (R 30));
  (25%nat, R 0);
  (6%nat, Xo (R 6) (R 31));
  (26%nat, RLo (R 6) 44);
  (12%nat, Xo (R 12) (R 32));
  (27%nat, RLo (R 12) 43);
  (18%nat, Xo (R 18) (R 33));
  (28%nat, RLo (R 18) 21);
  (24%nat, Xo (R 24) (R 34));
  (29%nat, RLo (R 24) 14);
  (35%nat, Xo (R 25) (An (No (R 26)) (R 27)));
  (35%nat, Xo (R 35) (K 0x8000000000008002));
  (36%nat, Xo (R 26) (An (No (R 27)) (R 28)));
  (37%nat, Xo (R 27) (An (No (R 28)) (R 29)));
  (38%nat, Xo (R 28) (An (No (R 29)) (R 25)));
  (39%nat, Xo (R 29) (An (No (R 25)) (R 26)));
  (3%nat, Xo (R 3) (R 33));
  (25%nat, RLo (R 3) 28);
  (9%nat, Xo (R 9) (R 34));
  (26%nat, RLo (R 9) 20);
  (10%nat, Xo (R 10) (R 30));
  (27%nat, RLo (R 10) 3);
  (16%nat, Xo (R 16) (R 31));
  (28%nat, RLo (R 16) 45);
  (22%nat, Xo (R 22) (R 32));
  (29%nat, RLo (R 22) 61);
  (40%nat, Xo (R 25) (An (No (R 26)) (R 27)));
  (41%nat, Xo (R 26) (An (No (R 27)) (R 28)));
  (42%nat, Xo (R 27) (An (No (R 28)) (R 29)));
  (43%nat, Xo (R 28) (An (No (R 29)) (R 25)));
  (44%nat, Xo (R 29) (An (No (R 25)) (R 26)));
  (1%nat, Xo (R 1) (R 31));
  (25%nat, RLo (R 1) 1);
  (7%nat, Xo (R 7) (R 32));
  (26%nat, RLo (R 7) 6);
  (13%nat, Xo (R 13) (R 33));
  (27%nat, RLo (R 13) 25);
  (19%nat, Xo (R 19) (R 34));
  (28%nat, RLo (R 19) 8);
  (20%nat, Xo (R 20) (R 30));
  (29%nat, RLo (R 20) 18);
  (45%nat, Xo (R 25) (An (No (R 26)) (R 27)));
  (46%nat, Xo (R 26) (An (No (R 27)) (R 28)));
  (47%nat, Xo (R 27) (An (No (R 28)) (R 29)));
  (48%nat, Xo (R 28) (An (No (R 29)) (R 25)));
  (49%nat, Xo (R 29) (An (No (R 25)) (R 26)));
  (4%nat, Xo (R 4) (R 34));
  (25%nat, RLo (R 4) 27);
  (5%nat, Xo (R 5) (R 30));
  (26%nat, RLo (R 5) 36);
  (11%nat, Xo (R 11) (R 31));
  (27%nat, RLo (R 11) 10);
  (17%nat, Xo (R 17) (R 32));
  (28%nat, RLo (R 17) 15);
  (23%nat, Xo (R 23) (R 33));
  (29%nat, RLo (R 23) 56);
  (50%nat, Xo (R 25) (An (No (R 26)) (R 27)));
  (51%nat, Xo (R 26) (An (No (R 27)) (R 28)));
  (52%nat, Xo (R 27) (An (No (R 28)) (R 29)));
  (53%nat, Xo (R 28) (An (No (R 29)) (R 25)));
  (54%nat, Xo (R 29) (An (No (R 25)) (R 26)));
  (2%nat, Xo (R 2) (R 32));
  (25%nat, RLo (R 2) 62);
  (8%nat, Xo (R 8) (R 33));
  (26%nat, RLo (R 8) 55);
  (14%nat, Xo (R 14) (R 34));
  (27%nat, RLo (R 14) 39);
  (15%nat, Xo (R 15) (R 30));
  (28%nat, RLo (R 15) 41);
  (21%nat, Xo (R 21) (R 31));
  (29%nat, RLo (R 21) 2);
  (55%nat, Xo (R 25) (An (No (R 26)) (R 27)));
  (56%nat, Xo (R 26) (An (No (R 27)) (R 28)));
  (57%nat, Xo (R 27) (An (No (R 28)) (R 29)));
  (58%nat, Xo (R 28) (An (No (R 29)) (R 25)));
  (59%nat, Xo (R 29) (An (No (R 25)) (R 26)));
  (25%nat, Xo (Xo (Xo (Xo (R 35) (R 40)) (R 45)) (R 50)) (R 55));
  (26%nat, Xo (Xo (Xo (Xo (R 36) (R 41)) (R 46)) (R 51)) (R 56));
  (27%nat, Xo (Xo (Xo (Xo (R 37) (R 42)) (R 47)) (R 52)) (R 57));
  (28%nat, Xo (Xo (Xo (Xo (R 38) (R 43)) (R 48)) (R 53)) (R 58));
  (29%nat, Xo (Xo (Xo (Xo (R 39) (R 44)) (R 49)) (R 54)) (R 59));
  (30%nat, Xo (R 29) (RLo (R 26) 1));
  (31%nat, Xo (R 25) (RLo (R 27) 1));
  (32%nat, Xo (R 26) (RLo (R 28) 1));
  (33%nat, Xo (R 27) (RLo (R 29) 1));
  (34%nat, Xo (R 28) (RLo (R 25) 1));
  (35%nat, Xo (R 35) (R 30));
  (25%nat, R 35);
  (41%nat, Xo (R 41) (R 31));
  (26%nat, RLo (R 41) 44);
  (47%nat, Xo (R 47) (R 32));
  (27%nat, RLo (R 47) 43);
  (53%nat, Xo (R 53) (R 33));
  (28%nat, RLo (R 53) 21);
  (59%nat, Xo (R 59) (R 34));
  (29%nat, RLo (R 59) 14);
  (0%nat, Xo (R 25) (An (No (R 26)) (R 27)));
  (0%nat, Xo (R 0) (K 0x8000000000000080));
  (1%nat, Xo (R 26) (An (No (R 27)) (R 28)));
  (2%nat, Xo (R 27) (An (No (R 28)) (R 29)));
  (3%nat, Xo (R 28) (An (No (R 29)) (R 25)));
  (4%nat, Xo (R 29) (An (No (R 25)) (R 26)));
  (38%nat, Xo (R 38) (R 33));
  (25%nat, RLo (R 38) 28);
  (44%nat, Xo (R 44) (R 34));
  (26%nat, RLo (R 44) 20);
  (45%nat, Xo (R 45) (R 30));
  (27%nat, RLo (R 45) 3);
  (51%nat, Xo (R 51) (R 31));
  (28%nat, RLo (R 51) 45);
  (57%nat, Xo (R 57) (R 32));
  (29%nat, RLo (R 57) 61);
  (5%nat, Xo (R 25) (An (No (R 26)) (R 27)));
  (6%nat, Xo (R 26) (An (No (R 27)) (R 28)));
  (7%nat, Xo (R 27) (An (No (R 28)) (R 29)));
  (8%nat, Xo (R 28) (An (No (R 29)) (R 25)));
  (9%nat, Xo (R 29) (An (No (R 25)) (R 26)));
  (36%nat, Xo (R 36) (R 31));
  (25%nat, RLo (R 36) 1);
  (42%nat, Xo (R 42) (R 32));
  (26%nat, RLo (R 42) 6);
  (48%nat, Xo (R 48) (R 33));
  (27%nat, RLo (R 48) 25);
  (54%nat, Xo (R 54) (R 34));
  (28%nat, RLo (R 54) 8);
  (55%nat, Xo (R 55) (R 30));
  (29%nat, RLo (R 55) 18);
  (10%nat, Xo (R 25) (An (No (R 26)) (R 27)));
  (11%nat, Xo (R 26) (An (No (R 27)) (R 28)));
  (12%nat, Xo (R 27) (An (No (R 28)) (R 29)));
  (13%nat, Xo (R 28) (An (No (R 29)) (R 25)));
  (14%nat, Xo (R 29) (An (No (R 25)) (R 26)));
  (39%nat, Xo (R 39) (R 34));
  (25%nat, RLo (R 39) 27);
  (40%nat, Xo (R 40) (R 30));
  (26%nat, RLo (R 40) 36);
  (46%nat, Xo (R 46) (R 31));
  (27%nat, RLo (R 46) 10);
  (52%nat, Xo (R 52) (R 32));
  (28%nat, RLo (R 52) 15);
  (58%nat, Xo (R 58) (R 33));
  (29%nat, RLo (R 58) 56);
  (15%nat, Xo (R 25) (An (No (R 26)) (R 27)));
  (16%nat, Xo (R 26) (An (No (R 27)) (R 28)));
  (17%nat, Xo (R 27) (An (No (R 28)) (R 29)));
  (18%nat, Xo (R 28) (An (No (R 29)) (R 25)));
  (19%nat, Xo (R 29) (An (No (R 25)) (R 26)));
  (37%nat, Xo (R 37) (R 32));
  (25%nat, RLo (R 37) 62);
  (43%nat, Xo (R 43) (R 33));
  (26%nat, RLo (R 43) 55);
  (49%nat, Xo (R 49) (R 34));
  (27%nat, RLo (R 49) 39);
  (50%nat, Xo (R 50) (R 30));
  (28%nat, RLo (R 50) 41);
  (56%nat, Xo (R 56) (R 31));
  (29%nat, RLo (R 56) 2);
  (20%nat, Xo (R 25) (An (No (R 26)) (R 27)));
  (21%nat, Xo (R 26) (An (No (R 27)) (R 28)));
  (22%nat, Xo (R 27) (An (No (R 28)) (R 29)));
  (23%nat, Xo (R 28) (An (No (R 29)) (R 25)));
  (24%nat, Xo (R 29) (An (No (R 25)) (R 26)));
  (25%nat, Xo (Xo (Xo (Xo (R 0) (R 5)) (R 10)) (R 15)) (R 20));
  (26%nat, Xo (Xo (Xo (Xo (R 1) (R 6)) (R 11)) (R 16)) (R 21));
  (27%nat, Xo (Xo (Xo (Xo (R 2) (R 7)) (R 12)) (R 17)) (R 22));
  (28%nat, Xo (Xo (Xo (Xo (R 3) (R 8)) (R 13)) (R 18)) (R 23));
  (29%nat, Xo (Xo (Xo (Xo (R 4) (R 9)) (R 14)) (R 19)) (R 24));
  (30%nat, Xo (R 29) (RLo (R 26) 1));
  (31%nat, Xo (R 25) (RLo (R 27) 1));
  (32%nat, Xo (R 26) (RLo (R 28) 1));
  (33%nat, Xo (R 27) (RLo (R 29) 1));
  (34%nat, Xo (R 28) (RLo (R 25) 1));
  (0%nat, Xo (R 0) (R 30));
  (25%nat, R 0);
  (6%nat, Xo (R 6) (R 31));
  (26%nat, RLo (R 6) 44);
  (12%nat, Xo (R 12) (R 32));
  (27%nat, RLo (R 12) 43);
  (18%nat, Xo (R 18) (R 33));
  (28%nat, RLo (R 18) 21);
  (24%nat, Xo (R 24) (R 34));
  (29%nat, RLo (R 24) 14);
  (35%nat, Xo (R 25) (An (No (R 26)) (R 27)));
  (35%nat, Xo (R 35) (K 0x800A));
  (36%nat, Xo (R 26) (An (No (R 27)) (R 28)));
  (37%nat, Xo (R 27) (An (No (R 28)) (R 29)));
  (38%nat, Xo (R 28) (An (No (R 29)) (R 25)));
  (39%nat, Xo (R 29) (An (No (R 25)) (R 26)));
  (3%nat, Xo (R 3) (R 33));
  (25%nat, RLo (R 3) 28);
  (9%nat, Xo (R 9) (R 34));
  (26%nat, RLo (R 9) 20);
  (10%nat, Xo (R 10) (R 30));
  (27%nat, RLo (R 10) 3);
  (16%nat, Xo (R 16) (R 31));
  (28%nat, RLo (R 16) 45);
  (22%nat, Xo (R 22) (R 32));
  (29%nat, RLo (R 22) 61);
  (40%nat, Xo (R 25) (An (No (R 26)) (R 27)));
  (41%nat, Xo (R 26) (An (No (R 27)) (R 28)));
  (42%nat, Xo (R 27) (An (No (R 28)) (R 29)));
  (43%nat, Xo (R 28) (An (No (R 29)) (R 25)));
  (44%nat, Xo (R 29) (An (No (R 25)) (R 26)));
  (1%nat, Xo (R 1) (R 31));
  (25%nat, RLo (R 1) 1);
  (7%nat, Xo (R 7) (R 32));
  (26%nat, RLo (R 7) 6);
  (13%nat, Xo (R 13) (R 33));
  (27%nat, RLo (R 13) 25);
  (19%nat, Xo (R 19) (R 34));
  (28%nat, RLo (R 19) 8);
  (20%nat, Xo (R 20) (R 30));
  (29%nat, RLo (R 20) 18);
  (45%nat, Xo (R 25) (An (No (R 26)) (R 27)));
  (46%nat, Xo (R 26) (An (No (R 27)) (R 28)));
  (47%nat, Xo (R 27) (An (No (R 28)) (R 29)));
  (48%nat, Xo (R 28) (An (No (R 29)) (R 25)));
  (49%nat, Xo (R 29) (An (No (R 25)) (R 26)));
  (4%nat, Xo (R 4) (R 34));
  (25%nat, RLo (R 4) 27);
  (5%nat, Xo (R 5) (R 30));
  (26%nat, RLo (R 5) 36);
  (11%nat, Xo (R 11) (R 31));
  (27%nat, RLo (R 11) 10);
  (17%nat, Xo (R 17) (R 32));
  (28%nat, RLo (R 17) 15);
  (23%nat, Xo (R 23) (R 33));
  (29%nat, RLo (R 23) 56);
  (50%nat, Xo (R 25) (An (No (R 26)) (R 27)));
  (51%nat, Xo (R 26) (An (No (R 27)) (R 28)));
  (52%nat, Xo (R 27) (An (No (R 28)) (R 29)));
  (53%nat, Xo (R 28) (An (No (R 29)) (R 25)));
  (54%nat, Xo (R 29) (An (No (R 25)) (R 26)));
  (2%nat, Xo (R 2) (R 32));
  (25%nat, RLo (R 2) 62);
  (8%nat, Xo (R 8) (R 33));
  (26%nat, RLo (R 8) 55);
  (14%nat, Xo (R 14) (R 34));
  (27%nat, RLo (R 14) 39);
  (15%nat, Xo (R 15) (R 30));
  (28%nat, RLo (R 15) 41);
  (21%nat, Xo (R 21) (R 31));
  (29%nat, RLo (R 21) 2);
  (55%nat, Xo (R 25) (An (No (R 26)) (R 27)));
  (56%nat, Xo (R 26) (An (No (R 27)) (R 28)));
  (57%nat, Xo (R 27) (An (No (R 28)) (R 29)));
  (58%nat, Xo (R 28) (An (No (R 29)) (R 25)));
  (59%nat, Xo (R 29) (An (No (R 25)) (R 26)));
  (25%nat, Xo (Xo (Xo (Xo (R 35) (R 40)) (R 45)) (R 50)) (R 55));
  (26%nat, Xo (Xo (Xo (Xo (R 36) (R 41)) (R 46)) (R 51)) (R 56));
  (27%nat, Xo (Xo (Xo (Xo (R 37) (R 42)) (R 47)) (R 52)) (R 57));
  (28%nat, Xo (Xo (Xo (Xo (R 38) (R 43)) (R 48)) (R 53)) (R 58));
  (29%nat, Xo (Xo (Xo (Xo (R 39) (R 44)) (R 49)) (R 54)) (R 59));
  (30%nat, Xo (R 29) (RLo (R 26) 1));
  (31%nat, Xo (R 25) (RLo (R 27) 1));
  (32%nat, Xo (R 26) (RLo (R 28) 1));
  (33%nat, Xo (R 27) (RLo (R 29) 1));
  (34%nat, Xo (R 28) (RLo (R 25) 1));
  (35%nat, Xo (R 35) (R 30));
  (25%nat, R 35);
  (41%nat, Xo (R 41) (R 31));
  (26%nat, RLo (R 41) 44);
  (47%nat, Xo (R 47) (R 32));
  (27%nat, RLo (R 47) 43);
  (53%nat, Xo (R 53) (R 33));
  (28%nat, RLo (R 53) 21);
  (59%nat, Xo (R 59) (R 34));
  (29%nat, RLo (R 59) 14);
  (0%nat, Xo (R 25) (An (No (R 26)) (R 27)));
  (0%nat, Xo (R 0) (K 0x800000008000000A));
  (1%nat, Xo (R 26) (An (No (R 27)) (R 28)));
  (2%nat, Xo (R 27) (An (No (R 28)) (R 29)));
  (3%nat, Xo (R 28) (An (No (R 29)) (R 25)));
  (4%nat, Xo (R 29) (An (No (R 25)) (R 26)));
  (38%nat, Xo (R 38) (R 33));
  (25%nat, RLo (R 38) 28);
  (44%nat, Xo (R 44) (R 34));
  (26%nat, RLo (R 44) 20);
  (45%nat, Xo (R 45) (R 30));
  (27%nat, RLo (R 45) 3);
  (51%nat, Xo (R 51) (R 31));
  (28%nat, RLo (R 51) 45);
  (57%nat, Xo (R 57) (R 32));
  (29%nat, RLo (R 57) 61);
  (5%nat, Xo (R 25) (An (No (R 26)) (R 27)));
  (6%nat, Xo (R 26) (An (No (R 27)) (R 28)));
  (7%nat, Xo (R 27) (An (No (R 28)) (R 29)));
  (8%nat, Xo (R 28) (An (No (R 29)) (R 25)));
  (9%nat, Xo (R 29) (An (No (R 25)) (R 26)));
  (36%nat, Xo (R 36) (R 31));
  (25%nat, RLo (R 36) 1);
  (42%nat, Xo (R 42) (R 32));
  (26%nat, RLo (R 42) 6);
  (48%nat, Xo (R 48) (R 33));
  (27%nat, RLo (R 48) 25);
  (54%nat, Xo (R 54) (R 34));
  (28%nat, RLo (R 54) 8);
  (55%nat, Xo (R 55) (R 30));
  (29%nat, RLo (R 55) 18);
  (10%nat, Xo (R 25) (An (No (R 26)) (R 27)));
  (11%nat, Xo (R 26) (An (No (R 27)) (R 28)));
  (12%nat, Xo (R 27) (An (No (R 28)) (R 29)));
  (13%nat, Xo (R 28) (An (No (R 29)) (R 25)));
  (14%nat, Xo (R 29) (An (No (R 25)) (R 26)));
  (39%nat, Xo (R 39) (R 34));
  (25%nat, RLo (R 39) 27);
  (40%nat, Xo (R 40) (R 30));
  (26%nat, RLo (R 40) 36);
  (46%nat, Xo (R 46) (R 31));
  (27%nat, RLo (R 46) 10);
  (52%nat, Xo (R 52) (R 32));
  (28%nat, RLo (R 52) 15);
  (58%nat, Xo (R 58) (R 33));
  (29%nat, RLo (R 58) 56);
  (15%nat, Xo (R 25) (An (No (R 26)) (R 27)));
  (16%nat, Xo (R 26) (An (No (R 27)) (R 28)));
  (17%nat, Xo (R 27) (An (No (R 28)) (R 29)));
  (18%nat, Xo (R 28) (An (No (R 29)) (R 25)));
  (19%nat, Xo (R 29) (An (No (R 25)) (R 26)));
  (37%nat, Xo (R 37) (R 32));
  (25%nat, RLo (R 37) 62);
  (43%nat, Xo (R 43) (R 33));
  (26%nat, RLo (R 43) 55);
  (49%nat, Xo (R 49) (R 34));
  (27%nat, RLo (R 49) 39);
  (50%nat, Xo (R 50) (R 30));
  (28%nat, RLo (R 50) 41);
  (56%nat, Xo (R 56) (R 31));
  (29%nat, RLo (R 56) 2);
  (20%nat, Xo (R 25) (An (No (R 26)) (R 27)));
  (21%nat, Xo (R 26) (An (No (R 27)) (R 28)));
  (22%nat, Xo (R 27) (An (No (R 28)) (R 29)));
  (23%nat, Xo (R 28) (An (No (R 29)) (R 25)));
  (24%nat, Xo (R 29) (An (No (R 25)) (R 26)));
  (25%nat, Xo (Xo (Xo (Xo (R 0) (R 5)) (R 10)) (R 15)) (R 20));
  (26%nat, Xo (Xo (Xo (Xo (R 1) (R 6)) (R 11)) (R 16)) (R 21));
  (27%nat, Xo (Xo (Xo (Xo (R 2) (R 7)) (R 12)) (R 17)) (R 22));
  (28%nat, Xo (Xo (Xo (Xo (R 3) (R 8)) (R 13)) (R 18)) (R 23));
  (29%nat, Xo (Xo (Xo (Xo (R 4) (R 9)) (R 14)) (R 19)) (R 24));
  (30%nat, Xo (R 29) (RLo (R 26) 1));
  (31%nat, Xo (R 25) (RLo (R 27) 1));
  (32%nat, Xo (R 26) (RLo (R 28) 1));
  (33%nat, Xo (R 27) (RLo (R 29) 1));
  (34%nat, Xo (R 28) (RLo (R 25) 1));
  (0%nat, Xo (R 0) (R 30));
  (25%nat, R 0);
  (6%nat, Xo (R 6) (R 31));
  (26%nat, RLo (R 6) 44);
  (12%nat, Xo (R 12) (R 32));
  (27%nat, RLo (R 12) 43);
  (18%nat, Xo (R 18) (R 33));
  (28%nat, RLo (R 18) 21);
  (24%nat, Xo (R 24) (R 34));
  (29%nat, RLo (R 24) 14);
  (35%nat, Xo (R 25) (An (No (R 26)) (R 27)));
  (35%nat, Xo (R 35) (K 0x8000000080008081));
  (36%nat, Xo (R 26) (An (No (R 27)) (R 28)));
  (37%nat, Xo (R 27) (An (No (R 28)) (R 29)));
  (38%nat, Xo (R 28) (An (No (R 29)) (R 25)));
  (39%nat, Xo (R 29) (An (No (R 25)) (R 26)));
  (3%nat, Xo (R 3) (R 33));
  (25%nat, RLo (R 3) 28);
  (9%nat, Xo (R 9) (R 34));
  (26%nat, RLo (R 9) 20);
  (10%nat, Xo (R 10) (R 30));
  (27%nat, RLo (R 10) 3);
  (16%nat, Xo (R 16) (R 31));
  (28%nat, RLo (R 16) 45);
  (22%nat, Xo (R 22) (R 32));
  (29%nat, RLo (R 22) 61);
  (40%nat, Xo (R 25) (An (No (R 26)) (R 27)));
  (41%nat, Xo (R 26) (An (No (R 27)) (R 28)));
  (42%nat, Xo (R 27) (An (No (R 28)) (R 29)));
  (43%nat, Xo (R 28) (An (No (R 29)) (R 25)));
  (44%nat, Xo (R 29) (An (No (R 25)) (R 26)));
  (1%nat, Xo (R 1) (R 31));
  (25%nat, RLo (R 1) 1);
  (7%nat, Xo (R 7) (R 32));
  (26%nat, RLo (R 7) 6);
  (13%nat, Xo (R 13) (R 33));
  (27%nat, RLo (R 13) 25);
  (19%nat, Xo (R 19) (R 34));
  (28%nat, RLo (R 19) 8);
  (20%nat, Xo (R 20) (R 30));
  (29%nat, RLo (R 20) 18);
  (45%nat, Xo (R 25) (An (No (R 26)) (R 27)));
  (46%nat, Xo (R 26) (An (No (R 27)) (R 28)));
  (47%nat, Xo (R 27) (An (No (R 28)) (R 29)));
  (48%nat, Xo (R 28) (An (No (R 29)) (R 25)));
  (49%nat, Xo (R 29) (An (No (R 25)) (R 26)));
  (4%nat, Xo (R 4) (R 34));
  (25%nat, RLo (R 4) 27);
  (5%nat, Xo (R 5) (R 30));
  (26%nat, RLo (R 5) 36);
  (11%nat, Xo (R 11) (R 31));
  (27%nat, RLo (R 11) 10);
  (17%nat, Xo (R 17) (R 32));
  (28%nat, RLo (R 17) 15);
  (23%nat, Xo (R 23) (R 33));
  (29%nat, RLo (R 23) 56);
  (50%nat, Xo (R 25) (An (No (R 26)) (R 27)));
  (51%nat, Xo (R 26) (An (No (R 27)) (R 28)));
  (52%nat, Xo (R 27) (An (No (R 28)) (R 29)));
  (53%nat, Xo (R 28) (An (No (R 29)) (R 25)));
  (54%nat, Xo (R 29) (An (No (R 25)) (R 26)));
  (2%nat, Xo (R 2) (R 32));
  (25%nat, RLo (R 2) 62);
  (8%nat, Xo (R 8) (R 33));
  (26%nat, RLo (R 8) 55);
  (14%nat, Xo (R 14) (R 34));
  (27%nat, RLo (R 14) 39);
  (15%nat, Xo (R 15) (R 30));
  (28%nat, RLo (R 15) 41);
  (21%nat, Xo (R 21) (R 31));
  (29%nat, RLo (R 21) 2);
  (55%nat, Xo (R 25) (An (No (R 26)) (R 27)));
  (56%nat, Xo (R 26) (An (No (R 27)) (R 28)));
  (57%nat, Xo (R 27) (An (No (R 28)) (R 29)));
  (58%nat, Xo (R 28) (An (No (R 29)) (R 25)));
  (59%nat, Xo (R 29) (An (No (R 25)) (R 26)));
  (25%nat, Xo (Xo (Xo (Xo (R 35) (R 40)) (R 45)) (R 50)) (R 55));
  (26%nat, Xo (Xo (Xo (Xo (R 36) (R 41)) (R 46)) (R 51)) (R 56));
  (27%nat, Xo (Xo (Xo (Xo (R 37) (R 42)) (R 47)) (R 52)) (R 57));
  (28%nat, Xo (Xo (Xo (Xo (R 38) (R 43)) (R 48)) (R 53)) (R 58));
  (29%nat, Xo (Xo (Xo (Xo (R 39) (R 44)) (R 49)) (R 54)) (R 59));
  (30%nat, Xo (R 29) (RLo (R 26) 1));
  (31%nat, Xo (R 25) (RLo (R 27) 1));
  (32%nat, Xo (R 26) (RLo (R 28) 1));
  (33%nat, Xo (R 27) (RLo (R 29) 1));
  (34%nat, Xo (R 28) (RLo (R 25) 1));
  (35%nat, Xo (R 35) (R 30));
  (25%nat, R 35);
  (41%nat, Xo (R 41) (R 31));
  (26%nat, RLo (R 41) 44);
  (47%nat, Xo (R 47) (R 32));
  (27%nat, RLo (R 47) 43);
  (53%nat, Xo (R 53) (R 33));
  (28%nat, RLo (R 53) 21);
  (59%nat, Xo (R 59) (R 34));
  (29%nat, RLo (R 59) 14);
  (0%nat, Xo (R 25) (An (No (R 26)) (R 27)));
  (0%nat, Xo (R 0) (K 0x8000000000008080));
  (1%nat, Xo (R 26) (An (No (R 27)) (R 28)));
  (2%nat, Xo (R 27) (An (No (R 28)) (R 29)));
  (3%nat, Xo (R 28) (An (No (R 29)) (R 25)));
  (4%nat, Xo (R 29) (An (No (R 25)) (R 26)));
  (38%nat, Xo (R 38) (R 33));
  (25%nat, RLo (R 38) 28);
  (44%nat, Xo (R 44) (R 34));
  (26%nat, RLo (R 44) 20);
  (45%nat, Xo (R 45) (R 30));
  (27%nat, RLo (R 45) 3);
  (51%nat, Xo (R 51) (R 31));
  (28%nat, RLo (R 51) 45);
  (57%nat, Xo (R 57) (R 32));
  (29%nat, RLo (R 57) 61);
  (5%nat, Xo (R 25) (An (No (R 26)) (R 27)));
  (6%nat, Xo (R 26) (An (No (R 27)) (R 28)));
  (7%nat, Xo (R 27) (An (No (R 28)) (R 29)));
  (8%nat, Xo (R 28) (An (No (R 29)) (R 25)));
  (9%nat, Xo (R 29) (An (No (R 25)) (R 26)));
  (36%nat, Xo (R 36) (R 31));
  (25%nat, RLo (R 36) 1);
  (42%nat, Xo (R 42) (R 32));
  (26%nat, RLo (R 42) 6);
  (48%nat, Xo (R 48) (R 33));
  (27%nat, RLo (R 48) 25);
  (54%nat, Xo (R 54) (R 34));
  (28%nat, RLo (R 54) 8);
  (55%nat, Xo (R 55) (R 30));
  (29%nat, RLo (R 55) 18);
  (10%nat, Xo (R 25) (An (No (R 26)) (R 27)));
  (11%nat, Xo (R 26) (An (No (R 27)) (R 28)));
  (12%nat, Xo (R 27) (An (No (R 28)) (R 29)));
  (13%nat, Xo (R 28) (An (No (R 29)) (R 25)));
  (14%nat, Xo (R 29) (An (No (R 25)) (R 26)));
  (39%nat, Xo (R 39) (R 34));
  (25%nat, RLo (R 39) 27);
  (40%nat, Xo (R 40) (R 30));
  (26%nat, RLo (R 40) 36);
  (46%nat, Xo (R 46) (R 31));
  (27%nat, RLo (R 46) 10);
  (52%nat, Xo (R 52) (R 32));
  (28%nat, RLo (R 52) 15);
  (58%nat, Xo (R 58) (R 33));
  (29%nat, RLo (R 58) 56);
  (15%nat, Xo (R 25) (An (No (R 26)) (R 27)));
  (16%nat, Xo (R 26) (An (No (R 27)) (R 28)));
  (17%nat, Xo (R 27) (An (No (R 28)) (R 29)));
  (18%nat, Xo (R 28) (An (No (R 29)) (R 25)));
  (19%nat, Xo (R 29) (An (No (R 25)) (R 26)));
  (37%nat, Xo (R 37) (R 32));
  (25%nat, RLo (R 37) 62);
  (43%nat, Xo (R 43) (R 33));
  (26%nat, RLo (R 43) 55);
  (49%nat, Xo (R 49) (R 34));
  (27%nat, RLo (R 49) 39);
  (50%nat, Xo (R 50) (R 30));
  (28%nat, RLo (R 50) 41);
  (56%nat, Xo (R 56) (R 31));
  (29%nat, RLo (R 56) 2);
  (20%nat, Xo (R 25) (An (No (R 26)) (R 27)));
  (21%nat, Xo (R 26) (An (No (R 27)) (R 28)));
  (22%nat, Xo (R 27) (An (No (R 28)) (R 29)));
  (23%nat, Xo (R 28) (An (No (R 29)) (R 25)));
  (24%nat, Xo (R 29) (An (No (R 25)) (R 26)));
  (25%nat, Xo (Xo (Xo (Xo (R 0) (R 5)) (R 10)) (R 15)) (R 20));
  (26%nat, Xo (Xo (Xo (Xo (R 1) (R 6)) (R 11)) (R 16)) (R 21));
  (27%nat, Xo (Xo (Xo (Xo (R 2) (R 7)) (R 12)) (R 17)) (R 22));
  (28%nat, Xo (Xo (Xo (Xo (R 3) (R 8)) (R 13)) (R 18)) (R 23));
  (29%nat, Xo (Xo (Xo (Xo (R 4) (R 9)) (R 14)) (R 19)) (R 24));
  (30%nat, Xo (R 29) (RLo (R 26) 1));
  (31%nat, Xo (R 25) (RLo (R 27) 1));
  (32%nat, Xo (R 26) (RLo (R 28) 1));
  (33%nat, Xo (R 27) (RLo (R 29) 1));
  (34%nat, Xo (R 28) (RLo (R 25) 1));
  (0%nat, Xo (R 0) (R 30));
  (25%nat, R 0);
  (6%nat, Xo (R 6) (R 31));
  (26%nat, RLo (R 6) 44);
  (12%nat, Xo (R 12) (R 32));
  (27%nat, RLo (R 12) 43);
  (18%nat, Xo (R 18) (R 33));
  (28%nat, RLo (R 18) 21);
  (24%nat, Xo (R 24) (R 34));
  (29%nat, RLo (R 24) 14);
  (35%nat, Xo (R 25) (An (No (R 26)) (R 27)));
  (35%nat, Xo (R 35) (K 0x80000001));
  (36%nat, Xo (R 26) (An (No (R 27)) (R 28)));
  (37%nat, Xo (R 27) (An (No (R 28)) (R 29)));
  (38%nat, Xo (R 28) (An (No (R 29)) (R 25)));
  (39%nat, Xo (R 29) (An (No (R 25)) (R 26)));
  (3%nat, Xo (R 3) (R 33));
  (25%nat, RLo (R 3) 28);
  (9%nat, Xo (R 9) (R 34));
  (26%nat, RLo (R 9) 20);
  (10%nat, Xo (R 10) (R 30));
  (27%nat, RLo (R 10) 3);
  (16%nat, Xo (R 16) (R 31));
  (28%nat, RLo (R 16) 45);
  (22%nat, Xo (R 22) (R 32));
  (29%nat, RLo (R 22) 61);
  (40%nat, Xo (R 25) (An (No (R 26)) (R 27)));
  (41%nat, Xo (R 26) (An (No (R 27)) (R 28)));
  (42%nat, Xo (R 27) (An (No (R 28)) (R 29)));
  (43%nat, Xo (R 28) (An (No (R 29)) (R 25)));
  (44%nat, Xo (R 29) (An (No (R 25)) (R 26)));
  (1%nat, Xo (R 1) (R 31));
  (25%nat, RLo (R 1) 1);
  (7%nat, Xo (R 7) (R 32));
  (26%nat, RLo (R 7) 6);
  (13%nat, Xo (R 13) (R 33));
  (27%nat, RLo (R 13) 25);
  (19%nat, Xo (R 19) (R 34));
  (28%nat, RLo (R 19) 8);
  (20%nat, Xo (R 20) (R 30));
  (29%nat, RLo (R 20) 18);
  (45%nat, Xo (R 25) (An (No (R 26)) (R 27)));
  (46%nat, Xo (R 26) (An (No (R 27)) (R 28)));
  (47%nat, Xo (R 27) (An (No (R 28)) (R 29)));
  (48%nat, Xo (R 28) (An (No (R 29)) (R 25)));
  (49%nat, Xo (R 29) (An (No (R 25)) (R 26)));
  (4%nat, Xo (R 4) (R 34));
  (25%nat, RLo (R 4) 27);
  (5%nat, Xo (R 5) (R 30));
  (26%nat, RLo (R 5) 36);
  (11%nat, Xo (R 11) (R 31));
  (27%nat, RLo (R 11) 10);
  (17%nat, Xo (R 17) (R 32));
  (28%nat, RLo (R 17) 15);
  (23%nat, Xo (R 23) (R 33));
  (29%nat, RLo (R 23) 56);
  (50%nat, Xo (R 25) (An (No (R 26)) (R 27)));
  (51%nat, Xo (R 26) (An (No (R 27)) (R 28)));
  (52%nat, Xo (R 27) (An (No (R 28)) (R 29)));
  (53%nat, Xo (R 28) (An (No (R 29)) (R 25)));
  (54%nat, Xo (R 29) (An (No (R 25)) (R 26)));
  (2%nat, Xo (R 2) (R 32));
  (25%nat, RLo (R 2) 62);
  (8%nat, Xo (R 8) (R 33));
  (26%nat, RLo (R 8) 55);
  (14%nat, Xo (R 14) (R 34));
  (27%nat, RLo (R 14) 39);
  (15%nat, Xo (R 15) (R 30));
  (28%nat, RLo (R 15) 41);
  (21%nat, Xo (R 21) (R 31));
  (29%nat, RLo (R 21) 2);
  (55%nat, Xo (R 25) (An (No (R 26)) (R 27)));
  (56%nat, Xo (R 26) (An (No (R 27)) (R 28)));
  (57%nat, Xo (R 27) (An (No (R 28)) (R 29)));
  (58%nat, Xo (R 28) (An (No (R 29)) (R 25)));
  (59%nat, Xo (R 29) (An (No (R 25)) (R 26)));
  (25%nat, Xo (Xo (Xo (Xo (R 35) (R 40)) (R 45)) (R 50)) (R 55));
  (26%nat, Xo (Xo (Xo (Xo (R 36) (R 41)) (R 46)) (R 51)) (R 56));
  (27%nat, Xo (Xo (Xo (Xo (R 37) (R 42)) (R 47)) (R 52)) (R 57));
  (28%nat, Xo (Xo (Xo (Xo (R 38) (R 43)) (R 48)) (R 53)) (R 58));
  (29%nat, Xo (Xo (Xo (Xo (R 39) (R 44)) (R 49)) (R 54)) (R 59));
  (30%nat, Xo (R 29) (RLo (R 26) 1));
  (31%nat, Xo (R 25) (RLo (R 27) 1));
  (32%nat, Xo (R 26) (RLo (R 28) 1));
  (33%nat, Xo (R 27) (RLo (R 29) 1));
  (34%nat, Xo (R 28) (RLo (R 25) 1));
  (35%nat, Xo (R 35) (R 30));
  (25%nat, R 35);
  (41%nat, Xo (R 41) (R 31));
  (26%nat, RLo (R 41) 44);
  (47%nat, Xo (R 47) (R 32));
  (27%nat, RLo (R 47) 43);
  (53%nat, Xo (R 53) (R 33));
  (28%nat, RLo (R 53) 21);
  (59%nat, Xo (R 59) (R 34));
  (29%nat, RLo (R 59) 14);
  (0%nat, Xo (R 25) (An (No (R 26)) (R 27)));
  (0%nat, Xo (R 0) (K 0x8000000080008008));
  (1%nat, Xo (R 26) (An (No (R 27)) (R 28)));
  (2%nat, Xo (R 27) (An (No (R 28)) (R 29)));
  (3%nat, Xo (R 28) (An (No (R 29)) (R 25)));
  (4%nat, Xo (R 29) (An (No (R 25)) (R 26)));
  (38%nat, Xo (R 38) (R 33));
  (25%nat, RLo (R 38) 28);
  (44%nat, Xo (R 44) (R 34));
  (26%nat, RLo (R 44) 20);
  (45%nat, Xo (R 45) (R 30));
  (27%nat, RLo (R 45) 3);
  (51%nat, Xo (R 51) (R 31));
  (28%nat, RLo (R 51) 45);
  (57%nat, Xo (R 57) (R 32));
  (29%nat, RLo (R 57) 61);
  (5%nat, Xo (R 25) (An (No (R 26)) (R 27)));
  (6%nat, Xo (R 26) (An (No (R 27)) (R 28)));
  (7%nat, Xo (R 27) (An (No (R 28)) (R 29)));
  (8%nat, Xo (R 28) (An (No (R 29)) (R 25)));
  (9%nat, Xo (R 29) (An (No (R 25)) (R 26)));
  (36%nat, Xo (R 36) (R 31));
  (25%nat, RLo (R 36) 1);
  (42%nat, Xo (R 42) (R 32));
  (26%nat, RLo (R 42) 6);
  (48%nat, Xo (R 48) (R 33));
  (27%nat, RLo (R 48) 25);
  (54%nat, Xo (R 54) (R 34));
  (28%nat, RLo (R 54) 8);
  (55%nat, Xo (R 55) (R 30));
  (29%nat, RLo (R 55) 18);
  (10%nat, Xo (R 25) (An (No (R 26)) (R 27)));
  (11%nat, Xo (R 26) (An (No (R 27)) (R 28)));
  (12%nat, Xo (R 27) (An (No (R 28)) (R 29)));
  (13%nat, Xo (R 28) (An (No (R 29)) (R 25)));
  (14%nat, Xo (R 29) (An (No (R 25)) (R 26)));
  (39%nat, Xo (R 39) (R 34));
  (25%nat, RLo (R 39) 27);
  (40%nat, Xo (R 40) (R 30));
  (26%nat, RLo (R 40) 36);
  (46%nat, Xo (R 46) (R 31));
  (27%nat, RLo (R 46) 10);
  (52%nat, Xo (R 52) (R 32));
  (28%nat, RLo (R 52) 15);
  (58%nat, Xo (R 58) (R 33));
  (29%nat, RLo (R 58) 56);
  (15%nat, Xo (R 25) (An (No (R 26)) (R 27)));
  (16%nat, Xo (R 26) (An (No (R 27)) (R 28)));
  (17%nat, Xo (R 27) (An (No (R 28)) (R 29)));
  (18%nat, Xo (R 28) (An (No (R 29)) (R 25)));
  (19%nat, Xo (R 29) (An (No (R 25)) (R 26)));
  (37%nat, Xo (R 37) (R 32));
  (25%nat, RLo (R 37) 62);
  (43%nat, Xo (R 43) (R 33));
  (26%nat, RLo (R 43) 55);
  (49%nat, Xo (R 49) (R 34));
  (27%nat, RLo (R 49) 39);
  (50%nat, Xo (R 50) (R 30));
  (28%nat, RLo (R 50) 41);
  (56%nat, Xo (R 56) (R 31));
  (29%nat, RLo (R 56) 2);
  (20%nat, Xo (R 25) (An (No (R 26)) (R 27)));
  (21%nat, Xo (R 26) (An (No (R 27)) (R 28)));
  (22%nat, Xo (R 27) (An (No (R 28)) (R 29)));
  (23%nat, Xo (R 28) (An (No (R 29)) (R 25)));
  (24%nat, Xo (R 29) (An (No (R 25)) (R 26)));
  (25%nat, Xo (Xo (Xo (Xo (R 0) (R 5)) (R 10)) (R 15)) (R 20));
  (26%nat, Xo (Xo (Xo (Xo (R 1) (R 6)) (R 11)) (R 16)) (R 21));
  (27%nat, Xo (Xo (Xo (Xo (R 2) (R 7)) (R 12)) (R 17)) (R 22));
  (28%nat, Xo (Xo (Xo (Xo (R 3) (R 8)) (R 13)) (R 18)) (R 23));
  (29%nat, Xo (Xo (Xo (Xo (R 4) (R 9)) (R 14)) (R 19)) (R 24));
  (30%nat, Xo (R 29) (RLo (R 26) 1));
  (31%nat, Xo (R 25) (RLo (R 27) 1));
  (32%nat, Xo (R 26) (RLo (R 28) 1));
  (33%nat, Xo (R 27) (RLo (R 29) 1));
  (34%nat, Xo (R 28) (RLo (R 25) 1));
  (0%nat, Xo (R 0) (R 30));
  (25%nat, R 0);
  (6%nat, Xo (R 6) (R 31));
  (26%nat, RLo (R 6) 44);
  (12%nat, Xo (R 12) (R 32));
  (27%nat, RLo (R 12) 43);
  (18%nat, Xo (R 18) (R 33));
  (28%nat, RLo (R 18) 21);
  (24%nat, Xo (R 24) (R 34));
  (29%nat, RLo (R 24) 14);
  (35%nat, Xo (R 25) (An (No (R 26)) (R 27)));
  (35%nat, Xo (R 35) (K 0x8000000080008082));
  (36%nat, Xo (R 26) (An (No (R 27)) (R 28)));
  (37%nat, Xo (R 27) (An (No (R 28)) (R 29)));
  (38%nat, Xo (R 28) (An (No (R 29)) (R 25)));
  (39%nat, Xo (R 29) (An (No (R 25)) (R 26)));
  (3%nat, Xo (R 3) (R 33));
  (25%nat, RLo (R 3) 28);
  (9%nat, Xo (R 9) (R 34));
  (26%nat, RLo (R 9) 20);
  (10%nat, Xo (R 10) (R 30));
  (27%nat, RLo (R 10) 3);
  (16%nat, Xo (R 16) (R 31));
  (28%nat, RLo (R 16) 45);
  (22%nat, Xo (R 22) (R 32));
  (29%nat, RLo (R 22) 61);
  (40%nat, Xo (R 25) (An (No (R 26)) (R 27)));
  (41%nat, Xo (R 26) (An (No (R 27)) (R 28)));
  (42%nat, Xo (R 27) (An (No (R 28)) (R 29)));
  (43%nat, Xo (R 28) (An (No (R 29)) (R 25)));
  (44%nat, Xo (R 29) (An (No (R 25)) (R 26)));
  (1%nat, Xo (R 1) (R 31));
  (25%nat, RLo (R 1) 1);
  (7%nat, Xo (R 7) (R 32));
  (26%nat, RLo (R 7) 6);
  (13%nat, Xo (R 13) (R 33));
  (27%nat, RLo (R 13) 25);
  (19%nat, Xo (R 19) (R 34));
  (28%nat, RLo (R 19) 8);
  (20%nat, Xo (R 20) (R 30));
  (29%nat, RLo (R 20) 18);
  (45%nat, Xo (R 25) (An (No (R 26)) (R 27)));
  (46%nat, Xo (R 26) (An (No (R 27)) (R 28)));
  (47%nat, Xo (R 27) (An (No (R 28)) (R 29)));
  (48%nat, Xo (R 28) (An (No (R 29)) (R 25)));
  (49%nat, Xo (R 29) (An (No (R 25)) (R 26)));
  (4%nat, Xo (R 4) (R 34));
  (25%nat, RLo (R 4) 27);
  (5%nat, Xo (R 5) (R 30));
  (26%nat, RLo (R 5) 36);
  (11%nat, Xo (R 11) (R 31));
  (27%nat, RLo (R 11) 10);
  (17%nat, Xo (R 17) (R 32));
  (28%nat, RLo (R 17) 15);
  (23%nat, Xo (R 23) (R 33));
  (29%nat, RLo (R 23) 56);
  (50%nat, Xo (R 25) (An (No (R 26)) (R 27)));
  (51%nat, Xo (R 26) (An (No (R 27)) (R 28)));
  (52%nat, Xo (R 27) (An (No (R 28)) (R 29)));
  (53%nat, Xo (R 28) (An (No (R 29)) (R 25)));
  (54%nat, Xo (R 29) (An (No (R 25)) (R 26)));
  (2%nat, Xo (R 2) (R 32));
  (25%nat, RLo (R 2) 62);
  (8%nat, Xo (R 8) (R 33));
  (26%nat, RLo (R 8) 55);
  (14%nat, Xo (R 14) (R 34));
  (27%nat, RLo (R 14) 39);
  (15%nat, Xo (R 15) (R 30));
  (28%nat, RLo (R 15) 41);
  (21%nat, Xo (R 21) (R 31));
  (29%nat, RLo (R 21) 2);
  (55%nat, Xo (R 25) (An (No (R 26)) (R 27)));
  (56%nat, Xo (R 26) (An (No (R 27)) (R 28)));
  (57%nat, Xo (R 27) (An (No (R 28)) (R 29)));
  (58%nat, Xo (R 28) (An (No (R 29)) (R 25)));
  (59%nat, Xo (R 29) (An (No (R 25)) (R 26)));
  (25%nat, Xo (Xo (Xo (Xo (R 35) (R 40)) (R 45)) (R 50)) (R 55));
  (26%nat, Xo (Xo (Xo (Xo (R 36) (R 41)) (R 46)) (R 51)) (R 56));
  (27%nat, Xo (Xo (Xo (Xo (R 37) (R 42)) (R 47)) (R 52)) (R 57));
  (28%nat, Xo (Xo (Xo (Xo (R 38) (R 43)) (R 48)) (R 53)) (R 58));
  (29%nat, Xo (Xo (Xo (Xo (R 39) (R 44)) (R 49)) (R 54)) (R 59));
  (30%nat, Xo (R 29) (RLo (R 26) 1));
  (31%nat, Xo (R 25) (RLo (R 27) 1));
  (32%nat, Xo (R 26) (RLo (R 28) 1));
  (33%nat, Xo (R 27) (RLo (R 29) 1));
  (34%nat, Xo (R 28) (RLo (R 25) 1));
  (35%nat, Xo (R 35) (R 30));
  (25%nat, R 35);
  (41%nat, Xo (R 41) (R 31));
  (26%nat, RLo (R 41) 44);
  (47%nat, Xo (R 47) (R 32));
  (27%nat, RLo (R 47) 43);
  (53%nat, Xo (R 53) (R 33));
  (28%nat, RLo (R 53) 21);
  (59%nat, Xo (R 59) (R 34));
  (29%nat, RLo (R 59) 14);
  (0%nat, Xo (R 25) (An (No (R 26)) (R 27)));
  (0%nat, Xo (R 0) (K 0x800000008000800A));
  (1%nat, Xo (R 26) (An (No (R 27)) (R 28)));
  (2%nat, Xo (R 27) (An (No (R 28)) (R 29)));
  (3%nat, Xo (R 28) (An (No (R 29)) (R 25)));
  (4%nat, Xo (R 29) (An (No (R 25)) (R 26)));
  (38%nat, Xo (R 38) (R 33));
  (25%nat, RLo (R 38) 28);
  (44%nat, Xo (R 44) (R 34));
  (26%nat, RLo (R 44) 20);
  (45%nat, Xo (R 45) (R 30));
  (27%nat, RLo (R 45) 3);
  (51%nat, Xo (R 51) (R 31));
  (28%nat, RLo (R 51) 45);
  (57%nat, Xo (R 57) (R 32));
  (29%nat, RLo (R 57) 61);
  (5%nat, Xo (R 25) (An (No (R 26)) (R 27)));
  (6%nat, Xo (R 26) (An (No (R 27)) (R 28)));
  (7%nat, Xo (R 27) (An (No (R 28)) (R 29)));
  (8%nat, Xo (R 28) (An (No (R 29)) (R 25)));
  (9%nat, Xo (R 29) (An (No (R 25)) (R 26)));
  (36%nat, Xo (R 36) (R 31));
  (25%nat, RLo (R 36) 1);
  (42%nat, Xo (R 42) (R 32));
  (26%nat, RLo (R 42) 6);
  (48%nat, Xo (R 48) (R 33));
  (27%nat, RLo (R 48) 25);
  (54%nat, Xo (R 54) (R 34));
  (28%nat, RLo (R 54) 8);
  (55%nat, Xo (R 55) (R 30));
  (29%nat, RLo (R 55) 18);
  (10%nat, Xo (R 25) (An (No (R 26)) (R 27)));
  (11%nat, Xo (R 26) (An (No (R 27)) (R 28)));
  (12%nat, Xo (R 27) (An (No (R 28)) (R 29)));
  (13%nat, Xo (R 28) (An (No (R 29)) (R 25)));
  (14%nat, Xo (R 29) (An (No (R 25)) (R 26)));
  (39%nat, Xo (R 39) (R 34));
  (25%nat, RLo (R 39) 27);
  (40%nat, Xo (R 40) (R 30));
  (26%nat, RLo (R 40) 36);
  (46%nat, Xo (R 46) (R 31));
  (27%nat, RLo (R 46) 10);
  (52%nat, Xo (R 52) (R 32));
  (28%nat, RLo (R 52) 15);
  (58%nat, Xo (R 58) (R 33));
  (29%nat, RLo (R 58) 56);
  (15%nat, Xo (R 25) (An (No (R 26)) (R 27)));
  (16%nat, Xo (R 26) (An (No (R 27)) (R 28)));
  (17%nat, Xo (R 27) (An (No (R 28)) (R 29)));
  (18%nat, Xo (R 28) (An (No (R 29)) (R 25)));
  (19%nat, Xo (R 29) (An (No (R 25)) (R 26)));
  (37%nat, Xo (R 37) (R 32));
  (25%nat, RLo (R 37) 62);
  (43%nat, Xo (R 43) (R 33));
  (26%nat, RLo (R 43) 55);
  (49%nat, Xo (R 49) (R 34));
  (27%nat, RLo (R 49) 39);
  (50%nat, Xo (R 50) (R 30));
  (28%nat, RLo (R 50) 41);
  (56%nat, Xo (R 56) (R 31));
  (29%nat, RLo (R 56) 2);
  (20%nat, Xo (R 25) (An (No (R 26)) (R 27)));
  (21%nat, Xo (R 26) (An (No (R 27)) (R 28)));
  (22%nat, Xo (R 27) (An (No (R 28)) (R 29)));
  (23%nat, Xo (R 28) (An (No (R 29)) (R 25)));
  (24%nat, Xo (R 29) (An (No (R 25)) (R 26)));
  (25%nat, Xo (Xo (Xo (Xo (R 0) (R 5)) (R 10)) (R 15)) (R 20));
  (26%nat, Xo (Xo (Xo (Xo (R 1) (R 6)) (R 11)) (R 16)) (R 21));
  (27%nat, Xo (Xo (Xo (Xo (R 2) (R 7)) (R 12)) (R 17)) (R 22));
  (28%nat, Xo (Xo (Xo (Xo (R 3) (R 8)) (R 13)) (R 18)) (R 23));
  (29%nat, Xo (Xo (Xo (Xo (R 4) (R 9)) (R 14)) (R 19)) (R 24));
  (30%nat, Xo (R 29) (RLo (R 26) 1));
  (31%nat, Xo (R 25) (RLo (R 27) 1));
  (32%nat, Xo (R 26) (RLo (R 28) 1));
  (33%nat, Xo (R 27) (RLo (R 29) 1));
  (34%nat, Xo (R 28) (RLo (R 25) 1));
  (0%nat, Xo (R 0) (R 30));
  (25%nat, R 0);
  (6%nat, Xo (R 6) (R 31));
  (26%nat, RLo (R 6) 44);
  (12%nat, Xo (R 12) (R 32));
  (27%nat, RLo (R 12) 43);
  (18%nat, Xo (R 18) (R 33));
  (28%nat, RLo (R 18) 21);
  (24%nat, Xo (R 24) (R 34));
  (29%nat, RLo (R 24) 14);
  (35%nat, Xo (R 25) (An (No (R 26)) (R 27)));
  (35%nat, Xo (R 35) (K 0x8000000000000003));
  (36%nat, Xo (R 26) (An (No (R 27)) (R 28)));
  (37%nat, Xo (R 27) (An (No (R 28)) (R 29)));
  (38%nat, Xo (R 28) (An (No (R 29)) (R 25)));
  (39%nat, Xo (R 29) (An (No (R 25)) (R 26)));
  (3%nat, Xo (R 3) (R 33));
  (25%nat, RLo (R 3) 28);
  (9%nat, Xo (R 9) (R 34));
  (26%nat, RLo (R 9) 20);
  (10%nat, Xo (R 10) (R 30));
  (27%nat, RLo (R 10) 3);
  (16%nat, Xo (R 16) (R 31));
  (28%nat, RLo (R 16) 45);
  (22%nat, Xo (R 22) (R 32));
  (29%nat, RLo (R 22) 61);
  (40%nat, Xo (R 25) (An (No (R 26)) (R 27)));
  (41%nat, Xo (R 26) (An (No (R 27)) (R 28)));
  (42%nat, Xo (R 27) (An (No (R 28)) (R 29)));
  (43%nat, Xo (R 28) (An (No (R 29)) (R 25)));
  (44%nat, Xo (R 29) (An (No (R 25)) (R 26)));
  (1%nat, Xo (R 1) (R 31));
  (25%nat, RLo (R 1) 1);
  (7%nat, Xo (R 7) (R 32));
  (26%nat, RLo (R 7) 6);
  (13%nat, Xo (R 13) (R 33));
  (27%nat, RLo (R 13) 25);
  (19%nat, Xo (R 19) (R 34));
  (28%nat, RLo (R 19) 8);
  (20%nat, Xo (R 20) (R 30));
  (29%nat, RLo (R 20) 18);
  (45%nat, Xo (R 25) (An (No (R 26)) (R 27)));
  (46%nat, Xo (R 26) (An (No (R 27)) (R 28)));
  (47%nat, Xo (R 27) (An (No (R 28)) (R 29)));
  (48%nat, Xo (R 28) (An (No (R 29)) (R 25)));
  (49%nat, Xo (R 29) (An (No (R 25)) (R 26)));
  (4%nat, Xo (R 4) (R 34));
  (25%nat, RLo (R 4) 27);
  (5%nat, Xo (R 5) (R 30));
  (26%nat, RLo (R 5) 36);
  (11%nat, Xo (R 11) (R 31));
  (27%nat, RLo (R 11) 10);
  (17%nat, Xo (R 17) (R 32));
  (28%nat, RLo (R 17) 15);
  (23%nat, Xo (R 23) (R 33));
  (29%nat, RLo (R 23) 56);
  (50%nat, Xo (R 25) (An (No (R 26)) (R 27)));
  (51%nat, Xo (R 26) (An (No (R 27)) (R 28)));
  (52%nat, Xo (R 27) (An (No (R 28)) (R 29)));
  (53%nat, Xo (R 28) (An (No (R 29)) (R 25)));
  (54%nat, Xo (R 29) (An (No (R 25)) (R 26)));
  (2%nat, Xo (R 2) (R 32));
  (25%nat, RLo (R 2) 62);
  (8%nat, Xo (R 8) (R 33));
  (26%nat, RLo (R 8) 55);
  (14%nat, Xo (R 14) (R 34));
  (27%nat, RLo (R 14) 39);
  (15%nat, Xo (R 15) (R 30));
  (28%nat, RLo (R 15) 41);
  (21%nat, Xo (R 21) (R 31));
  (29%nat, RLo (R 21) 2);
  (55%nat, Xo (R 25) (An (No (R 26)) (R 27)));
  (56%nat, Xo (R 26) (An (No (R 27)) (R 28)));
  (57%nat, Xo (R 27) (An (No (R 28)) (R 29)));
  (58%nat, Xo (R 28) (An (No (R 29)) (R 25)));
  (59%nat, Xo (R 29) (An (No (R 25)) (R 26)));
  (25%nat, Xo (Xo (Xo (Xo (R 35) (R 40)) (R 45)) (R 50)) (R 55));
  (26%nat, Xo (Xo (Xo (Xo (R 36) (R 41)) (R 46)) (R 51)) (R 56));
  (27%nat, Xo (Xo (Xo (Xo (R 37) (R 42)) (R 47)) (R 52)) (R 57));
  (28%nat, Xo (Xo (Xo (Xo (R 38) (R 43)) (R 48)) (R 53)) (R 58));
  (29%nat, Xo (Xo (Xo (Xo (R 39) (R 44)) (R 49)) (R 54)) (R 59));
  (30%nat, Xo (R 29) (RLo (R 26) 1));
  (31%nat, Xo (R 25) (RLo (R 27) 1));
  (32%nat, Xo (R 26) (RLo (R 28) 1));
  (33%nat, Xo (R 27) (RLo (R 29) 1));
  (34%nat, Xo (R 28) (RLo (R 25) 1));
  (35%nat, Xo (R 35) (R 30));
  (25%nat, R 35);
  (41%nat, Xo (R 41) (R 31));
  (26%nat, RLo (R 41) 44);
  (47%nat, Xo (R 47) (R 32));
  (27%nat, RLo (R 47) 43);
  (53%nat, Xo (R 53) (R 33));
  (28%nat, RLo (R 53) 21);
  (59%nat, Xo (R 59) (R 34));
  (29%nat, RLo (R 59) 14);
  (0%nat, Xo (R 25) (An (No (R 26)) (R 27)));
  (0%nat, Xo (R 0) (K 0x8000000080000009));
  (1%nat, Xo (R 26) (An (No (R 27)) (R 28)));
  (2%nat, Xo (R 27) (An (No (R 28)) (R 29)));
  (3%nat, Xo (R 28) (An (No (R 29)) (R 25)));
  (4%nat, Xo (R 29) (An (No (R 25)) (R 26)));
  (38%nat, Xo (R 38) (R 33));
  (25%nat, RLo (R 38) 28);
  (44%nat, Xo (R 44) (R 34));
  (26%nat, RLo (R 44) 20);
  (45%nat, Xo (R 45) (R 30));
  (27%nat, RLo (R 45) 3);
  (51%nat, Xo (R 51) (R 31));
  (28%nat, RLo (R 51) 45);
  (57%nat, Xo (R 57) (R 32));
  (29%nat, RLo (R 57) 61);
  (5%nat, Xo (R 25) (An (No (R 26)) (R 27)));
  (6%nat, Xo (R 26) (An (No (R 27)) (R 28)));
  (7%nat, Xo (R 27) (An (No (R 28)) (R 29)));
  (8%nat, Xo (R 28) (An (No (R 29)) (R 25)));
  (9%nat, Xo (R 29) (An (No (R 25)) (R 26)));
  (36%nat, Xo (R 36) (R 31));
  (25%nat, RLo (R 36) 1);
  (42%nat, Xo (R 42) (R 32));
  (26%nat, RLo (R 42) 6);
  (48%nat, Xo (R 48) (R 33));
  (27%nat, RLo (R 48) 25);
  (54%nat, Xo (R 54) (R 34));
  (28%nat, RLo (R 54) 8);
  (55%nat, Xo (R 55) (R 30));
  (29%nat, RLo (R 55) 18);
  (10%nat, Xo (R 25) (An (No (R 26)) (R 27)));
  (11%nat, Xo (R 26) (An (No (R 27)) (R 28)));
  (12%nat, Xo (R 27) (An (No (R 28)) (R 29)));
  (13%nat, Xo (R 28) (An (No (R 29)) (R 25)));
  (14%nat, Xo (R 29) (An (No (R 25)) (R 26)));
  (39%nat, Xo (R 39) (R 34));
  (25%nat, RLo (R 39) 27);
  (40%nat, Xo (R 40) (R 30));
  (26%nat, RLo (R 40) 36);
  (46%nat, Xo (R 46) (R 31));
  (27%nat, RLo (R 46) 10);
  (52%nat, Xo (R 52) (R 32));
  (28%nat, RLo (R 52) 15);
  (58%nat, Xo (R 58) (R 33));
  (29%nat, RLo (R 58) 56);
  (15%nat, Xo (R 25) (An (No (R 26)) (R 27)));
  (16%nat, Xo (R 26) (An (No (R 27)) (R 28)));
  (17%nat, Xo (R 27) (An (No (R 28)) (R 29)));
  (18%nat, Xo (R 28) (An (No (R 29)) (R 25)));
  (19%nat, Xo (R 29) (An (No (R 25)) (R 26)));
  (37%nat, Xo (R 37) (R 32));
  (25%nat, RLo (R 37) 62);
  (43%nat, Xo (R 43) (R 33));
  (26%nat, RLo (R 43) 55);
  (49%nat, Xo (R 49) (R 34));
  (27%nat, RLo (R 49) 39);
  (50%nat, Xo (R 50) (R 30));
  (28%nat, RLo (R 50) 41);
  (56%nat, Xo (R 56) (R 31));
  (29%nat, RLo (R 56) 2);
  (20%nat, Xo (R 25) (An (No (R 26)) (R 27)));
  (21%nat, Xo (R 26) (An (No (R 27)) (R 28)));
  (22%nat, Xo (R 27) (An (No (R 28)) (R 29)));
  (23%nat, Xo (R 28) (An (No (R 29)) (R 25)));
  (24%nat, Xo (R 29) (An (No (R 25)) (R 26)));
  (25%nat, Xo (Xo (Xo (Xo (R 0) (R 5)) (R 10)) (R 15)) (R 20));
  (26%nat, Xo (Xo (Xo (Xo (R 1) (R 6)) (R 11)) (R 16)) (R 21));
  (27%nat, Xo (Xo (Xo (Xo (R 2) (R 7)) (R 12)) (R 17)) (R 22));
  (28%nat, Xo (Xo (Xo (Xo (R 3) (R 8)) (R 13)) (R 18)) (R 23));
  (29%nat, Xo (Xo (Xo (Xo (R 4) (R 9)) (R 14)) (R 19)) (R 24));
  (30%nat, Xo (R 29) (RLo (R 26) 1));
  (31%nat, Xo (R 25) (RLo (R 27) 1));
  (32%nat, Xo (R 26) (RLo (R 28) 1));
  (33%nat, Xo (R 27) (RLo (R 29) 1));
  (34%nat, Xo (R 28) (RLo (R 25) 1));
  (0%nat, Xo (R 0) (R 30));
  (25%nat, R 0);
  (6%nat, Xo (R 6) (R 31));
  (26%nat, RLo (R 6) 44);
  (12%nat, Xo (R 12) (R 32));
  (27%nat, RLo (R 12) 43);
  (18%nat, Xo (R 18) (R 33));
  (28%nat, RLo (R 18) 21);
  (24%nat, Xo (R 24) (R 34));
  (29%nat, RLo (R 24) 14);
  (35%nat, Xo (R 25) (An (No (R 26)) (R 27)));
  (35%nat, Xo (R 35) (K 0x8000000000008082));
  (36%nat, Xo (R 26) (An (No (R 27)) (R 28)));
  (37%nat, Xo (R 27) (An (No (R 28)) (R 29)));
  (38%nat, Xo (R 28) (An (No (R 29)) (R 25)));
  (39%nat, Xo (R 29) (An (No (R 25)) (R 26)));
  (3%nat, Xo (R 3) (R 33));
  (25%nat, RLo (R 3) 28);
  (9%nat, Xo (R 9) (R 34));
  (26%nat, RLo (R 9) 20);
  (10%nat, Xo (R 10) (R 30));
  (27%nat, RLo (R 10) 3);
  (16%nat, Xo (R 16) (R 31));
  (28%nat, RLo (R 16) 45);
  (22%nat, Xo (R 22) (R 32));
  (29%nat, RLo (R 22) 61);
  (40%nat, Xo (R 25) (An (No (R 26)) (R 27)));
  (41%nat, Xo (R 26) (An (No (R 27)) (R 28)));
  (42%nat, Xo (R 27) (An (No (R 28)) (R 29)));
  (43%nat, Xo (R 28) (An (No (R 29)) (R 25)));
  (44%nat, Xo (R 29) (An (No (R 25)) (R 26)));
  (1%nat, Xo (R 1) (R 31));
  (25%nat, RLo (R 1) 1);
  (7%nat, Xo (R 7) (R 32));
  (26%nat, RLo (R 7) 6);
  (13%nat, Xo (R 13) (R 33));
  (27%nat, RLo (R 13) 25);
  (19%nat, Xo (R 19) (R 34));
  (28%nat, RLo (R 19) 8);
  (20%nat, Xo (R 20) (R 30));
  (29%nat, RLo (R 20) 18);
  (45%nat, Xo (R 25) (An (No (R 26)) (R 27)));
  (46%nat, Xo (R 26) (An (No (R 27)) (R 28)));
  (47%nat, Xo (R 27) (An (No (R 28)) (R 29)));
  (48%nat, Xo (R 28) (An (No (R 29)) (R 25)));
  (49%nat, Xo (R 29) (An (No (R 25)) (R 26)));
  (4%nat, Xo (R 4) (R 34));
  (25%nat, RLo (R 4) 27);
  (5%nat, Xo (R 5) (R 30));
  (26%nat, RLo (R 5) 36);
  (11%nat, Xo (R 11) (R 31));
  (27%nat, RLo (R 11) 10);
  (17%nat, Xo (R 17) (R 32));
  (28%nat, RLo (R 17) 15);
  (23%nat, Xo (R 23) (R 33));
  (29%nat, RLo (R 23) 56);
  (50%nat, Xo (R 25) (An (No (R 26)) (R 27)));
  (51%nat, Xo (R 26) (An (No (R 27)) (R 28)));
  (52%nat, Xo (R 27) (An (No (R 28)) (R 29)));
  (53%nat, Xo (R 28) (An (No (R 29)) (R 25)));
  (54%nat, Xo (R 29) (An (No (R 25)) (R 26)));
  (2%nat, Xo (R 2) (R 32));
  (25%nat, RLo (R 2) 62);
  (8%nat, Xo (R 8) (R 33));
  (26%nat, RLo (R 8) 55);
  (14%nat, Xo (R 14) (R 34));
  (27%nat, RLo (R 14) 39);
  (15%nat, Xo (R 15) (R 30));
  (28%nat, RLo (R 15) 41);
  (21%nat, Xo (R 21) (R 31));
  (29%nat, RLo (R 21) 2);
  (55%nat, Xo (R 25) (An (No (R 26)) (R 27)));
  (56%nat, Xo (R 26) (An (No (R 27)) (R 28)));
  (57%nat, Xo (R 27) (An (No (R 28)) (R 29)));
  (58%nat, Xo (R 28) (An (No (R 29)) (R 25)));
  (59%nat, Xo (R 29) (An (No (R 25)) (R 26)));
  (25%nat, Xo (Xo (Xo (Xo (R 35) (R 40)) (R 45)) (R 50)) (R 55));
  (26%nat, Xo (Xo (Xo (Xo (R 36) (R 41)) (R 46)) (R 51)) (R 56));
  (27%nat, Xo (Xo (Xo (Xo (R 37) (R 42)) (R 47)) (R 52)) (R 57));
  (28%nat, Xo (Xo (Xo (Xo (R 38) (R 43)) (R 48)) (R 53)) (R 58));
  (29%nat, Xo (Xo (Xo (Xo (R 39) (R 44)) (R 49)) (R 54)) (R 59));
  (30%nat, Xo (R 29) (RLo (R 26) 1));
  (31%nat, Xo (R 25) (RLo (R 27) 1));
  (32%nat, Xo (R 26) (RLo (R 28) 1));
  (33%nat, Xo (R 27) (RLo (R 29) 1));
  (34%nat, Xo (R 28) (RLo (R 25) 1));
  (35%nat, Xo (R 35) (R 30));
  (25%nat, R 35);
  (41%nat, Xo (R 41) (R 31));
  (26%nat, RLo (R 41) 44);
  (47%nat, Xo (R 47) (R 32));
  (27%nat, RLo (R 47) 43);
  (53%nat, Xo (R 53) (R 33));
  (28%nat, RLo (R 53) 21);
  (59%nat, Xo (R 59) (R 34));
  (29%nat, RLo (R 59) 14);
  (0%nat, Xo (R 25) (An (No (R 26)) (R 27)));
  (0%nat, Xo (R 0) (K 0x8009));
  (1%nat, Xo (R 26) (An (No (R 27)) (R 28)));
  (2%nat, Xo (R 27) (An (No (R 28)) (R 29)));
  (3%nat, Xo (R 28) (An (No (R 29)) (R 25)));
  (4%nat, Xo (R 29) (An (No (R 25)) (R 26)));
  (38%nat, Xo (R 38) (R 33));
  (25%nat, RLo (R 38) 28);
  (44%nat, Xo (R 44) (R 34));
  (26%nat, RLo (R 44) 20);
  (45%nat, Xo (R 45) (R 30));
  (27%nat, RLo (R 45) 3);
  (51%nat, Xo (R 51) (R 31));
  (28%nat, RLo (R 51) 45);
  (57%nat, Xo (R 57) (R 32));
  (29%nat, RLo (R 57) 61);
  (5%nat, Xo (R 25) (An (No (R 26)) (R 27)));
  (6%nat, Xo (R 26) (An (No (R 27)) (R 28)));
  (7%nat, Xo (R 27) (An (No (R 28)) (R 29)));
  (8%nat, Xo (R 28) (An (No (R 29)) (R 25)));
  (9%nat, Xo (R 29) (An (No (R 25)) (R 26)));
  (36%nat, Xo (R 36) (R 31));
  (25%nat, RLo (R 36) 1);
  (42%nat, Xo (R 42) (R 32));
  (26%nat, RLo (R 42) 6);
  (48%nat, Xo (R 48) (R 33));
  (27%nat, RLo (R 48) 25);
  (54%nat, Xo (R 54) (R 34));
  (28%nat, RLo (R 54) 8);
  (55%nat, Xo (R 55) (R 30));
  (29%nat, RLo (R 55) 18);
  (10%nat, Xo (R 25) (An (No (R 26)) (R 27)));
  (11%nat, Xo (R 26) (An (No (R 27)) (R 28)));
  (12%nat, Xo (R 27) (An (No (R 28)) (R 29)));
  (13%nat, Xo (R 28) (An (No (R 29)) (R 25)));
  (14%nat, Xo (R 29) (An (No (R 25)) (R 26)));
  (39%nat, Xo (R 39) (R 34));
  (25%nat, RLo (R 39) 27);
  (40%nat, Xo (R 40) (R 30));
  (26%nat, RLo (R 40) 36);
  (46%nat, Xo (R 46) (R 31));
  (27%nat, RLo (R 46) 10);
  (52%nat, Xo (R 52) (R 32));
  (28%nat, RLo (R 52) 15);
  (58%nat, Xo (R 58) (R 33));
  (29%nat, RLo (R 58) 56);
  (15%nat, Xo (R 25) (An (No (R 26)) (R 27)));
  (16%nat, Xo (R 26) (An (No (R 27)) (R 28)));
  (17%nat, Xo (R 27) (An (No (R 28)) (R 29)));
  (18%nat, Xo (R 28) (An (No (R 29)) (R 25)));
  (19%nat, Xo (R 29) (An (No (R 25)) (R 26)));
  (37%nat, Xo (R 37) (R 32));
  (25%nat, RLo (R 37) 62);
  (43%nat, Xo (R 43) (R 33));
  (26%nat, RLo (R 43) 55);
  (49%nat, Xo (R 49) (R 34));
  (27%nat, RLo (R 49) 39);
  (50%nat, Xo (R 50) (R 30));
  (28%nat, RLo (R 50) 41);
  (56%nat, Xo (R 56) (R 31));
  (29%nat, RLo (R 56) 2);
  (20%nat, Xo (R 25) (An (No (R 26)) (R 27)));
  (21%nat, Xo (R 26) (An (No (R 27)) (R 28)));
  (22%nat, Xo (R 27) (An (No (R 28)) (R 29)));
  (23%nat, Xo (R 28) (An (No (R 29)) (R 25)));
  (24%nat, Xo (R 29) (An (No (R 25)) (R 26)));
  (25%nat, Xo (Xo (Xo (Xo (R 0) (R 5)) (R 10)) (R 15)) (R 20));
  (26%nat, Xo (Xo (Xo (Xo (R 1) (R 6)) (R 11)) (R 16)) (R 21));
  (27%nat, Xo (Xo (Xo (Xo (R 2) (R 7)) (R 12)) (R 17)) (R 22));
  (28%nat, Xo (Xo (Xo (Xo (R 3) (R 8)) (R 13)) (R 18)) (R 23));
  (29%nat, Xo (Xo (Xo (Xo (R 4) (R 9)) (R 14)) (R 19)) (R 24));
  (30%nat, Xo (R 29) (RLo (R 26) 1));
  (31%nat, Xo (R 25) (RLo (R 27) 1));
  (32%nat, Xo (R 26) (RLo (R 28) 1));
  (33%nat, Xo (R 27) (RLo (R 29) 1));
  (34%nat, Xo (R 28) (RLo (R 25) 1));
  (0%nat, Xo (R 0) (R 30));
  (25%nat, R 0);
  (6%nat, Xo (R 6) (R 31));
  (26%nat, RLo (R 6) 44);
  (12%nat, Xo (R 12) (R 32));
  (27%nat, RLo (R 12) 43);
  (18%nat, Xo (R 18) (R 33));
  (28%nat, RLo (R 18) 21);
  (24%nat, Xo (R 24) (R 34));
  (29%nat, RLo (R 24) 14);
  (35%nat, Xo (R 25) (An (No (R 26)) (R 27)));
  (35%nat, Xo (R 35) (K 0x8000000000000080));
  (36%nat, Xo (R 26) (An (No (R 27)) (R 28)));
  (37%nat, Xo (R 27) (An (No (R 28)) (R 29)));
  (38%nat, Xo (R 28) (An (No (R 29)) (R 25)));
  (39%nat, Xo (R 29) (An (No (R 25)) (R 26)));
  (3%nat, Xo (R 3) (R 33));
  (25%nat, RLo (R 3) 28);
  (9%nat, Xo (R 9) (R 34));
  (26%nat, RLo (R 9) 20);
  (10%nat, Xo (R 10) (R 30));
  (27%nat, RLo (R 10) 3);
  (16%nat, Xo (R 16) (R 31));
  (28%nat, RLo (R 16) 45);
  (22%nat, Xo (R 22) (R 32));
  (29%nat, RLo (R 22) 61);
  (40%nat, Xo (R 25) (An (No (R 26)) (R 27)));
  (41%nat, Xo (R 26) (An (No (R 27)) (R 28)));
  (42%nat, Xo (R 27) (An (No (R 28)) (R 29)));
  (43%nat, Xo (R 28) (An (No (R 29)) (R 25)));
  (44%nat, Xo (R 29) (An (No (R 25)) (R 26)));
  (1%nat, Xo (R 1) (R 31));
  (25%nat, RLo (R 1) 1);
  (7%nat, Xo (R 7) (R 32));
  (26%nat, RLo (R 7) 6);
  (13%nat, Xo (R 13) (R 33));
  (27%nat, RLo (R 13) 25);
  (19%nat, Xo (R 19) (R 34));
  (28%nat, RLo (R 19) 8);
  (20%nat, Xo (R 20) (R 30));
  (29%nat, RLo (R 20) 18);
  (45%nat, Xo (R 25) (An (No (R 26)) (R 27)));
  (46%nat, Xo (R 26) (An (No (R 27)) (R 28)));
  (47%nat, Xo (R 27) (An (No (R 28)) (R 29)));
  (48%nat, Xo (R 28) (An (No (R 29)) (R 25)));
  (49%nat, Xo (R 29) (An (No (R 25)) (R 26)));
  (4%nat, Xo (R 4) (R 34));
  (25%nat, RLo (R 4) 27);
  (5%nat, Xo (R 5) (R 30));
  (26%nat, RLo (R 5) 36);
  (11%nat, Xo (R 11) (R 31));
  (27%nat, RLo (R 11) 10);
  (17%nat, Xo (R 17) (R 32));
  (28%nat, RLo (R 17) 15);
  (23%nat, Xo (R 23) (R 33));
  (29%nat, RLo (R 23) 56);
  (50%nat, Xo (R 25) (An (No (R 26)) (R 27)));
  (51%nat, Xo (R 26) (An (No (R 27)) (R 28)));
  (52%nat, Xo (R 27) (An (No (R 28)) (R 29)));
  (53%nat, Xo (R 28) (An (No (R 29)) (R 25)));
  (54%nat, Xo (R 29) (An (No (R 25)) (R 26)));
  (2%nat, Xo (R 2) (R 32));
  (25%nat, RLo (R 2) 62);
  (8%nat, Xo (R 8) (R 33));
  (26%nat, RLo (R 8) 55);
  (14%nat, Xo (R 14) (R 34));
  (27%nat, RLo (R 14) 39);
  (15%nat, Xo (R 15) (R 30));
  (28%nat, RLo (R 15) 41);
  (21%nat, Xo (R 21) (R 31));
  (29%nat, RLo (R 21) 2);
  (55%nat, Xo (R 25) (An (No (R 26)) (R 27)));
  (56%nat, Xo (R 26) (An (No (R 27)) (R 28)));
  (57%nat, Xo (R 27) (An (No (R 28)) (R 29)));
  (58%nat, Xo (R 28) (An (No (R 29)) (R 25)));
  (59%nat, Xo (R 29) (An (No (R 25)) (R 26)));
  (25%nat, Xo (Xo (Xo (Xo (R 35) (R 40)) (R 45)) (R 50)) (R 55));
  (26%nat, Xo (Xo (Xo (Xo (R 36) (R 41)) (R 46)) (R 51)) (R 56));
  (27%nat, Xo (Xo (Xo (Xo (R 37) (R 42)) (R 47)) (R 52)) (R 57));
  (28%nat, Xo (Xo (Xo (Xo (R 38) (R 43)) (R 48)) (R 53)) (R 58));
  (29%nat, Xo (Xo (Xo (Xo (R 39) (R 44)) (R 49)) (R 54)) (R 59));
  (30%nat, Xo (R 29) (RLo (R 26) 1));
  (31%nat, Xo (R 25) (RLo (R 27) 1));
  (32%nat, Xo (R 26) (RLo (R 28) 1));
  (33%nat, Xo (R 27) (RLo (R 29) 1));
  (34%nat, Xo (R 28) (RLo (R 25) 1));
  (35%nat, Xo (R 35) (R 30));
  (25%nat, R 35);
  (41%nat, Xo (R 41) (R 31));
  (26%nat, RLo (R 41) 44);
  (47%nat, Xo (R 47) (R 32));
  (27%nat, RLo (R 47) 43);
  (53%nat, Xo (R 53) (R 33));
  (28%nat, RLo (R 53) 21);
  (59%nat, Xo (R 59) (R 34));
  (29%nat, RLo (R 59) 14);
  (0%nat, Xo (R 25) (An (No (R 26)) (R 27)));
  (0%nat, Xo (R 0) (K 0x8083));
  (1%nat, Xo (R 26) (An (No (R 27)) (R 28)));
  (2%nat, Xo (R 27) (An (No (R 28)) (R 29)));
  (3%nat, Xo (R 28) (An (No (R 29)) (R 25)));
  (4%nat, Xo (R 29) (An (No (R 25)) (R 26)));
  (38%nat, Xo (R 38) (R 33));
  (25%nat, RLo (R 38) 28);
  (44%nat, Xo (R 44) (R 34));
  (26%nat, RLo (R 44) 20);
  (45%nat, Xo (R 45) (R 30));
  (27%nat, RLo (R 45) 3);
  (51%nat, Xo (R 51) (R 31));
  (28%nat, RLo (R 51) 45);
  (57%nat, Xo (R 57) (R 32));
  (29%nat, RLo (R 57) 61);
  (5%nat, Xo (R 25) (An (No (R 26)) (R 27)));
  (6%nat, Xo (R 26) (An (No (R 27)) (R 28)));
  (7%nat, Xo (R 27) (An (No (R 28)) (R 29)));
  (8%nat, Xo (R 28) (An (No (R 29)) (R 25)));
  (9%nat, Xo (R 29) (An (No (R 25)) (R 26)));
  (36%nat, Xo (R 36) (R 31));
  (25%nat, RLo (R 36) 1);
  (42%nat, Xo (R 42) (R 32));
  (26%nat, RLo (R 42) 6);
  (48%nat, Xo (R 48) (R 33));
  (27%nat, RLo (R 48) 25);
  (54%nat, Xo (R 54) (R 34));
  (28%nat, RLo (R 54) 8);
  (55%nat, Xo (R 55) (R 30));
  (29%nat, RLo (R 55) 18);
  (10%nat, Xo (R 25) (An (No (R 26)) (R 27)));
  (11%nat, Xo (R 26) (An (No (R 27)) (R 28)));
  (12%nat, Xo (R 27) (An (No (R 28)) (R 29)));
  (13%nat, Xo (R 28) (An (No (R 29)) (R 25)));
  (14%nat, Xo (R 29) (An (No (R 25)) (R 26)));
  (39%nat, Xo (R 39) (R 34));
  (25%nat, RLo (R 39) 27);
  (40%nat, Xo (R 40) (R 30));
  (26%nat, RLo (R 40) 36);
  (46%nat, Xo (R 46) (R 31));
  (27%nat, RLo (R 46) 10);
  (52%nat, Xo (R 52) (R 32));
  (28%nat, RLo (R 52) 15);
  (58%nat, Xo (R 58) (R 33));
  (29%nat, RLo (R 58) 56);
  (15%nat, Xo (R 25) (An (No (R 26)) (R 27)));
  (16%nat, Xo (R 26) (An (No (R 27)) (R 28)));
  (17%nat, Xo (R 27) (An (No (R 28)) (R 29)));
  (18%nat, Xo (R 28) (An (No (R 29)) (R 25)));
  (19%nat, Xo (R 29) (An (No (R 25)) (R 26)));
  (37%nat, Xo (R 37) (R 32));
  (25%nat, RLo (R 37) 62);
  (43%nat, Xo (R 43) (R 33));
  (26%nat, RLo (R 43) 55);
  (49%nat, Xo (R 49) (R 34));
  (27%nat, RLo (R 49) 39);
  (50%nat, Xo (R 50) (R 30));
  (28%nat, RLo (R 50) 41);
  (56%nat, Xo (R 56) (R 31));
  (29%nat, RLo (R 56) 2);
  (20%nat, Xo (R 25) (An (No (R 26)) (R 27)));
  (21%nat, Xo (R 26) (An (No (R 27)) (R 28)));
  (22%nat, Xo (R 27) (An (No (R 28)) (R 29)));
  (23%nat, Xo (R 28) (An (No (R 29)) (R 25)));
  (24%nat, Xo (R 29) (An (No (R 25)) (R 26)));
  (25%nat, Xo (Xo (Xo (Xo (R 0) (R 5)) (R 10)) (R 15)) (R 20));
  (26%nat, Xo (Xo (Xo (Xo (R 1) (R 6)) (R 11)) (R 16)) (R 21));
  (27%nat, Xo (Xo (Xo (Xo (R 2) (R 7)) (R 12)) (R 17)) (R 22));
  (28%nat, Xo (Xo (Xo (Xo (R 3) (R 8)) (R 13)) (R 18)) (R 23));
  (29%nat, Xo (Xo (Xo (Xo (R 4) (R 9)) (R 14)) (R 19)) (R 24));
  (30%nat, Xo (R 29) (RLo (R 26) 1));
  (31%nat, Xo (R 25) (RLo (R 27) 1));
  (32%nat, Xo (R 26) (RLo (R 28) 1));
  (33%nat, Xo (R 27) (RLo (R 29) 1));
  (34%nat, Xo (R 28) (RLo (R 25) 1));
  (0%nat, Xo (R 0) (R 30));
  (25%nat, R 0);
  (6%nat, Xo (R 6) (R 31));
  (26%nat, RLo (R 6) 44);
  (12%nat, Xo (R 12) (R 32));
  (27%nat, RLo (R 12) 43);
  (18%nat, Xo (R 18) (R 33));
  (28%nat, RLo (R 18) 21);
  (24%nat, Xo (R 24) (R 34));
  (29%nat, RLo (R 24) 14);
  (35%nat, Xo (R 25) (An (No (R 26)) (R 27)));
  (35%nat, Xo (R 35) (K 0x8000000000000081));
  (36%nat, Xo (R 26) (An (No (R 27)) (R 28)));
  (37%nat, Xo (R 27) (An (No (R 28)) (R 29)));
  (38%nat, Xo (R 28) (An (No (R 29)) (R 25)));
  (39%nat, Xo (R 29) (An (No (R 25)) (R 26)));
  (3%nat, Xo (R 3) (R 33));
  (25%nat, RLo (R 3) 28);
  (9%nat, Xo (R 9) (R 34));
  (26%nat, RLo (R 9) 20);
  (10%nat, Xo (R 10) (R 30));
  (27%nat, RLo (R 10) 3);
  (16%nat, Xo (R 16) (R 31));
  (28%nat, RLo (R 16) 45);
  (22%nat, Xo (R 22) (R 32));
  (29%nat, RLo (R 22) 61);
  (40%nat, Xo (R 25) (An (No (R 26)) (R 27)));
  (41%nat, Xo (R 26) (An (No (R 27)) (R 28)));
  (42%nat, Xo (R 27) (An (No (R 28)) (R 29)));
  (43%nat, Xo (R 28) (An (No (R 29)) (R 25)));
  (44%nat, Xo (R 29) (An (No (R 25)) (R 26)));
  (1%nat, Xo (R 1) (R 31));
  (25%nat, RLo (R 1) 1);
  (7%nat, Xo (R 7) (R 32));
  (26%nat, RLo (R 7) 6);
  (13%nat, Xo (R 13) (R 33));
  (27%nat, RLo (R 13) 25);
  (19%nat, Xo (R 19) (R 34));
  (28%nat, RLo (R 19) 8);
  (20%nat, Xo (R 20) (R 30));
  (29%nat, RLo (R 20) 18);
  (45%nat, Xo (R 25) (An (No (R 26)) (R 27)));
  (46%nat, Xo (R 26) (An (No (R 27)) (R 28)));
  (47%nat, Xo (R 27) (An (No (R 28)) (R 29)));
  (48%nat, Xo (R 28) (An (No (R 29)) (R 25)));
  (49%nat, Xo (R 29) (An (No (R 25)) (R 26)));
  (4%nat, Xo (R 4) (R 34));
  (25%nat, RLo (R 4) 27);
  (5%nat, Xo (R 5) (R 30));
  (26%nat, RLo (R 5) 36);
  (11%nat, Xo (R 11) (R 31));
  (27%nat, RLo (R 11) 10);
  (17%nat, Xo (R 17) (R 32));
  (28%nat, RLo (R 17) 15);
  (23%nat, Xo (R 23) (R 33));
  (29%nat, RLo (R 23) 56);
  (50%nat, Xo (R 25) (An (No (R 26)) (R 27)));
  (51%nat, Xo (R 26) (An (No (R 27)) (R 28)));
  (52%nat, Xo (R 27) (An (No (R 28)) (R 29)));
  (53%nat, Xo (R 28) (An (No (R 29)) (R 25)));
  (54%nat, Xo (R 29) (An (No (R 25)) (R 26)));
  (2%nat, Xo (R 2) (R 32));
  (25%nat, RLo (R 2) 62);
  (8%nat, Xo (R 8) (R 33));
  (26%nat, RLo (R 8) 55);
  (14%nat, Xo (R 14) (R 34));
  (27%nat, RLo (R 14) 39);
  (15%nat, Xo (R 15) (R 30));
  (28%nat, RLo (R 15) 41);
  (21%nat, Xo (R 21) (R 31));
  (29%nat, RLo (R 21) 2);
  (55%nat, Xo (R 25) (An (No (R 26)) (R 27)));
  (56%nat, Xo (R 26) (An (No (R 27)) (R 28)));
  (57%nat, Xo (R 27) (An (No (R 28)) (R 29)));
  (58%nat, Xo (R 28) (An (No (R 29)) (R 25)));
  (59%nat, Xo (R 29) (An (No (R 25)) (R 26)));
  (25%nat, Xo (Xo (Xo (Xo (R 35) (R 40)) (R 45)) (R 50)) (R 55));
  (26%nat, Xo (Xo (Xo (Xo (R 36) (R 41)) (R 46)) (R 51)) (R 56));
  (27%nat, Xo (Xo (Xo (Xo (R 37) (R 42)) (R 47)) (R 52)) (R 57));
  (28%nat, Xo (Xo (Xo (Xo (R 38) (R 43)) (R 48)) (R 53)) (R 58));
  (29%nat, Xo (Xo (Xo (Xo (R 39) (R 44)) (R 49)) (R 54)) (R 59));
  (30%nat, Xo (R 29) (RLo (R 26) 1));
  (31%nat, Xo (R 25) (RLo (R 27) 1));
  (32%nat, Xo (R 26) (RLo (R 28) 1));
  (33%nat, Xo (R 27) (RLo (R 29) 1));
  (34%nat, Xo (R 28) (RLo (R 25) 1));
  (35%nat, Xo (R 35) (R 30));
  (25%nat, R 35);
  (41%nat, Xo (R 41) (R 31));
  (26%nat, RLo (R 41) 44);
  (47%nat, Xo (R 47) (R 32));
  (27%nat, RLo (R 47) 43);
  (53%nat, Xo (R 53) (R 33));
  (28%nat, RLo (R 53) 21);
  (59%nat, Xo (R 59) (R 34));
  (29%nat, RLo (R 59) 14);
  (0%nat, Xo (R 25) (An (No (R 26)) (R 27)));
  (0%nat, Xo (R 0) (K 0x1));
  (1%nat, Xo (R 26) (An (No (R 27)) (R 28)));
  (2%nat, Xo (R 27) (An (No (R 28)) (R 29)));
  (3%nat, Xo (R 28) (An (No (R 29)) (R 25)));
  (4%nat, Xo (R 29) (An (No (R 25)) (R 26)));
  (38%nat, Xo (R 38) (R 33));
  (25%nat, RLo (R 38) 28);
  (44%nat, Xo (R 44) (R 34));
  (26%nat, RLo (R 44) 20);
  (45%nat, Xo (R 45) (R 30));
  (27%nat, RLo (R 45) 3);
  (51%nat, Xo (R 51) (R 31));
  (28%nat, RLo (R 51) 45);
  (57%nat, Xo (R 57) (R 32));
  (29%nat, RLo (R 57) 61);
  (5%nat, Xo (R 25) (An (No (R 26)) (R 27)));
  (6%nat, Xo (R 26) (An (No (R 27)) (R 28)));
  (7%nat, Xo (R 27) (An (No (R 28)) (R 29)));
  (8%nat, Xo (R 28) (An (No (R 29)) (R 25)));
  (9%nat, Xo (R 29) (An (No (R 25)) (R 26)));
  (36%nat, Xo (R 36) (R 31));
  (25%nat, RLo (R 36) 1);
  (42%nat, Xo (R 42) (R 32));
  (26%nat, RLo (R 42) 6);
  (48%nat, Xo (R 48) (R 33));
  (27%nat, RLo (R 48) 25);
  (54%nat, Xo (R 54) (R 34));
  (28%nat, RLo (R 54) 8);
  (55%nat, Xo (R 55) (R 30));
  (29%nat, RLo (R 55) 18);
  (10%nat, Xo (R 25) (An (No (R 26)) (R 27)));
  (11%nat, Xo (R 26) (An (No (R 27)) (R 28)));
  (12%nat, Xo (R 27) (An (No (R 28)) (R 29)));
  (13%nat, Xo (R 28) (An (No (R 29)) (R 25)));
  (14%nat, Xo (R 29) (An (No (R 25)) (R 26)));
  (39%nat, Xo (R 39) (R 34));
  (25%nat, RLo (R 39) 27);
  (40%nat, Xo (R 40) (R 30));
  (26%nat, RLo (R 40) 36);
  (46%nat, Xo (R 46) (R 31));
  (27%nat, RLo (R 46) 10);
  (52%nat, Xo (R 52) (R 32));
  (28%nat, RLo (R 52) 15);
  (58%nat, Xo (R 58) (R 33));
  (29%nat, RLo (R 58) 56);
  (15%nat, Xo (R 25) (An (No (R 26)) (R 27)));
  (16%nat, Xo (R 26) (An (No (R 27)) (R 28)));
  (17%nat, Xo (R 27) (An (No (R 28)) (R 29)));
  (18%nat, Xo (R 28) (An (No (R 29)) (R 25)));
  (19%nat, Xo (R 29) (An (No (R 25)) (R 26)));
  (37%nat, Xo (R 37) (R 32));
  (25%nat, RLo (R 37) 62);
  (43%nat, Xo (R 43) (R 33));
  (26%nat, RLo (R 43) 55);
  (49%nat, Xo (R 49) (R 34));
  (27%nat, RLo (R 49) 39);
  (50%nat, Xo (R 50) (R 30));
  (28%nat, RLo (R 50) 41);
  (56%nat, Xo (R 56) (R 31));
  (29%nat, RLo (R 56) 2);
  (20%nat, Xo (R 25) (An (No (R 26)) (R 27)));
  (21%nat, Xo (R 26) (An (No (R 27)) (R 28)));
  (22%nat, Xo (R 27) (An (No (R 28)) (R 29)));
  (23%nat, Xo (R 28) (An (No (R 29)) (R 25)));
  (24%nat, Xo (R 29) (An (No (R 25)) (R 26)));
  (25%nat, Xo (Xo (Xo (Xo (R 0) (R 5)) (R 10)) (R 15)) (R 20));
  (26%nat, Xo (Xo (Xo (Xo (R 1) (R 6)) (R 11)) (R 16)) (R 21));
  (27%nat, Xo (Xo (Xo (Xo (R 2) (R 7)) (R 12)) (R 17)) (R 22));
  (28%nat, Xo (Xo (Xo (Xo (R 3) (R 8)) (R 13)) (R 18)) (R 23));
  (29%nat, Xo (Xo (Xo (Xo (R 4) (R 9)) (R 14)) (R 19)) (R 24));
  (30%nat, Xo (R 29) (RLo (R 26) 1));
  (31%nat, Xo (R 25) (RLo (R 27) 1));
  (32%nat, Xo (R 26) (RLo (R 28) 1));
  (33%nat, Xo (R 27) (RLo (R 29) 1));
  (34%nat, Xo (R 28) (RLo (R 25) 1));
  (0%nat, Xo (R 0) (R 30));
  (25%nat, R 0);
  (6%nat, Xo (R 6) (R 31));
  (26%nat, RLo (R 6) 44);
  (12%nat, Xo (R 12) (R 32));
  (27%nat, RLo (R 12) 43);
  (18%nat, Xo (R 18) (R 33));
  (28%nat, RLo (R 18) 21);
  (24%nat, Xo (R 24) (R 34));
  (29%nat, RLo (R 24) 14);
  (35%nat, Xo (R 25) (An (No (R 26)) (R 27)));
  (35%nat, Xo (R 35) (K 0x800B));
  (36%nat, Xo (R 26) (An (No (R 27)) (R 28)));
  (37%nat, Xo (R 27) (An (No (R 28)) (R 29)));
  (38%nat, Xo (R 28) (An (No (R 29)) (R 25)));
  (39%nat, Xo (R 29) (An (No (R 25)) (R 26)));
  (3%nat, Xo (R 3) (R 33));
  (25%nat, RLo (R 3) 28);
  (9%nat, Xo (R 9) (R 34));
  (26%nat, RLo (R 9) 20);
  (10%nat, Xo (R 10) (R 30));
  (27%nat, RLo (R 10) 3);
  (16%nat, Xo (R 16) (R 31));
  (28%nat, RLo (R 16) 45);
  (22%nat, Xo (R 22) (R 32));
  (29%nat, RLo (R 22) 61);
  (40%nat, Xo (R 25) (An (No (R 26)) (R 27)));
  (41%nat, Xo (R 26) (An (No (R 27)) (R 28)));
  (42%nat, Xo (R 27) (An (No (R 28)) (R 29)));
  (43%nat, Xo (R 28) (An (No (R 29)) (R 25)));
  (44%nat, Xo (R 29) (An (No (R 25)) (R 26)));
  (1%nat, Xo (R 1) (R 31));
  (25%nat, RLo (R 1) 1);
  (7%nat, Xo (R 7) (R 32));
  (26%nat, RLo (R 7) 6);
  (13%nat, Xo (R 13) (R 33));
  (27%nat, RLo (R 13) 25);
  (19%nat, Xo (R 19) (R 34));
  (28%nat, RLo (R 19) 8);
  (20%nat, Xo (R 20) (R 30));
  (29%nat, RLo (R 20) 18);
  (45%nat, Xo (R 25) (An (No (R 26)) (R 27)));
  (46%nat, Xo (R 26) (An (No (R 27)) (R 28)));
  (47%nat, Xo (R 27) (An (No (R 28)) (R 29)));
  (48%nat, Xo (R 28) (An (No (R 29)) (R 25)));
  (49%nat, Xo (R 29) (An (No (R 25)) (R 26)));
  (4%nat, Xo (R 4) (R 34));
  (25%nat, RLo (R 4) 27);
  (5%nat, Xo (R 5) (R 30));
  (26%nat, RLo (R 5) 36);
  (11%nat, Xo (R 11) (R 31));
  (27%nat, RLo (R 11) 10);
  (17%nat, Xo (R 17) (R 32));
  (28%nat, RLo (R 17) 15);
  (23%nat, Xo (R 23) (R 33));
  (29%nat, RLo (R 23) 56);
  (50%nat, Xo (R 25) (An (No (R 26)) (R 27)));
  (51%nat, Xo (R 26) (An (No (R 27)) (R 28)));
  (52%nat, Xo (R 27) (An (No (R 28)) (R 29)));
  (53%nat, Xo (R 28) (An (No (R 29)) (R 25)));
  (54%nat, Xo (R 29) (An (No (R 25)) (R 26)));
  (2%nat, Xo (R 2) (R 32));
  (25%nat, RLo (R 2) 62);
  (8%nat, Xo (R 8) (R 33));
  (26%nat, RLo (R 8) 55);
  (14%nat, Xo (R 14) (R 34));
  (27%nat, RLo (R 14) 39);
  (15%nat, Xo (R 15) (R 30));
  (28%nat, RLo (R 15) 41);
  (21%nat, Xo (R 21) (R 31));
  (29%nat, RLo (R 21) 2);
  (55%nat, Xo (R 25) (An (No (R 26)) (R 27)));
  (56%nat, Xo (R 26) (An (No (R 27)) (R 28)));
  (57%nat, Xo (R 27) (An (No (R 28)) (R 29)));
  (58%nat, Xo (R 28) (An (No (R 29)) (R 25)));
  (59%nat, Xo (R 29) (An (No (R 25)) (R 26)));
  (25%nat, Xo (Xo (Xo (Xo (R 35) (R 40)) (R 45)) (R 50)) (R 55));
  (26%nat, Xo (Xo (Xo (Xo (R 36) (R 41)) (R 46)) (R 51)) (R 56));
  (27%nat, Xo (Xo (Xo (Xo (R 37) (R 42)) (R 47)) (R 52)) (R 57));
  (28%nat, Xo (Xo (Xo (Xo (R 38) (R 43)) (R 48)) (R 53)) (R 58));
  (29%nat, Xo (Xo (Xo (Xo (R 39) (R 44)) (R 49)) (R 54)) (R 59));
  (30%nat, Xo (R 29) (RLo (R 26) 1));
  (31%nat, Xo (R 25) (RLo (R 27) 1));
  (32%nat, Xo (R 26) (RLo (R 28) 1));
  (33%nat, Xo (R 27) (RLo (R 29) 1));
  (34%nat, Xo (R 28) (RLo (R 25) 1));
  (35%nat, Xo (R 35) (R 30));
  (25%nat, R 35);
  (41%nat, Xo (R 41) (R 31));
  (26%nat, RLo (R 41) 44);
  (47%nat, Xo (R 47) (R 32));
  (27%nat, RLo (R 47) 43);
  (53%nat, Xo (R 53) (R 33));
  (28%nat, RLo (R 53) 21);
  (59%nat, Xo (R 59) (R 34));
  (29%nat, RLo (R 59) 14);
  (0%nat, Xo (R 25) (An (No (R 26)) (R 27)));
  (0%nat, Xo (R 0) (K 0x8000000080008001));
  (1%nat, Xo (R 26) (An (No (R 27)) (R 28)));
  (2%nat, Xo (R 27) (An (No (R 28)) (R 29)));
  (3%nat, Xo (R 28) (An (No (R 29)) (R 25)));
  (4%nat, Xo (R 29) (An (No (R 25)) (R 26)));
  (38%nat, Xo (R 38) (R 33));
  (25%nat, RLo (R 38) 28);
  (44%nat, Xo (R 44) (R 34));
  (26%nat, RLo (R 44) 20);
  (45%nat, Xo (R 45) (R 30));
  (27%nat, RLo (R 45) 3);
  (51%nat, Xo (R 51) (R 31));
  (28%nat, RLo (R 51) 45);
  (57%nat, Xo (R 57) (R 32));
  (29%nat, RLo (R 57) 61);
  (5%nat, Xo (R 25) (An (No (R 26)) (R 27)));
  (6%nat, Xo (R 26) (An (No (R 27)) (R 28)));
  (7%nat, Xo (R 27) (An (No (R 28)) (R 29)));
  (8%nat, Xo (R 28) (An (No (R 29)) (R 25)));
  (9%nat, Xo (R 29) (An (No (R 25)) (R 26)));
  (36%nat, Xo (R 36) (R 31));
  (25%nat, RLo (R 36) 1);
  (42%nat, Xo (R 42) (R 32));
  (26%nat, RLo (R 42) 6);
  (48%nat, Xo (R 48) (R 33));
  (27%nat, RLo (R 48) 25);
  (54%nat, Xo (R 54) (R 34));
  (28%nat, RLo (R 54) 8);
  (55%nat, Xo (R 55) (R 30));
  (29%nat, RLo (R 55) 18);
  (10%nat, Xo (R 25) (An (No (R 26)) (R 27)));
  (11%nat, Xo (R 26) (An (No (R 27)) (R 28)));
  (12%nat, Xo (R 27) (An (No (R 28)) (R 29)));
  (13%nat, Xo (R 28) (An (No (R 29)) (R 25)));
  (14%nat, Xo (R 29) (An (No (R 25)) (R 26)));
  (39%nat, Xo (R 39) (R 34));
  (25%nat, RLo (R 39) 27);
  (40%nat, Xo (R 40) (R 30));
  (26%nat, RLo (R 40) 36);
  (46%nat, Xo (R 46) (R 31));
  (27%nat, RLo (R 46) 10);
  (52%nat, Xo (R 52) (R 32));
  (28%nat, RLo (R 52) 15);
  (58%nat, Xo (R 58) (R 33));
  (29%nat, RLo (R 58) 56);
  (15%nat, Xo (R 25) (An (No (R 26)) (R 27)));
  (16%nat, Xo (R 26) (An (No (R 27)) (R 28)));
  (17%nat, Xo (R 27) (An (No (R 28)) (R 29)));
  (18%nat, Xo (R 28) (An (No (R 29)) (R 25)));
  (19%nat, Xo (R 29) (An (No (R 25)) (R 26)));
  (37%nat, Xo (R 37) (R 32));
  (25%nat, RLo (R 37) 62);
  (43%nat, Xo (R 43) (R 33));
  (26%nat, RLo (R 43) 55);
  (49%nat, Xo (R 49) (R 34));
  (27%nat, RLo (R 49) 39);
  (50%nat, Xo (R 50) (R 30));
  (28%nat, RLo (R 50) 41);
  (56%nat, Xo (R 56) (R 31));
  (29%nat, RLo (R 56) 2);
  (20%nat, Xo (R 25) (An (No (R 26)) (R 27)));
  (21%nat, Xo (R 26) (An (No (R 27)) (R 28)));
  (22%nat, Xo (R 27) (An (No (R 28)) (R 29)));
  (23%nat, Xo (R 28) (An (No (R 29)) (R 25)));
  (24%nat, Xo (R 29) (An (No (R 25)) (R 26)));
  (25%nat, Xo (Xo (Xo (Xo (R 0) (R 5)) (R 10)) (R 15)) (R 20));
  (26%nat, Xo (Xo (Xo (Xo (R 1) (R 6)) (R 11)) (R 16)) (R 21));
  (27%nat, Xo (Xo (Xo (Xo (R 2) (R 7)) (R 12)) (R 17)) (R 22));
  (28%nat, Xo (Xo (Xo (Xo (R 3) (R 8)) (R 13)) (R 18)) (R 23));
  (29%nat, Xo (Xo (Xo (Xo (R 4) (R 9)) (R 14)) (R 19)) (R 24));
  (30%nat, Xo (R 29) (RLo (R 26) 1));
  (31%nat, Xo (R 25) (RLo (R 27) 1));
  (32%nat, Xo (R 26) (RLo (R 28) 1));
  (33%nat, Xo (R 27) (RLo (R 29) 1));
  (34%nat, Xo (R 28) (RLo (R 25) 1));
  (0%nat, Xo (R 0) (R 30));
  (25%nat, R 0);
  (6%nat, Xo (R 6) (R 31));
  (26%nat, RLo (R 6) 44);
  (12%nat, Xo (R 12) (R 32));
  (27%nat, RLo (R 12) 43);
  (18%nat, Xo (R 18) (R 33));
  (28%nat, RLo (R 18) 21);
  (24%nat, Xo (R 24) (R 34));
  (29%nat, RLo (R 24) 14);
  (35%nat, Xo (R 25) (An (No (R 26)) (R 27)));
  (35%nat, Xo (R 35) (K 0x80));
  (36%nat, Xo (R 26) (An (No (R 27)) (R 28)));
  (37%nat, Xo (R 27) (An (No (R 28)) (R 29)));
  (38%nat, Xo (R 28) (An (No (R 29)) (R 25)));
  (39%nat, Xo (R 29) (An (No (R 25)) (R 26)));
  (3%nat, Xo (R 3) (R 33));
  (25%nat, RLo (R 3) 28);
  (9%nat, Xo (R 9) (R 34));
  (26%nat, RLo (R 9) 20);
  (10%nat, Xo (R 10) (R 30));
  (27%nat, RLo (R 10) 3);
  (16%nat, Xo (R 16) (R 31));
  (28%nat, RLo (R 16) 45);
  (22%nat, Xo (R 22) (R 32));
  (29%nat, RLo (R 22) 61);
  (40%nat, Xo (R 25) (An (No (R 26)) (R 27)));
  (41%nat, Xo (R 26) (An (No (R 27)) (R 28)));
  (42%nat, Xo (R 27) (An (No (R 28)) (R 29)));
  (43%nat, Xo (R 28) (An (No (R 29)) (R 25)));
  (44%nat, Xo (R 29) (An (No (R 25)) (R 26)));
  (1%nat, Xo (R 1) (R 31));
  (25%nat, RLo (R 1) 1);
  (7%nat, Xo (R 7) (R 32));
  (26%nat, RLo (R 7) 6);
  (13%nat, Xo (R 13) (R 33));
  (27%nat, RLo (R 13) 25);
  (19%nat, Xo (R 19) (R 34));
  (28%nat, RLo (R 19) 8);
  (20%nat, Xo (R 20) (R 30));
  (29%nat, RLo (R 20) 18);
  (45%nat, Xo (R 25) (An (No (R 26)) (R 27)));
  (46%nat, Xo (R 26) (An (No (R 27)) (R 28)));
  (47%nat, Xo (R 27) (An (No (R 28)) (R 29)));
  (48%nat, Xo (R 28) (An (No (R 29)) (R 25)));
  (49%nat, Xo (R 29) (An (No (R 25)) (R 26)));
  (4%nat, Xo (R 4) (R 34));
  (25%nat, RLo (R 4) 27);
  (5%nat, Xo (R 5) (R 30));
  (26%nat, RLo (R 5) 36);
  (11%nat, Xo (R 11) (R 31));
  (27%nat, RLo (R 11) 10);
  (17%nat, Xo (R 17) (R 32));
  (28%nat, RLo (R 17) 15);
  (23%nat, Xo (R 23) (R 33));
  (29%nat, RLo (R 23) 56);
  (50%nat, Xo (R 25) (An (No (R 26)) (R 27)));
  (51%nat, Xo (R 26) (An (No (R 27)) (R 28)));
  (52%nat, Xo (R 27) (An (No (R 28)) (R 29)));
  (53%nat, Xo (R 28) (An (No (R 29)) (R 25)));
  (54%nat, Xo (R 29) (An (No (R 25)) (R 26)));
  (2%nat, Xo (R 2) (R 32));
  (25%nat, RLo (R 2) 62);
  (8%nat, Xo (R 8) (R 33));
  (26%nat, RLo (R 8) 55);
  (14%nat, Xo (R 14) (R 34));
  (27%nat, RLo (R 14) 39);
  (15%nat, Xo (R 15) (R 30));
  (28%nat, RLo (R 15) 41);
  (21%nat, Xo (R 21) (R 31));
  (29%nat, RLo (R 21) 2);
  (55%nat, Xo (R 25) (An (No (R 26)) (R 27)));
  (56%nat, Xo (R 26) (An (No (R 27)) (R 28)));
  (57%nat, Xo (R 27) (An (No (R 28)) (R 29)));
  (58%nat, Xo (R 28) (An (No (R 29)) (R 25)));
  (59%nat, Xo (R 29) (An (No (R 25)) (R 26)));
  (25%nat, Xo (Xo (Xo (Xo (R 35) (R 40)) (R 45)) (R 50)) (R 55));
  (26%nat, Xo (Xo (Xo (Xo (R 36) (R 41)) (R 46)) (R 51)) (R 56));
  (27%nat, Xo (Xo (Xo (Xo (R 37) (R 42)) (R 47)) (R 52)) (R 57));
  (28%nat, Xo (Xo (Xo (Xo (R 38) (R 43)) (R 48)) (R 53)) (R 58));
  (29%nat, Xo (Xo (Xo (Xo (R 39) (R 44)) (R 49)) (R 54)) (R 59));
  (30%nat, Xo (R 29) (RLo (R 26) 1));
  (31%nat, Xo (R 25) (RLo (R 27) 1));
  (32%nat, Xo (R 26) (RLo (R 28) 1));
  (33%nat, Xo (R 27) (RLo (R 29) 1));
  (34%nat, Xo (R 28) (RLo (R 25) 1));
  (35%nat, Xo (R 35) (R 30));
  (25%nat, R 35);
  (41%nat, Xo (R 41) (R 31));
  (26%nat, RLo (R 41) 44);
  (47%nat, Xo (R 47) (R 32));
  (27%nat, RLo (R 47) 43);
  (53%nat, Xo (R 53) (R 33));
  (28%nat, RLo (R 53) 21);
  (59%nat, Xo (R 59) (R 34));
  (29%nat, RLo (R 59) 14);
  (0%nat, Xo (R 25) (An (No (R 26)) (R 27)));
  (0%nat, Xo (R 0) (K 0x8000000000008000));
  (1%nat, Xo (R 26) (An (No (R 27)) (R 28)));
  (2%nat, Xo (R 27) (An (No (R 28)) (R 29)));
  (3%nat, Xo (R 28) (An (No (R 29)) (R 25)));
  (4%nat, Xo (R 29) (An (No (R 25)) (R 26)));
  (38%nat, Xo (R 38) (R 33));
  (25%nat, RLo (R 38) 28);
  (44%nat, Xo (R 44) (R 34));
  (26%nat, RLo (R 44) 20);
  (45%nat, Xo (R 45) (R 30));
  (27%nat, RLo (R 45) 3);
  (51%nat, Xo (R 51) (R 31));
  (28%nat, RLo (R 51) 45);
  (57%nat, Xo (R 57) (R 32));
  (29%nat, RLo (R 57) 61);
  (5%nat, Xo (R 25) (An (No (R 26)) (R 27)));
  (6%nat, Xo (R 26) (An (No (R 27)) (R 28)));
  (7%nat, Xo (R 27) (An (No (R 28)) (R 29)));
  (8%nat, Xo (R 28) (An (No (R 29)) (R 25)));
  (9%nat, Xo (R 29) (An (No (R 25)) (R 26)));
  (36%nat, Xo (R 36) (R 31));
  (25%nat, RLo (R 36) 1);
  (42%nat, Xo (R 42) (R 32));
  (26%nat, RLo (R 42) 6);
  (48%nat, Xo (R 48) (R 33));
  (27%nat, RLo (R 48) 25);
  (54%nat, Xo (R 54) (R 34));
  (28%nat, RLo (R 54) 8);
  (55%nat, Xo (R 55) (R 30));
  (29%nat, RLo (R 55) 18);
  (10%nat, Xo (R 25) (An (No (R 26)) (R 27)));
  (11%nat, Xo (R 26) (An (No (R 27)) (R 28)));
  (12%nat, Xo (R 27) (An (No (R 28)) (R 29)));
  (13%nat, Xo (R 28) (An (No (R 29)) (R 25)));
  (14%nat, Xo (R 29) (An (No (R 25)) (R 26)));
  (39%nat, Xo (R 39) (R 34));
  (25%nat, RLo (R 39) 27);
  (40%nat, Xo (R 40) (R 30));
  (26%nat, RLo (R 40) 36);
  (46%nat, Xo (R 46) (R 31));
  (27%nat, RLo (R 46) 10);
  (52%nat, Xo (R 52) (R 32));
  (28%nat, RLo (R 52) 15);
  (58%nat, Xo (R 58) (R 33));
  (29%nat, RLo (R 58) 56);
  (15%nat, Xo (R 25) (An (No (R 26)) (R 27)));
  (16%nat, Xo (R 26) (An (No (R 27)) (R 28)));
  (17%nat, Xo (R 27) (An (No (R 28)) (R 29)));
  (18%nat, Xo (R 28) (An (No (R 29)) (R 25)));
  (19%nat, Xo (R 29) (An (No (R 25)) (R 26)));
  (37%nat, Xo (R 37) (R 32));
  (25%nat, RLo (R 37) 62);
  (43%nat, Xo (R 43) (R 33));
  (26%nat, RLo (R 43) 55);
  (49%nat, Xo (R 49) (R 34));
  (27%nat, RLo (R 49) 39);
  (50%nat, Xo (R 50) (R 30));
  (28%nat, RLo (R 50) 41);
  (56%nat, Xo (R 56) (R 31));
  (29%nat, RLo (R 56) 2);
  (20%nat, Xo (R 25) (An (No (R 26)) (R 27)));
  (21%nat, Xo (R 26) (An (No (R 27)) (R 28)));
  (22%nat, Xo (R 27) (An (No (R 28)) (R 29)));
  (23%nat, Xo (R 28) (An (No (R 29)) (R 25)));
  (24%nat, Xo (R 29) (An (No (R 25)) (R 26)));
  (25%nat, Xo (Xo (Xo (Xo (R 0) (R 5)) (R 10)) (R 15)) (R 20));
  (26%nat, Xo (Xo (Xo (Xo (R 1) (R 6)) (R 11)) (R 16)) (R 21));
  (27%nat, Xo (Xo (Xo (Xo (R 2) (R 7)) (R 12)) (R 17)) (R 22));
  (28%nat, Xo (Xo (Xo (Xo (R 3) (R 8)) (R 13)) (R 18)) (R 23));
  (29%nat, Xo (Xo (Xo (Xo (R 4) (R 9)) (R 14)) (R 19)) (R 24));
  (30%nat, Xo (R 29) (RLo (R 26) 1));
  (31%nat, Xo (R 25) (RLo (R 27) 1));
  (32%nat, Xo (R 26) (RLo (R 28) 1));
  (33%nat, Xo (R 27) (RLo (R 29) 1));
  (34%nat, Xo (R 28) (RLo (R 25) 1));
  (0%nat, Xo (R 0) (R 30));
  (25%nat, R 0);
  (6%nat, Xo (R 6) (R 31));
  (26%nat, RLo (R 6) 44);
  (12%nat, Xo (R 12) (R 32));
  (27%nat, RLo (R 12) 43);
  (18%nat, Xo (R 18) (R 33));
  (28%nat, RLo (R 18) 21);
  (24%nat, Xo (R 24) (R 34));
  (29%nat, RLo (R 24) 14);
  (35%nat, Xo (R 25) (An (No (R 26)) (R 27)));
  (35%nat, Xo (R 35) (K 0x8000000080008001));
  (36%nat, Xo (R 26) (An (No (R 27)) (R 28)));
  (37%nat, Xo (R 27) (An (No (R 28)) (R 29)));
  (38%nat, Xo (R 28) (An (No (R 29)) (R 25)));
  (39%nat, Xo (R 29) (An (No (R 25)) (R 26)));
  (3%nat, Xo (R 3) (R 33));
  (25%nat, RLo (R 3) 28);
  (9%nat, Xo (R 9) (R 34));
  (26%nat, RLo (R 9) 20);
  (10%nat, Xo (R 10) (R 30));
  (27%nat, RLo (R 10) 3);
  (16%nat, Xo (R 16) (R 31));
  (28%nat, RLo (R 16) 45);
  (22%nat, Xo (R 22) (R 32));
  (29%nat, RLo (R 22) 61);
  (40%nat, Xo (R 25) (An (No (R 26)) (R 27)));
  (41%nat, Xo (R 26) (An (No (R 27)) (R 28)));
  (42%nat, Xo (R 27) (An (No (R 28)) (R 29)));
  (43%nat, Xo (R 28) (An (No (R 29)) (R 25)));
  (44%nat, Xo (R 29) (An (No (R 25)) (R 26)));
  (1%nat, Xo (R 1) (R 31));
  (25%nat, RLo (R 1) 1);
  (7%nat, Xo (R 7) (R 32));
  (26%nat, RLo (R 7) 6);
  (13%nat, Xo (R 13) (R 33));
  (27%nat, RLo (R 13) 25);
  (19%nat, Xo (R 19) (R 34));
  (28%nat, RLo (R 19) 8);
  (20%nat, Xo (R 20) (R 30));
  (29%nat, RLo (R 20) 18);
  (45%nat, Xo (R 25) (An (No (R 26)) (R 27)));
  (46%nat, Xo (R 26) (An (No (R 27)) (R 28)));
  (47%nat, Xo (R 27) (An (No (R 28)) (R 29)));
  (48%nat, Xo (R 28) (An (No (R 29)) (R 25)));
  (49%nat, Xo (R 29) (An (No (R 25)) (R 26)));
  (4%nat, Xo (R 4) (R 34));
  (25%nat, RLo (R 4) 27);
  (5%nat, Xo (R 5) (R 30));
  (26%nat, RLo (R 5) 36);
  (11%nat, Xo (R 11) (R 31));
  (27%nat, RLo (R 11) 10);
  (17%nat, Xo (R 17) (R 32));
  (28%nat, RLo (R 17) 15);
  (23%nat, Xo (R 23) (R 33));
  (29%nat, RLo (R 23) 56);
  (50%nat, Xo (R 25) (An (No (R 26)) (R 27)));
  (51%nat, Xo (R 26) (An (No (R 27)) (R 28)));
  (52%nat, Xo (R 27) (An (No (R 28)) (R 29)));
  (53%nat, Xo (R 28) (An (No (R 29)) (R 25)));
  (54%nat, Xo (R 29) (An (No (R 25)) (R 26)));
  (2%nat, Xo (R 2) (R 32));
  (25%nat, RLo (R 2) 62);
  (8%nat, Xo (R 8) (R 33));
  (26%nat, RLo (R 8) 55);
  (14%nat, Xo (R 14) (R 34));
  (27%nat, RLo (R 14) 39);
  (15%nat, Xo (R 15) (R 30));
  (28%nat, RLo (R 15) 41);
  (21%nat, Xo (R 21) (R 31));
  (29%nat, RLo (R 21) 2);
  (55%nat, Xo (R 25) (An (No (R 26)) (R 27)));
  (56%nat, Xo (R 26) (An (No (R 27)) (R 28)));
  (57%nat, Xo (R 27) (An (No (R 28)) (R 29)));
  (58%nat, Xo (R 28) (An (No (R 29)) (R 25)));
  (59%nat, Xo (R 29) (An (No (R 25)) (R 26)));
  (25%nat, Xo (Xo (Xo (Xo (R 35) (R 40)) (R 45)) (R 50)) (R 55));
  (26%nat, Xo (Xo (Xo (Xo (R 36) (R 41)) (R 46)) (R 51)) (R 56));
  (27%nat, Xo (Xo (Xo (Xo (R 37) (R 42)) (R 47)) (R 52)) (R 57));
  (28%nat, Xo (Xo (Xo (Xo (R 38) (R 43)) (R 48)) (R 53)) (R 58));
  (29%nat, Xo (Xo (Xo (Xo (R 39) (R 44)) (R 49)) (R 54)) (R 59));
  (30%nat, Xo (R 29) (RLo (R 26) 1));
  (31%nat, Xo (R 25) (RLo (R 27) 1));
  (32%nat, Xo (R 26) (RLo (R 28) 1));
  (33%nat, Xo (R 27) (RLo (R 29) 1));
  (34%nat, Xo (R 28) (RLo (R 25) 1));
  (35%nat, Xo (R 35) (R 30));
  (25%nat, R 35);
  (41%nat, Xo (R 41) (R 31));
  (26%nat, RLo (R 41) 44);
  (47%nat, Xo (R 47) (R 32));
  (27%nat, RLo (R 47) 43);
  (53%nat, Xo (R 53) (R 33));
  (28%nat, RLo (R 53) 21);
  (59%nat, Xo (R 59) (R 34));
  (29%nat, RLo (R 59) 14);
  (0%nat, Xo (R 25) (An (No (R 26)) (R 27)));
  (0%nat, Xo (R 0) (K 0x9));
  (1%nat, Xo (R 26) (An (No (R 27)) (R 28)));
  (2%nat, Xo (R 27) (An (No (R 28)) (R 29)));
  (3%nat, Xo (R 28) (An (No (R 29)) (R 25)));
  (4%nat, Xo (R 29) (An (No (R 25)) (R 26)));
  (38%nat, Xo (R 38) (R 33));
  (25%nat, RLo (R 38) 28);
  (44%nat, Xo (R 44) (R 34));
  (26%nat, RLo (R 44) 20);
  (45%nat, Xo (R 45) (R 30));
  (27%nat, RLo (R 45) 3);
  (51%nat, Xo (R 51) (R 31));
  (28%nat, RLo (R 51) 45);
  (57%nat, Xo (R 57) (R 32));
  (29%nat, RLo (R 57) 61);
  (5%nat, Xo (R 25) (An (No (R 26)) (R 27)));
  (6%nat, Xo (R 26) (An (No (R 27)) (R 28)));
  (7%nat, Xo (R 27) (An (No (R 28)) (R 29)));
  (8%nat, Xo (R 28) (An (No (R 29)) (R 25)));
  (9%nat, Xo (R 29) (An (No (R 25)) (R 26)));
  (36%nat, Xo (R 36) (R 31));
  (25%nat, RLo (R 36) 1);
  (42%nat, Xo (R 42) (R 32));
  (26%nat, RLo (R 42) 6);
  (48%nat, Xo (R 48) (R 33));
  (27%nat, RLo (R 48) 25);
  (54%nat, Xo (R 54) (R 34));
  (28%nat, RLo (R 54) 8);
  (55%nat, Xo (R 55) (R 30));
  (29%nat, RLo (R 55) 18);
  (10%nat, Xo (R 25) (An (No (R 26)) (R 27)));
  (11%nat, Xo (R 26) (An (No (R 27)) (R 28)));
  (12%nat, Xo (R 27) (An (No (R 28)) (R 29)));
  (13%nat, Xo (R 28) (An (No (R 29)) (R 25)));
  (14%nat, Xo (R 29) (An (No (R 25)) (R 26)));
  (39%nat, Xo (R 39) (R 34));
  (25%nat, RLo (R 39) 27);
  (40%nat, Xo (R 40) (R 30));
  (26%nat, RLo (R 40) 36);
  (46%nat, Xo (R 46) (R 31));
  (27%nat, RLo (R 46) 10);
  (52%nat, Xo (R 52) (R 32));
  (28%nat, RLo (R 52) 15);
  (58%nat, Xo (R 58) (R 33));
  (29%nat, RLo (R 58) 56);
  (15%nat, Xo (R 25) (An (No (R 26)) (R 27)));
  (16%nat, Xo (R 26) (An (No (R 27)) (R 28)));
  (17%nat, Xo (R 27) (An (No (R 28)) (R 29)));
  (18%nat, Xo (R 28) (An (No (R 29)) (R 25)));
  (19%nat, Xo (R 29) (An (No (R 25)) (R 26)));
  (37%nat, Xo (R 37) (R 32));
  (25%nat, RLo (R 37) 62);
  (43%nat, Xo (R 43) (R 33));
  (26%nat, RLo (R 43) 55);
  (49%nat, Xo (R 49) (R 34));
  (27%nat, RLo (R 49) 39);
  (50%nat, Xo (R 50) (R 30));
  (28%nat, RLo (R 50) 41);
  (56%nat, Xo (R 56) (R 31));
  (29%nat, RLo (R 56) 2);
  (20%nat, Xo (R 25) (An (No (R 26)) (R 27)));
  (21%nat, Xo (R 26) (An (No (R 27)) (R 28)));
  (22%nat, Xo (R 27) (An (No (R 28)) (R 29)));
  (23%nat, Xo (R 28) (An (No (R 29)) (R 25)));
  (24%nat, Xo (R 29) (An (No (R 25)) (R 26)));
  (25%nat, Xo (Xo (Xo (Xo (R 0) (R 5)) (R 10)) (R 15)) (R 20));
  (26%nat, Xo (Xo (Xo (Xo (R 1) (R 6)) (R 11)) (R 16)) (R 21));
  (27%nat, Xo (Xo (Xo (Xo (R 2) (R 7)) (R 12)) (R 17)) (R 22));
  (28%nat, Xo (Xo (Xo (Xo (R 3) (R 8)) (R 13)) (R 18)) (R 23));
  (29%nat, Xo (Xo (Xo (Xo (R 4) (R 9)) (R 14)) (R 19)) (R 24));
  (30%nat, Xo (R 29) (RLo (R 26) 1));
  (31%nat, Xo (R 25) (RLo (R 27) 1));
  (32%nat, Xo (R 26) (RLo (R 28) 1));
  (33%nat, Xo (R 27) (RLo (R 29) 1));
  (34%nat, Xo (R 28) (RLo (R 25) 1));
  (0%nat, Xo (R 0) (R 30));
  (25%nat, R 0);
  (6%nat, Xo (R 6) (R 31));
  (26%nat, RLo (R 6) 44);
  (12%nat, Xo (R 12) (R 32));
  (27%nat, RLo (R 12) 43);
  (18%nat, Xo (R 18) (R 33));
  (28%nat, RLo (R 18) 21);
  (24%nat, Xo (R 24) (R 34));
  (29%nat, RLo (R 24) 14);
  (35%nat, Xo (R 25) (An (No (R 26)) (R 27)));
  (35%nat, Xo (R 35) (K 0x800000008000808B));
  (36%nat, Xo (R 26) (An (No (R 27)) (R 28)));
  (37%nat, Xo (R 27) (An (No (R 28)) (R 29)));
  (38%nat, Xo (R 28) (An (No (R 29)) (R 25)));
  (39%nat, Xo (R 29) (An (No (R 25)) (R 26)));
  (3%nat, Xo (R 3) (R 33));
  (25%nat, RLo (R 3) 28);
  (9%nat, Xo (R 9) (R 34));
  (26%nat, RLo (R 9) 20);
  (10%nat, Xo (R 10) (R 30));
  (27%nat, RLo (R 10) 3);
  (16%nat, Xo (R 16) (R 31));
  (28%nat, RLo (R 16) 45);
  (22%nat, Xo (R 22) (R 32));
  (29%nat, RLo (R 22) 61);
  (40%nat, Xo (R 25) (An (No (R 26)) (R 27)));
  (41%nat, Xo (R 26) (An (No (R 27)) (R 28)));
  (42%nat, Xo (R 27) (An (No (R 28)) (R 29)));
  (43%nat, Xo (R 28) (An (No (R 29)) (R 25)));
  (44%nat, Xo (R 29) (An (No (R 25)) (R 26)));
  (1%nat, Xo (R 1) (R 31));
  (25%nat, RLo (R 1) 1);
  (7%nat, Xo (R 7) (R 32));
  (26%nat, RLo (R 7) 6);
  (13%nat, Xo (R 13) (R 33));
  (27%nat, RLo (R 13) 25);
  (19%nat, Xo (R 19) (R 34));
  (28%nat, RLo (R 19) 8);
  (20%nat, Xo (R 20) (R 30));
  (29%nat, RLo (R 20) 18);
  (45%nat, Xo (R 25) (An (No (R 26)) (R 27)));
  (46%nat, Xo (R 26) (An (No (R 27)) (R 28)));
  (47%nat, Xo (R 27) (An (No (R 28)) (R 29)));
  (48%nat, Xo (R 28) (An (No (R 29)) (R 25)));
  (49%nat, Xo (R 29) (An (No (R 25)) (R 26)));
  (4%nat, Xo (R 4) (R 34));
  (25%nat, RLo (R 4) 27);
  (5%nat, Xo (R 5) (R 30));
  (26%nat, RLo (R 5) 36);
  (11%nat, Xo (R 11) (R 31));
  (27%nat, RLo (R 11) 10);
  (17%nat, Xo (R 17) (R 32));
  (28%nat, RLo (R 17) 15);
  (23%nat, Xo (R 23) (R 33));
  (29%nat, RLo (R 23) 56);
  (50%nat, Xo (R 25) (An (No (R 26)) (R 27)));
  (51%nat, Xo (R 26) (An (No (R 27)) (R 28)));
  (52%nat, Xo (R 27) (An (No (R 28)) (R 29)));
  (53%nat, Xo (R 28) (An (No (R 29)) (R 25)));
  (54%nat, Xo (R 29) (An (No (R 25)) (R 26)));
  (2%nat, Xo (R 2) (R 32));
  (25%nat, RLo (R 2) 62);
  (8%nat, Xo (R 8) (R 33));
  (26%nat, RLo (R 8) 55);
  (14%nat, Xo (R 14) (R 34));
  (27%nat, RLo (R 14) 39);
  (15%nat, Xo (R 15) (R 30));
  (28%nat, RLo (R 15) 41);
  (21%nat, Xo (R 21) (R 31));
  (29%nat, RLo (R 21) 2);
  (55%nat, Xo (R 25) (An (No (R 26)) (R 27)));
  (56%nat, Xo (R 26) (An (No (R 27)) (R 28)));
  (57%nat, Xo (R 27) (An (No (R 28)) (R 29)));
  (58%nat, Xo (R 28) (An (No (R 29)) (R 25)));
  (59%nat, Xo (R 29) (An (No (R 25)) (R 26)));
  (25%nat, Xo (Xo (Xo (Xo (R 35) (R 40)) (R 45)) (R 50)) (R 55));
  (26%nat, Xo (Xo (Xo (Xo (R 36) (R 41)) (R 46)) (R 51)) (R 56));
  (27%nat, Xo (Xo (Xo (Xo (R 37) (R 42)) (R 47)) (R 52)) (R 57));
  (28%nat, Xo (Xo (Xo (Xo (R 38) (R 43)) (R 48)) (R 53)) (R 58));
  (29%nat, Xo (Xo (Xo (Xo (R 39) (R 44)) (R 49)) (R 54)) (R 59));
  (30%nat, Xo (R 29) (RLo (R 26) 1));
  (31%nat, Xo (R 25) (RLo (R 27) 1));
  (32%nat, Xo (R 26) (RLo (R 28) 1));
  (33%nat, Xo (R 27) (RLo (R 29) 1));
  (34%nat, Xo (R 28) (RLo (R 25) 1));
  (35%nat, Xo (R 35) (R 30));
  (25%nat, R 35);
  (41%nat, Xo (R 41) (R 31));
  (26%nat, RLo (R 41) 44);
  (47%nat, Xo (R 47) (R 32));
  (27%nat, RLo (R 47) 43);
  (53%nat, Xo (R 53) (R 33));
  (28%nat, RLo (R 53) 21);
  (59%nat, Xo (R 59) (R 34));
  (29%nat, RLo (R 59) 14);
  (0%nat, Xo (R 25) (An (No (R 26)) (R 27)));
  (0%nat, Xo (R 0) (K 0x81));
  (1%nat, Xo (R 26) (An (No (R 27)) (R 28)));
  (2%nat, Xo (R 27) (An (No (R 28)) (R 29)));
  (3%nat, Xo (R 28) (An (No (R 29)) (R 25)));
  (4%nat, Xo (R 29) (An (No (R 25)) (R 26)));
  (38%nat, Xo (R 38) (R 33));
  (25%nat, RLo (R 38) 28);
  (44%nat, Xo (R 44) (R 34));
  (26%nat, RLo (R 44) 20);
  (45%nat, Xo (R 45) (R 30));
  (27%nat, RLo (R 45) 3);
  (51%nat, Xo (R 51) (R 31));
  (28%nat, RLo (R 51) 45);
  (57%nat, Xo (R 57) (R 32));
  (29%nat, RLo (R 57) 61);
  (5%nat, Xo (R 25) (An (No (R 26)) (R 27)));
  (6%nat, Xo (R 26) (An (No (R 27)) (R 28)));
  (7%nat, Xo (R 27) (An (No (R 28)) (R 29)));
  (8%nat, Xo (R 28) (An (No (R 29)) (R 25)));
  (9%nat, Xo (R 29) (An (No (R 25)) (R 26)));
  (36%nat, Xo (R 36) (R 31));
  (25%nat, RLo (R 36) 1);
  (42%nat, Xo (R 42) (R 32));
  (26%nat, RLo (R 42) 6);
  (48%nat, Xo (R 48) (R 33));
  (27%nat, RLo (R 48) 25);
  (54%nat, Xo (R 54) (R 34));
  (28%nat, RLo (R 54) 8);
  (55%nat, Xo (R 55) (R 30));
  (29%nat, RLo (R 55) 18);
  (10%nat, Xo (R 25) (An (No (R 26)) (R 27)));
  (11%nat, Xo (R 26) (An (No (R 27)) (R 28)));
  (12%nat, Xo (R 27) (An (No (R 28)) (R 29)));
  (13%nat, Xo (R 28) (An (No (R 29)) (R 25)));
  (14%nat, Xo (R 29) (An (No (R 25)) (R 26)));
  (39%nat, Xo (R 39) (R 34));
  (25%nat, RLo (R 39) 27);
  (40%nat, Xo (R 40) (R 30));
  (26%nat, RLo (R 40) 36);
  (46%nat, Xo (R 46) (R 31));
  (27%nat, RLo (R 46) 10);
  (52%nat, Xo (R 52) (R 32));
  (28%nat, RLo (R 52) 15);
  (58%nat, Xo (R 58) (R 33));
  (29%nat, RLo (R 58) 56);
  (15%nat, Xo (R 25) (An (No (R 26)) (R 27)));
  (16%nat, Xo (R 26) (An (No (R 27)) (R 28)));
  (17%nat, Xo (R 27) (An (No (R 28)) (R 29)));
  (18%nat, Xo (R 28) (An (No (R 29)) (R 25)));
  (19%nat, Xo (R 29) (An (No (R 25)) (R 26)));
  (37%nat, Xo (R 37) (R 32));
  (25%nat, RLo (R 37) 62);
  (43%nat, Xo (R 43) (R 33));
  (26%nat, RLo (R 43) 55);
  (49%nat, Xo (R 49) (R 34));
  (27%nat, RLo (R 49) 39);
  (50%nat, Xo (R 50) (R 30));
  (28%nat, RLo (R 50) 41);
  (56%nat, Xo (R 56) (R 31));
  (29%nat, RLo (R 56) 2);
  (20%nat, Xo (R 25) (An (No (R 26)) (R 27)));
  (21%nat, Xo (R 26) (An (No (R 27)) (R 28)));
  (22%nat, Xo (R 27) (An (No (R 28)) (R 29)));
  (23%nat, Xo (R 28) (An (No (R 29)) (R 25)));
  (24%nat, Xo (R 29) (An (No (R 25)) (R 26)));
  (25%nat, Xo (Xo (Xo (Xo (R 0) (R 5)) (R 10)) (R 15)) (R 20));
  (26%nat, Xo (Xo (Xo (Xo (R 1) (R 6)) (R 11)) (R 16)) (R 21));
  (27%nat, Xo (Xo (Xo (Xo (R 2) (R 7)) (R 12)) (R 17)) (R 22));
  (28%nat, Xo (Xo (Xo (Xo (R 3) (R 8)) (R 13)) (R 18)) (R 23));
  (29%nat, Xo (Xo (Xo (Xo (R 4) (R 9)) (R 14)) (R 19)) (R 24));
  (30%nat, Xo (R 29) (RLo (R 26) 1));
  (31%nat, Xo (R 25) (RLo (R 27) 1));
  (32%nat, Xo (R 26) (RLo (R 28) 1));
  (33%nat, Xo (R 27) (RLo (R 29) 1));
  (34%nat, Xo (R 28) (RLo (R 25) 1));
  (0%nat, Xo (R 0) (R 30));
  (25%nat, R 0);
  (6%nat, Xo (R 6) (R 31));
  (26%nat, RLo (R 6) 44);
  (12%nat, Xo (R 12) (R 32));
  (27%nat, RLo (R 12) 43);
  (18%nat, Xo (R 18) (R 33));
  (28%nat, RLo (R 18) 21);
  (24%nat, Xo (R 24) (R 34));
  (29%nat, RLo (R 24) 14);
  (35%nat, Xo (R 25) (An (No (R 26)) (R 27)));
  (35%nat, Xo (R 35) (K 0x8000000000000082));
  (36%nat, Xo (R 26) (An (No (R 27)) (R 28)));
  (37%nat, Xo (R 27) (An (No (R 28)) (R 29)));
  (38%nat, Xo (R 28) (An (No (R 29)) (R 25)));
  (39%nat, Xo (R 29) (An (No (R 25)) (R 26)));
  (3%nat, Xo (R 3) (R 33));
  (25%nat, RLo (R 3) 28);
  (9%nat, Xo (R 9) (R 34));
  (26%nat, RLo (R 9) 20);
  (10%nat, Xo (R 10) (R 30));
  (27%nat, RLo (R 10) 3);
  (16%nat, Xo (R 16) (R 31));
  (28%nat, RLo (R 16) 45);
  (22%nat, Xo (R 22) (R 32));
  (29%nat, RLo (R 22) 61);
  (40%nat, Xo (R 25) (An (No (R 26)) (R 27)));
  (41%nat, Xo (R 26) (An (No (R 27)) (R 28)));
  (42%nat, Xo (R 27) (An (No (R 28)) (R 29)));
  (43%nat, Xo (R 28) (An (No (R 29)) (R 25)));
  (44%nat, Xo (R 29) (An (No (R 25)) (R 26)));
  (1%nat, Xo (R 1) (R 31));
  (25%nat, RLo (R 1) 1);
  (7%nat, Xo (R 7) (R 32));
  (26%nat, RLo (R 7) 6);
  (13%nat, Xo (R 13) (R 33));
  (27%nat, RLo (R 13) 25);
  (19%nat, Xo (R 19) (R 34));
  (28%nat, RLo (R 19) 8);
  (20%nat, Xo (R 20) (R 30));
  (29%nat, RLo (R 20) 18);
  (45%nat, Xo (R 25) (An (No (R 26)) (R 27)));
  (46%nat, Xo (R 26) (An (No (R 27)) (R 28)));
  (47%nat, Xo (R 27) (An (No (R 28)) (R 29)));
  (48%nat, Xo (R 28) (An (No (R 29)) (R 25)));
  (49%nat, Xo (R 29) (An (No (R 25)) (R 26)));
  (4%nat, Xo (R 4) (R 34));
  (25%nat, RLo (R 4) 27);
  (5%nat, Xo (R 5) (R 30));
  (26%nat, RLo (R 5) 36);
  (11%nat, Xo (R 11) (R 31));
  (27%nat, RLo (R 11) 10);
  (17%nat, Xo (R 17) (R 32));
  (28%nat, RLo (R 17) 15);
  (23%nat, Xo (R 23) (R 33));
  (29%nat, RLo (R 23) 56);
  (50%nat, Xo (R 25) (An (No (R 26)) (R 27)));
  (51%nat, Xo (R 26) (An (No (R 27)) (R 28)));
  (52%nat, Xo (R 27) (An (No (R 28)) (R 29)));
  (53%nat, Xo (R 28) (An (No (R 29)) (R 25)));
  (54%nat, Xo (R 29) (An (No (R 25)) (R 26)));
  (2%nat, Xo (R 2) (R 32));
  (25%nat, RLo (R 2) 62);
  (8%nat, Xo (R 8) (R 33));
  (26%nat, RLo (R 8) 55);
  (14%nat, Xo (R 14) (R 34));
  (27%nat, RLo (R 14) 39);
  (15%nat, Xo (R 15) (R 30));
  (28%nat, RLo (R 15) 41);
  (21%nat, Xo (R 21) (R 31));
  (29%nat, RLo (R 21) 2);
  (55%nat, Xo (R 25) (An (No (R 26)) (R 27)));
  (56%nat, Xo (R 26) (An (No (R 27)) (R 28)));
  (57%nat, Xo (R 27) (An (No (R 28)) (R 29)));
  (58%nat, Xo (R 28) (An (No (R 29)) (R 25)));
  (59%nat, Xo (R 29) (An (No (R 25)) (R 26)));
  (25%nat, Xo (Xo (Xo (Xo (R 35) (R 40)) (R 45)) (R 50)) (R 55));
  (26%nat, Xo (Xo (Xo (Xo (R 36) (R 41)) (R 46)) (R 51)) (R 56));
  (27%nat, Xo (Xo (Xo (Xo (R 37) (R 42)) (R 47)) (R 52)) (R 57));
  (28%nat, Xo (Xo (Xo (Xo (R 38) (R 43)) (R 48)) (R 53)) (R 58));
  (29%nat, Xo (Xo (Xo (Xo (R 39) (R 44)) (R 49)) (R 54)) (R 59));
  (30%nat, Xo (R 29) (RLo (R 26) 1));
  (31%nat, Xo (R 25) (RLo (R 27) 1));
  (32%nat, Xo (R 26) (RLo (R 28) 1));
  (33%nat, Xo (R 27) (RLo (R 29) 1));
  (34%nat, Xo (R 28) (RLo (R 25) 1));
  (35%nat, Xo (R 35) (R 30));
  (25%nat, R 35);
  (41%nat, Xo (R 41) (R 31));
  (26%nat, RLo (R 41) 44);
  (47%nat, Xo (R 47) (R 32));
  (27%nat, RLo (R 47) 43);
  (53%nat, Xo (R 53) (R 33));
  (28%nat, RLo (R 53) 21);
  (59%nat, Xo (R 59) (R 34));
  (29%nat, RLo (R 59) 14);
  (0%nat, Xo (R 25) (An (No (R 26)) (R 27)));
  (0%nat, Xo (R 0) (K 0x8000008B));
  (1%nat, Xo (R 26) (An (No (R 27)) (R 28)));
  (2%nat, Xo (R 27) (An (No (R 28)) (R 29)));
  (3%nat, Xo (R 28) (An (No (R 29)) (R 25)));
  (4%nat, Xo (R 29) (An (No (R 25)) (R 26)));
  (38%nat, Xo (R 38) (R 33));
  (25%nat, RLo (R 38) 28);
  (44%nat, Xo (R 44) (R 34));
  (26%nat, RLo (R 44) 20);
  (45%nat, Xo (R 45) (R 30));
  (27%nat, RLo (R 45) 3);
  (51%nat, Xo (R 51) (R 31));
  (28%nat, RLo (R 51) 45);
  (57%nat, Xo (R 57) (R 32));
  (29%nat, RLo (R 57) 61);
  (5%nat, Xo (R 25) (An (No (R 26)) (R 27)));
  (6%nat, Xo (R 26) (An (No (R 27)) (R 28)));
  (7%nat, Xo (R 27) (An (No (R 28)) (R 29)));
  (8%nat, Xo (R 28) (An (No (R 29)) (R 25)));
  (9%nat, Xo (R 29) (An (No (R 25)) (R 26)));
  (36%nat, Xo (R 36) (R 31));
  (25%nat, RLo (R 36) 1);
  (42%nat, Xo (R 42) (R 32));
  (26%nat, RLo (R 42) 6);
  (48%nat, Xo (R 48) (R 33));
  (27%nat, RLo (R 48) 25);
  (54%nat, Xo (R 54) (R 34));
  (28%nat, RLo (R 54) 8);
  (55%nat, Xo (R 55) (R 30));
  (29%nat, RLo (R 55) 18);
  (10%nat, Xo (R 25) (An (No (R 26)) (R 27)));
  (11%nat, Xo (R 26) (An (No (R 27)) (R 28)));
  (12%nat, Xo (R 27) (An (No (R 28)) (R 29)));
  (13%nat, Xo (R 28) (An (No (R 29)) (R 25)));
  (14%nat, Xo (R 29) (An (No (R 25)) (R 26)));
  (39%nat, Xo (R 39) (R 34));
  (25%nat, RLo (R 39) 27);
  (40%nat, Xo (R 40) (R 30));
  (26%nat, RLo (R 40) 36);
  (46%nat, Xo (R 46) (R 31));
  (27%nat, RLo (R 46) 10);
  (52%nat, Xo (R 52) (R 32));
  (28%nat, RLo (R 52) 15);
  (58%nat, Xo (R 58) (R 33));
  (29%nat, RLo (R 58) 56);
  (15%nat, Xo (R 25) (An (No (R 26)) (R 27)));
  (16%nat, Xo (R 26) (An (No (R 27)) (R 28)));
  (17%nat, Xo (R 27) (An (No (R 28)) (R 29)));
  (18%nat, Xo (R 28) (An (No (R 29)) (R 25)));
  (19%nat, Xo (R 29) (An (No (R 25)) (R 26)));
  (37%nat, Xo (R 37) (R 32));
  (25%nat, RLo (R 37) 62);
  (43%nat, Xo (R 43) (R 33));
  (26%nat, RLo (R 43) 55);
  (49%nat, Xo (R 49) (R 34));
  (27%nat, RLo (R 49) 39);
  (50%nat, Xo (R 50) (R 30));
  (28%nat, RLo (R 50) 41);
  (56%nat, Xo (R 56) (R 31));
  (29%nat, RLo (R 56) 2);
  (20%nat, Xo (R 25) (An (No (R 26)) (R 27)));
  (21%nat, Xo (R 26) (An (No (R 27)) (R 28)));
  (22%nat, Xo (R 27) (An (No (R 28)) (R 29)));
  (23%nat, Xo (R 28) (An (No (R 29)) (R 25)));
  (24%nat, Xo (R 29) (An (No (R 25)) (R 26)));
  (25%nat, Xo (Xo (Xo (Xo (R 0) (R 5)) (R 10)) (R 15)) (R 20));
  (26%nat, Xo (Xo (Xo (Xo (R 1) (R 6)) (R 11)) (R 16)) (R 21));
  (27%nat, Xo (Xo (Xo (Xo (R 2) (R 7)) (R 12)) (R 17)) (R 22));
  (28%nat, Xo (Xo (Xo (Xo (R 3) (R 8)) (R 13)) (R 18)) (R 23));
  (29%nat, Xo (Xo (Xo (Xo (R 4) (R 9)) (R 14)) (R 19)) (R 24));
  (30%nat, Xo (R 29) (RLo (R 26) 1));
  (31%nat, Xo (R 25) (RLo (R 27) 1));
  (32%nat, Xo (R 26) (RLo (R 28) 1));
  (33%nat, Xo (R 27) (RLo (R 29) 1));
  (34%nat, Xo (R 28) (RLo (R 25) 1));
  (0%nat, Xo (R 0) (R 30));
  (25%nat, R 0);
  (6%nat, Xo (R 6) (R 31));
  (26%nat, RLo (R 6) 44);
  (12%nat, Xo (R 12) (R 32));
  (27%nat, RLo (R 12) 43);
  (18%nat, Xo (R 18) (R 33));
  (28%nat, RLo (R 18) 21);
  (24%nat, Xo (R 24) (R 34));
  (29%nat, RLo (R 24) 14);
  (35%nat, Xo (R 25) (An (No (R 26)) (R 27)));
  (35%nat, Xo (R 35) (K 0x8000000080008009));
  (36%nat, Xo (R 26) (An (No (R 27)) (R 28)));
  (37%nat, Xo (R 27) (An (No (R 28)) (R 29)));
  (38%nat, Xo (R 28) (An (No (R 29)) (R 25)));
  (39%nat, Xo (R 29) (An (No (R 25)) (R 26)));
  (3%nat, Xo (R 3) (R 33));
  (25%nat, RLo (R 3) 28);
  (9%nat, Xo (R 9) (R 34));
  (26%nat, RLo (R 9) 20);
  (10%nat, Xo (R 10) (R 30));
  (27%nat, RLo (R 10) 3);
  (16%nat, Xo (R 16) (R 31));
  (28%nat, RLo (R 16) 45);
  (22%nat, Xo (R 22) (R 32));
  (29%nat, RLo (R 22) 61);
  (40%nat, Xo (R 25) (An (No (R 26)) (R 27)));
  (41%nat, Xo (R 26) (An (No (R 27)) (R 28)));
  (42%nat, Xo (R 27) (An (No (R 28)) (R 29)));
  (43%nat, Xo (R 28) (An (No (R 29)) (R 25)));
  (44%nat, Xo (R 29) (An (No (R 25)) (R 26)));
  (1%nat, Xo (R 1) (R 31));
  (25%nat, RLo (R 1) 1);
  (7%nat, Xo (R 7) (R 32));
  (26%nat, RLo (R 7) 6);
  (13%nat, Xo (R 13) (R 33));
  (27%nat, RLo (R 13) 25);
  (19%nat, Xo (R 19) (R 34));
  (28%nat, RLo (R 19) 8);
  (20%nat, Xo (R 20) (R 30));
  (29%nat, RLo (R 20) 18);
  (45%nat, Xo (R 25) (An (No (R 26)) (R 27)));
  (46%nat, Xo (R 26) (An (No (R 27)) (R 28)));
  (47%nat, Xo (R 27) (An (No (R 28)) (R 29)));
  (48%nat, Xo (R 28) (An (No (R 29)) (R 25)));
  (49%nat, Xo (R 29) (An (No (R 25)) (R 26)));
  (4%nat, Xo (R 4) (R 34));
  (25%nat, RLo (R 4) 27);
  (5%nat, Xo (R 5) (R 30));
  (26%nat, RLo (R 5) 36);
  (11%nat, Xo (R 11) (R 31));
  (27%nat, RLo (R 11) 10);
  (17%nat, Xo (R 17) (R 32));
  (28%nat, RLo (R 17) 15);
  (23%nat, Xo (R 23) (R 33));
  (29%nat, RLo (R 23) 56);
  (50%nat, Xo (R 25) (An (No (R 26)) (R 27)));
  (51%nat, Xo (R 26) (An (No (R 27)) (R 28)));
  (52%nat, Xo (R 27) (An (No (R 28)) (R 29)));
  (53%nat, Xo (R 28) (An (No (R 29)) (R 25)));
  (54%nat, Xo (R 29) (An (No (R 25)) (R 26)));
  (2%nat, Xo (R 2) (R 32));
  (25%nat, RLo (R 2) 62);
  (8%nat, Xo (R 8) (R 33));
  (26%nat, RLo (R 8) 55);
  (14%nat, Xo (R 14) (R 34));
  (27%nat, RLo (R 14) 39);
  (15%nat, Xo (R 15) (R 30));
  (28%nat, RLo (R 15) 41);
  (21%nat, Xo (R 21) (R 31));
  (29%nat, RLo (R 21) 2);
  (55%nat, Xo (R 25) (An (No (R 26)) (R 27)));
  (56%nat, Xo (R 26) (An (No (R 27)) (R 28)));
  (57%nat, Xo (R 27) (An (No (R 28)) (R 29)));
  (58%nat, Xo (R 28) (An (No (R 29)) (R 25)));
  (59%nat, Xo (R 29) (An (No (R 25)) (R 26)));
  (25%nat, Xo (Xo (Xo (Xo (R 35) (R 40)) (R 45)) (R 50)) (R 55));
  (26%nat, Xo (Xo (Xo (Xo (R 36) (R 41)) (R 46)) (R 51)) (R 56));
  (27%nat, Xo (Xo (Xo (Xo (R 37) (R 42)) (R 47)) (R 52)) (R 57));
  (28%nat, Xo (Xo (Xo (Xo (R 38) (R 43)) (R 48)) (R 53)) (R 58));
  (29%nat, Xo (Xo (Xo (Xo (R 39) (R 44)) (R 49)) (R 54)) (R 59));
  (30%nat, Xo (R 29) (RLo (R 26) 1));
  (31%nat, Xo (R 25) (RLo (R 27) 1));
  (32%nat, Xo (R 26) (RLo (R 28) 1));
  (33%nat, Xo (R 27) (RLo (R 29) 1));
  (34%nat, Xo (R 28) (RLo (R 25) 1));
  (35%nat, Xo (R 35) (R 30));
  (25%nat, R 35);
  (41%nat, Xo (R 41) (R 31));
  (26%nat, RLo (R 41) 44);
  (47%nat, Xo (R 47) (R 32));
  (27%nat, RLo (R 47) 43);
  (53%nat, Xo (R 53) (R 33));
  (28%nat, RLo (R 53) 21);
  (59%nat, Xo (R 59) (R 34));
  (29%nat, RLo (R 59) 14);
  (0%nat, Xo (R 25) (An (No (R 26)) (R 27)));
  (0%nat, Xo (R 0) (K 0x8000000080000000));
  (1%nat, Xo (R 26) (An (No (R 27)) (R 28)));
  (2%nat, Xo (R 27) (An (No (R 28)) (R 29)));
  (3%nat, Xo (R 28) (An (No (R 29)) (R 25)));
  (4%nat, Xo (R 29) (An (No (R 25)) (R 26)));
  (38%nat, Xo (R 38) (R 33));
  (25%nat, RLo (R 38) 28);
  (44%nat, Xo (R 44) (R 34));
  (26%nat, RLo (R 44) 20);
  (45%nat, Xo (R 45) (R 30));
  (27%nat, RLo (R 45) 3);
  (51%nat, Xo (R 51) (R 31));
  (28%nat, RLo (R 51) 45);
  (57%nat, Xo (R 57) (R 32));
  (29%nat, RLo (R 57) 61);
  (5%nat, Xo (R 25) (An (No (R 26)) (R 27)));
  (6%nat, Xo (R 26) (An (No (R 27)) (R 28)));
  (7%nat, Xo (R 27) (An (No (R 28)) (R 29)));
  (8%nat, Xo (R 28) (An (No (R 29)) (R 25)));
  (9%nat, Xo (R 29) (An (No (R 25)) (R 26)));
  (36%nat, Xo (R 36) (R 31));
  (25%nat, RLo (R 36) 1);
  (42%nat, Xo (R 42) (R 32));
  (26%nat, RLo (R 42) 6);
  (48%nat, Xo (R 48) (R 33));
  (27%nat, RLo (R 48) 25);
  (54%nat, Xo (R 54) (R 34));
  (28%nat, RLo (R 54) 8);
  (55%nat, Xo (R 55) (R 30));
  (29%nat, RLo (R 55) 18);
  (10%nat, Xo (R 25) (An (No (R 26)) (R 27)));
  (11%nat, Xo (R 26) (An (No (R 27)) (R 28)));
  (12%nat, Xo (R 27) (An (No (R 28)) (R 29)));
  (13%nat, Xo (R 28) (An (No (R 29)) (R 25)));
  (14%nat, Xo (R 29) (An (No (R 25)) (R 26)));
  (39%nat, Xo (R 39) (R 34));
  (25%nat, RLo (R 39) 27);
  (40%nat, Xo (R 40) (R 30));
  (26%nat, RLo (R 40) 36);
  (46%nat, Xo (R 46) (R 31));
  (27%nat, RLo (R 46) 10);
  (52%nat, Xo (R 52) (R 32));
  (28%nat, RLo (R 52) 15);
  (58%nat, Xo (R 58) (R 33));
  (29%nat, RLo (R 58) 56);
  (15%nat, Xo (R 25) (An (No (R 26)) (R 27)));
  (16%nat, Xo (R 26) (An (No (R 27)) (R 28)));
  (17%nat, Xo (R 27) (An (No (R 28)) (R 29)));
  (18%nat, Xo (R 28) (An (No (R 29)) (R 25)));
  (19%nat, Xo (R 29) (An (No (R 25)) (R 26)));
  (37%nat, Xo (R 37) (R 32));
  (25%nat, RLo (R 37) 62);
  (43%nat, Xo (R 43) (R 33));
  (26%nat, RLo (R 43) 55);
  (49%nat, Xo (R 49) (R 34));
  (27%nat, RLo (R 49) 39);
  (50%nat, Xo (R 50) (R 30));
  (28%nat, RLo (R 50) 41);
  (56%nat, Xo (R 56) (R 31));
  (29%nat, RLo (R 56) 2);
  (20%nat, Xo (R 25) (An (No (R 26)) (R 27)));
  (21%nat, Xo (R 26) (An (No (R 27)) (R 28)));
  (22%nat, Xo (R 27) (An (No (R 28)) (R 29)));
  (23%nat, Xo (R 28) (An (No (R 29)) (R 25)));
  (24%nat, Xo (R 29) (An (No (R 25)) (R 26)));
  (25%nat, Xo (Xo (Xo (Xo (R 0) (R 5)) (R 10)) (R 15)) (R 20));
  (26%nat, Xo (Xo (Xo (Xo (R 1) (R 6)) (R 11)) (R 16)) (R 21));
  (27%nat, Xo (Xo (Xo (Xo (R 2) (R 7)) (R 12)) (R 17)) (R 22));
  (28%nat, Xo (Xo (Xo (Xo (R 3) (R 8)) (R 13)) (R 18)) (R 23));
  (29%nat, Xo (Xo (Xo (Xo (R 4) (R 9)) (R 14)) (R 19)) (R 24));
  (30%nat, Xo (R 29) (RLo (R 26) 1));
  (31%nat, Xo (R 25) (RLo (R 27) 1));
  (32%nat, Xo (R 26) (RLo (R 28) 1));
  (33%nat, Xo (R 27) (RLo (R 29) 1));
  (34%nat, Xo (R 28) (RLo (R 25) 1));
  (0%nat, Xo (R 0) (R 30));
  (25%nat, R 0);
  (6%nat, Xo (R 6) (R 31));
  (26%nat, RLo (R 6) 44);
  (12%nat, Xo (R 12) (R 32));
  (27%nat, RLo (R 12) 43);
  (18%nat, Xo (R 18) (R 33));
  (28%nat, RLo (R 18) 21);
  (24%nat, Xo (R 24) (R 34));
  (29%nat, RLo (R 24) 14);
  (35%nat, Xo (R 25) (An (No (R 26)) (R 27)));
  (35%nat, Xo (R 35) (K 0x80000080));
  (36%nat, Xo (R 26) (An (No (R 27)) (R 28)));
  (37%nat, Xo (R 27) (An (No (R 28)) (R 29)));
  (38%nat, Xo (R 28) (An (No (R 29)) (R 25)));
  (39%nat, Xo (R 29) (An (No (R 25)) (R 26)));
  (3%nat, Xo (R 3) (R 33));
  (25%nat, RLo (R 3) 28);
  (9%nat, Xo (R 9) (R 34));
  (26%nat, RLo (R 9) 20);
  (10%nat, Xo (R 10) (R 30));
  (27%nat, RLo (R 10) 3);
  (16%nat, Xo (R 16) (R 31));
  (28%nat, RLo (R 16) 45);
  (22%nat, Xo (R 22) (R 32));
  (29%nat, RLo (R 22) 61);
  (40%nat, Xo (R 25) (An (No (R 26)) (R 27)));
  (41%nat, Xo (R 26) (An (No (R 27)) (R 28)));
  (42%nat, Xo (R 27) (An (No (R 28)) (R 29)));
  (43%nat, Xo (R 28) (An (No (R 29)) (R 25)));
  (44%nat, Xo (R 29) (An (No (R 25)) (R 26)));
  (1%nat, Xo (R 1) (R 31));
  (25%nat, RLo (R 1) 1);
  (7%nat, Xo (R 7) (R 32));
  (26%nat, RLo (R 7) 6);
  (13%nat, Xo (R 13) (R 33));
  (27%nat, RLo (R 13) 25);
  (19%nat, Xo (R 19) (R 34));
  (28%nat, RLo (R 19) 8);
  (20%nat, Xo (R 20) (R 30));
  (29%nat, RLo (R 20) 18);
  (45%nat, Xo (R 25) (An (No (R 26)) (R 27)));
  (46%nat, Xo (R 26) (An (No (R 27)) (R 28)));
  (47%nat, Xo (R 27) (An (No (R 28)) (R 29)));
  (48%nat, Xo (R 28) (An (No (R 29)) (R 25)));
  (49%nat, Xo (R 29) (An (No (R 25)) (R 26)));
  (4%nat, Xo (R 4) (R 34));
  (25%nat, RLo (R 4) 27);
  (5%nat, Xo (R 5) (R 30));
  (26%nat, RLo (R 5) 36);
  (11%nat, Xo (R 11) (R 31));
  (27%nat, RLo (R 11) 10);
  (17%nat, Xo (R 17) (R 32));
  (28%nat, RLo (R 17) 15);
  (23%nat, Xo (R 23) (R 33));
  (29%nat, RLo (R 23) 56);
  (50%nat, Xo (R 25) (An (No (R 26)) (R 27)));
  (51%nat, Xo (R 26) (An (No (R 27)) (R 28)));
  (52%nat, Xo (R 27) (An (No (R 28)) (R 29)));
  (53%nat, Xo (R 28) (An (No (R 29)) (R 25)));
  (54%nat, Xo (R 29) (An (No (R 25)) (R 26)));
  (2%nat, Xo (R 2) (R 32));
  (25%nat, RLo (R 2) 62);
  (8%nat, Xo (R 8) (R 33));
  (26%nat, RLo (R 8) 55);
  (14%nat, Xo (R 14) (R 34));
  (27%nat, RLo (R 14) 39);
  (15%nat, Xo (R 15) (R 30));
  (28%nat, RLo (R 15) 41);
  (21%nat, Xo (R 21) (R 31));
  (29%nat, RLo (R 21) 2);
  (55%nat, Xo (R 25) (An (No (R 26)) (R 27)));
  (56%nat, Xo (R 26) (An (No (R 27)) (R 28)));
  (57%nat, Xo (R 27) (An (No (R 28)) (R 29)));
  (58%nat, Xo (R 28) (An (No (R 29)) (R 25)));
  (59%nat, Xo (R 29) (An (No (R 25)) (R 26)));
  (25%nat, Xo (Xo (Xo (Xo (R 35) (R 40)) (R 45)) (R 50)) (R 55));
  (26%nat, Xo (Xo (Xo (Xo (R 36) (R 41)) (R 46)) (R 51)) (R 56));
  (27%nat, Xo (Xo (Xo (Xo (R 37) (R 42)) (R 47)) (R 52)) (R 57));
  (28%nat, Xo (Xo (Xo (Xo (R 38) (R 43)) (R 48)) (R 53)) (R 58));
  (29%nat, Xo (Xo (Xo (Xo (R 39) (R 44)) (R 49)) (R 54)) (R 59));
  (30%nat, Xo (R 29) (RLo (R 26) 1));
  (31%nat, Xo (R 25) (RLo (R 27) 1));
  (32%nat, Xo (R 26) (RLo (R 28) 1));
  (33%nat, Xo (R 27) (RLo (R 29) 1));
  (34%nat, Xo (R 28) (RLo (R 25) 1));
  (35%nat, Xo (R 35) (R 30));
  (25%nat, R 35);
  (41%nat, Xo (R 41) (R 31));
  (26%nat, RLo (R 41) 44);
  (47%nat, Xo (R 47) (R 32));
  (27%nat, RLo (R 47) 43);
  (53%nat, Xo (R 53) (R 33));
  (28%nat, RLo (R 53) 21);
  (59%nat, Xo (R 59) (R 34));
  (29%nat, RLo (R 59) 14);
  (0%nat, Xo (R 25) (An (No (R 26)) (R 27)));
  (0%nat, Xo (R 0) (K 0x80008003));
  (1%nat, Xo (R 26) (An (No (R 27)) (R 28)));
  (2%nat, Xo (R 27) (An (No (R 28)) (R 29)));
  (3%nat, Xo (R 28) (An (No (R 29)) (R 25)));
  (4%nat, Xo (R 29) (An (No (R 25)) (R 26)));
  (38%nat, Xo (R 38) (R 33));
  (25%nat, RLo (R 38) 28);
  (44%nat, Xo (R 44) (R 34));
  (26%nat, RLo (R 44) 20);
  (45%nat, Xo (R 45) (R 30));
  (27%nat, RLo (R 45) 3);
  (51%nat, Xo (R 51) (R 31));
  (28%nat, RLo (R 51) 45);
  (57%nat, Xo (R 57) (R 32));
  (29%nat, RLo (R 57) 61);
  (5%nat, Xo (R 25) (An (No (R 26)) (R 27)));
  (6%nat, Xo (R 26) (An (No (R 27)) (R 28)));
  (7%nat, Xo (R 27) (An (No (R 28)) (R 29)));
  (8%nat, Xo (R 28) (An (No (R 29)) (R 25)));
  (9%nat, Xo (R 29) (An (No (R 25)) (R 26)));
  (36%nat, Xo (R 36) (R 31));
  (25%nat, RLo (R 36) 1);
  (42%nat, Xo (R 42) (R 32));
  (26%nat, RLo (R 42) 6);
  (48%nat, Xo (R 48) (R 33));
  (27%nat, RLo (R 48) 25);
  (54%nat, Xo (R 54) (R 34));
  (28%nat, RLo (R 54) 8);
  (55%nat, Xo (R 55) (R 30));
  (29%nat, RLo (R 55) 18);
  (10%nat, Xo (R 25) (An (No (R 26)) (R 27)));
  (11%nat, Xo (R 26) (An (No (R 27)) (R 28)));
  (12%nat, Xo (R 27) (An (No (R 28)) (R 29)));
  (13%nat, Xo (R 28) (An (No (R 29)) (R 25)));
  (14%nat, Xo (R 29) (An (No (R 25)) (R 26)));
  (39%nat, Xo (R 39) (R 34));
  (25%nat, RLo (R 39) 27);
  (40%nat, Xo (R 40) (R 30));
  (26%nat, RLo (R 40) 36);
  (46%nat, Xo (R 46) (R 31));
  (27%nat, RLo (R 46) 10);
  (52%nat, Xo (R 52) (R 32));
  (28%nat, RLo (R 52) 15);
  (58%nat, Xo (R 58) (R 33));
  (29%nat, RLo (R 58) 56);
  (15%nat, Xo (R 25) (An (No (R 26)) (R 27)));
  (16%nat, Xo (R 26) (An (No (R 27)) (R 28)));
  (17%nat, Xo (R 27) (An (No (R 28)) (R 29)));
  (18%nat, Xo (R 28) (An (No (R 29)) (R 25)));
  (19%nat, Xo (R 29) (An (No (R 25)) (R 26)));
  (37%nat, Xo (R 37) (R 32));
  (25%nat, RLo (R 37) 62);
  (43%nat, Xo (R 43) (R 33));
  (26%nat, RLo (R 43) 55);
  (49%nat, Xo (R 49) (R 34));
  (27%nat, RLo (R 49) 39);
  (50%nat, Xo (R 50) (R 30));
  (28%nat, RLo (R 50) 41);
  (56%nat, Xo (R 56) (R 31));
  (29%nat, RLo (R 56) 2);
  (20%nat, Xo (R 25) (An (No (R 26)) (R 27)));
  (21%nat, Xo (R 26) (An (No (R 27)) (R 28)));
  (22%nat, Xo (R 27) (An (No (R 28)) (R 29)));
  (23%nat, Xo (R 28) (An (No (R 29)) (R 25)));
  (24%nat, Xo (R 29) (An (No (R 25)) (R 26)));
  (60%nat, R 0);
  (61%nat, R 1);
  (62%nat, R 2);
  (63%nat, R 3);
  (64%nat, R 4);
  (65%nat, R 5);
  (66%nat, R 6);
  (67%nat, R 7);
  (68%nat, R 8);
  (69%nat, R 9);
  (70%nat, R 10);
  (71%nat, R 11);
  (72%nat, R 12);
  (73%nat, R 13);
  (74%nat, R 14);
  (75%nat, R 15);
  (76%nat, R 16);
  (77%nat, R 17);
  (78%nat, R 18);
  (79%nat, R 19);
  (80%nat, R 20);
  (81%nat, R 21);
  (82%nat, R 22);
  (83%nat, R 23);
  (84%nat, R 24)
].

(** CEX/Keccak.h:662-835, body of the loop of Keccak::Permute: generated by tools/straight.py, one entry per statement.
    Registers: 0=A[0], 1=A[1], 2=A[2], 3=A[3], 4=A[4], 5=A[5], 6=A[6], 7=A[7], 8=A[8], 9=A[9], 10=A[10], 11=A[11], 12=A[12], 13=A[13], 14=A[14], 15=A[15], 16=A[16], 17=A[17], 18=A[18], 19=A[19], 20=A[20], 21=A[21], 22=A[22], 23=A[23], 24=A[24], 25=C[0], 26=C[1], 27=C[2], 28=C[3], 29=C[4], 30=D[0], 31=D[1], 32=D[2], 33=D[3], 34=D[4], 35=E[0], 36=E[1], 37=E[2], 38=E[3], 39=E[4], 40=E[5], 41=E[6], 42=E[7], 43=E[8], 44=E[9], 45=E[10], 46=E[11], 47=E[12], 48=E[13], 49=E[14], 50=E[15], 51=E[16], 52=E[17], 53=E[18], 54=E[19], 55=E[20], 56=E[21], 57=E[22], 58=E[23], 59=E[24], 60=RC48_i, 61=RC48_i1.
    RC48_i and RC48_i1 stand for KECCAK_RC48[i] and KECCAK_RC48[i + 1] *)
Definition keccak_C : prog := [
  (25%nat, Xo (Xo (Xo (Xo (R 0) (R 5)) (R 10)) (R 15)) (R 20));
  (26%nat, Xo (Xo (Xo (Xo (R 1) (R 6)) (R 11)) (R 16)) (R 21));
  (27%nat, Xo (Xo (Xo (Xo (R 2) (R 7)) (R 12)) (R 17)) (R 22));
  (28%nat, Xo (Xo (Xo (Xo (R 3) (R 8)) (R 13)) (R 18)) (R 23));
  (29%nat, Xo (Xo (Xo (Xo (R 4) (R 9)) (R 14)) (R 19)) (R 24));
  (30%nat, Xo (R 29) (RLo (R 26) 1));
  (31%nat, Xo (R 25) (RLo (R 27) 1));
  (32%nat, Xo (R 26) (RLo (R 28) 1));
  (33%nat, Xo (R 27) (RLo (R 29) 1));
  (34%nat, Xo (R 28) (RLo (R 25) 1));
  (0%nat, Xo (R 0) (R 30));
  (25%nat, R 0);
  (6%nat, Xo (R 6) (R 31));
  (26%nat, RLo (R 6) 44);
  (12%nat, Xo (R 12) (R 32));
  (27%nat, RLo (R 12) 43);
  (18%nat, Xo (R 18) (R 33));
  (28%nat, RLo (R 18) 21);
  (24%nat, Xo (R 24) (R 34));
  (29%nat, RLo (R 24) 14);
  (35%nat, Xo (R 25) (An (No (R 26)) (R 27)));
  (35%nat, Xo (R 35) (R 60));
  (36%nat, Xo (R 26) (An (No (R 27)) (R 28)));
  (37%nat, Xo (R 27) (An (No (R 28)) (R 29)));
  (38%nat, Xo (R 28) (An (No (R 29)) (R 25)));
  (39%nat, Xo (R 29) (An (No (R 25)) (R 26)));
  (3%nat, Xo (R 3) (R 33));
  (25%nat, RLo (R 3) 28);
  (9%nat, Xo (R 9) (R 34));
  (26%nat, RLo (R 9) 20);
  (10%nat, Xo (R 10) (R 30));
  (27%nat, RLo (R 10) 3);
  (16%nat, Xo (R 16) (R 31));
  (28%nat, RLo (R 16) 45);
  (22%nat, Xo (R 22) (R 32));
  (29%nat, RLo (R 22) 61);
  (40%nat, Xo (R 25) (An (No (R 26)) (R 27)));
  (41%nat, Xo (R 26) (An (No (R 27)) (R 28)));
  (42%nat, Xo (R 27) (An (No (R 28)) (R 29)));
  (43%nat, Xo (R 28) (An (No (R 29)) (R 25)));
  (44%nat, Xo (R 29) (An (No (R 25)) (R 26)));
  (1%nat, Xo (R 1) (R 31));
  (25%nat, RLo (R 1) 1);
  (7%nat, Xo (R 7) (R 32));
  (26%nat, RLo (R 7) 6);
  (13%nat, Xo (R 13) (R 33));
  (27%nat, RLo (R 13) 25);
  (19%nat, Xo (R 19) (R 34));
  (28%nat, RLo (R 19) 8);
  (20%nat, Xo (R 20) (R 30));
  (29%nat, RLo (R 20) 18);
  (45%nat, Xo (R 25) (An (No (R 26)) (R 27)));
  (46%nat, Xo (R 26) (An (No (R 27)) (R 28)));
  (47%nat, Xo (R 27) (An (No (R 28)) (R 29)));
  (48%nat, Xo (R 28) (An (No (R 29)) (R 25)));
  (49%nat, Xo (R 29) (An (No (R 25)) (R 26)));
  (4%nat, Xo (R 4) (R 34));
  (25%nat, RLo (R 4) 27);
  (5%nat, Xo (R 5) (R 30));
  (26%nat, RLo (R 5) 36);
  (11%nat, Xo (R 11) (R 31));
  (27%nat, RLo (R 11) 10);
  (17%nat, Xo (R 17) (R 32));
  (28%nat, RLo (R 17) 15);
  (23%nat, Xo (R 23) (R 33));
  (29%nat, RLo (R 23) 56);
  (50%nat, Xo (R 25) (An (No (R 26)) (R 27)));
  (51%nat, Xo (R 26) (An (No (R 27)) (R 28)));
  (52%nat, Xo (R 27) (An (No (R 28)) (R 29)));
  (53%nat, Xo (R 28) (An (No (R 29)) (R 25)));
  (54%nat, Xo (R 29) (An (No (R 25)) (R 26)));
  (2%nat, Xo (R 2) (R 32));
  (25%nat, RLo (R 2) 62);
  (8%nat, Xo (R 8) (R 33));
  (26%nat, RLo (R 8) 55);
  (14%nat, Xo (R 14) (R 34));
  (27%nat, RLo (R 14) 39);
  (15%nat, Xo (R 15) (R 30));
  (28%nat, RLo (R 15) 41);
  (21%nat, Xo (R 21) (R 31));
  (29%nat, RLo (R 21) 2);
  (55%nat, Xo (R 25) (An (No (R 26)) (R 27)));
  (56%nat, Xo (R 26) (An (No (R 27)) (R 28)));
  (57%nat, Xo (R 27) (An (No (R 28)) (R 29)));
  (58%nat, Xo (R 28) (An (No (R 29)) (R 25)));
  (59%nat, Xo (R 29) (An (No (R 25)) (R 26)));
  (25%nat, Xo (Xo (Xo (Xo (R 35) (R 40)) (R 45)) (R 50)) (R 55));
  (26%nat, Xo (Xo (Xo (Xo (R 36) (R 41)) (R 46)) (R 51)) (R 56));
  (27%nat, Xo (Xo (Xo (Xo (R 37) (R 42)) (R 47)) (R 52)) (R 57));
  (28%nat, Xo (Xo (Xo (Xo (R 38) (R 43)) (R 48)) (R 53)) (R 58));
  (29%nat, Xo (Xo (Xo (Xo (R 39) (R 44)) (R 49)) (R 54)) (R 59));
  (30%nat, Xo (R 29) (RLo (R 26) 1));
  (31%nat, Xo (R 25) (RLo (R 27) 1));
  (32%nat, Xo (R 26) (RLo (R 28) 1));
  (33%nat, Xo (R 27) (RLo (R 29) 1));
  (34%nat, Xo (R 28) (RLo (R 25) 1));
  (35%nat, Xo (R 35) (R 30));
  (25%nat, R 35);
  (41%nat, Xo (R 41) (R 31));
  (26%nat, RLo (R 41) 44);
  (47%nat, Xo (R 47) (R 32));
  (27%nat, RLo (R 47) 43);
  (53%nat, Xo (R 53) (R 33));
  (28%nat, RLo (R 53) 21);
  (59%nat, Xo (R 59) (R 34));
  (29%nat, RLo (R 59) 14);
  (0%nat, Xo (R 25) (An (No (R 26)) (R 27)));
  (0%nat, Xo (R 0) (R 61));
  (1%nat, Xo (R 26) (An (No (R 27)) (R 28)));
  (2%nat, Xo (R 27) (An (No (R 28)) (R 29)));
  (3%nat, Xo (R 28) (An (No (R 29)) (R 25)));
  (4%nat, Xo (R 29) (An (No (R 25)) (R 26)));
  (38%nat, Xo (R 38) (R 33));
  (25%nat, RLo (R 38) 28);
  (44%nat, Xo (R 44) (R 34));
  (26%nat, RLo (R 44) 20);
  (45%nat, Xo (R 45) (R 30));
  (27%nat, RLo (R 45) 3);
  (51%nat, Xo (R 51) (R 31));
  (28%nat, RLo (R 51) 45);
  (57%nat, Xo (R 57) (R 32));
  (29%nat, RLo (R 57) 61);
  (5%nat, Xo (R 25) (An (No (R 26)) (R 27)));
  (6%nat, Xo (R 26) (An (No (R 27)) (R 28)));
  (7%nat, Xo (R 27) (An (No (R 28)) (R 29)));
  (8%nat, Xo (R 28) (An (No (R 29)) (R 25)));
  (9%nat, Xo (R 29) (An (No (R 25)) (R 26)));
  (36%nat, Xo (R 36) (R 31));
  (25%nat, RLo (R 36) 1);
  (42%nat, Xo (R 42) (R 32));
  (26%nat, RLo (R 42) 6);
  (48%nat, Xo (R 48) (R 33));
  (27%nat, RLo (R 48) 25);
  (54%nat, Xo (R 54) (R 34));
  (28%nat, RLo (R 54) 8);
  (55%nat, Xo (R 55) (R 30));
  (29%nat, RLo (R 55) 18);
  (10%nat, Xo (R 25) (An (No (R 26)) (R 27)));
  (11%nat, Xo (R 26) (An (No (R 27)) (R 28)));
  (12%nat, Xo (R 27) (An (No (R 28)) (R 29)));
  (13%nat, Xo (R 28) (An (No (R 29)) (R 25)));
  (14%nat, Xo (R 29) (An (No (R 25)) (R 26)));
  (39%nat, Xo (R 39) (R 34));
  (25%nat, RLo (R 39) 27);
  (40%nat, Xo (R 40) (R 30));
  (26%nat, RLo (R 40) 36);
  (46%nat, Xo (R 46) (R 31));
  (27%nat, RLo (R 46) 10);
  (52%nat, Xo (R 52) (R 32));
  (28%nat, RLo (R 52) 15);
  (58%nat, Xo (R 58) (R 33));
  (29%nat, RLo (R 58) 56);
  (15%nat, Xo (R 25) (An (No (R 26)) (R 27)));
  (16%nat, Xo (R 26) (An (No (R 27)) (R 28)));
  (17%nat, Xo (R 27) (An (No (R 28)) (R 29)));
  (18%nat, Xo (R 28) (An (No (R 29)) (R 25)));
  (19%nat, Xo (R 29) (An (No (R 25)) (R 26)));
  (37%nat, Xo (R 37) (R 32));
  (25%nat, RLo (R 37) 62);
  (43%nat, Xo (R 43) (R 33));
  (26%nat, RLo (R 43) 55);
  (49%nat, Xo (R 49) (R 34));
  (27%nat, RLo (R 49) 39);
  (50%nat, Xo (R 50) (R 30));
  (28%nat, RLo (R 50) 41);
  (56%nat, Xo (R 56) (R 31));
  (29%nat, RLo (R 56) 2);
  (20%nat, Xo (R 25) (An (No (R 26)) (R 27)));
  (21%nat, Xo (R 26) (An (No (R 27)) (R 28)));
  (22%nat, Xo (R 27) (An (No (R 28)) (R 29)));
  (23%nat, Xo (R 28) (An (No (R 29)) (R 25)));
  (24%nat, Xo (R 29) (An (No (R 25)) (R 26)))
].

(** CEX/Keccak.cpp:17-31 *)
Definition KECCAK_RC48 : list Z := [
  0x0000000000000001; 0x0000000000008082; 0x800000000000808A; 0x8000000080008000;
  0x000000000000808B; 0x0000000080000001; 0x8000000080008081; 0x8000000000008009;
  0x000000000000008A; 0x0000000000000088; 0x0000000080008009; 0x000000008000000A;
  0x000000008000808B; 0x800000000000008B; 0x8000000000008089; 0x8000000000008003;
  0x8000000000008002; 0x8000000000000080; 0x000000000000800A; 0x800000008000000A;
  0x8000000080008081; 0x8000000000008080; 0x0000000080000001; 0x8000000080008008;
  0x8000000080008082; 0x800000008000800A; 0x8000000000000003; 0x8000000080000009;
  0x8000000000008082; 0x0000000000008009; 0x8000000000000080; 0x0000000000008083;
  0x8000000000000081; 0x0000000000000001; 0x000000000000800B; 0x8000000080008001;
  0x0000000000000080; 0x8000000000008000; 0x8000000080008001; 0x0000000000000009;
  0x800000008000808B; 0x0000000000000081; 0x8000000000000082; 0x000000008000008B;
  0x8000000080008009; 0x8000000080000000; 0x0000000080000080; 0x0000000080008003
].