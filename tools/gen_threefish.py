#!/usr/bin/env python3
"""Generates rocq/theories/Model_ThreefishGen.v from /repo/CEX/Threefish.h and /repo/CEX/Skein.h."""
import os, sys
sys.path.insert(0, os.path.dirname(__file__))
from straight import *
out = ["""(** The unrolled Threefish permutations as statement lists (see Model_Straight.v).
    GENERATED by tools/gen_threefish.py from CEX/Threefish.h and CEX/Skein.h; do not edit. *)
From Verif Require Import Base Model_Straight.
Open Scope Z_scope.
"""]
def arr(a, n): return ["%s[%d]" % (a, i) for i in range(n)]
for f, name, d, v, n in (("Threefish.h", "PemuteR72P256U", "tsx256_U", "C", 4), ("Threefish.h", "PemuteR96P512U", "tsx512_U", "C", 8),
                         ("Threefish.h", "PemuteR120P1024U", "tsx1024_U", "C", 16),
                         ("Skein.h", "PemuteR72P256U", "skein256_U", "B", 4), ("Skein.h", "PemuteR72P512U", "skein512_U", "B", 8),
                         ("Skein.h", "PemuteR80P1024U", "skein1024_U", "B", 16)):
    R = "/repo/CEX/" + f
    L = open(R, encoding="utf-8-sig", errors="replace").read().replace("\r", "").split("\n")
    i = next(k for k, l in enumerate(L) if ("static void " + name + "(") in l)
    j = next(k for k in range(i, len(L)) if L[k] == "\t}")
    fixed = ["%s%d" % (v, k) for k in range(n)] + ["K%d" % k for k in range(n + 1)] + ["T0", "T1", "T2"]
    if f == "Threefish.h": fixed += arr("Counter", 2) + arr("Key", n) + arr("Tweak", 2) + arr("State", n)
    else: fixed += arr("Input", n) + arr("Tweak", 2) + arr("State", n)
    t = translate(R, i + 3, j, fixed)
    assert len(t.reg) == len(fixed), t.reg
    out.append(emit(t, d, "CEX/%s:%d-%d, body of %s" % (f, i + 3, j, name)))
open(os.path.join(os.path.dirname(__file__), "../rocq/theories/Model_ThreefishGen.v"), "w").write("\n".join(out))
