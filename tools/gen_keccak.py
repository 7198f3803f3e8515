#!/usr/bin/env python3
"""Generates rocq/theories/Model_KeccakGen.v from /repo/CEX/Keccak.h."""
import os, sys
sys.path.insert(0, os.path.dirname(__file__))
from straight import *
R = "/repo/CEX/Keccak.h"
L = open(R, encoding="utf-8-sig", errors="replace").read().split("\n")
def start(name):
    return next(k for k, l in enumerate(L) if ("static void " + name + "(") in l)
def span(name):
    i = start(name)
    j = next(k for k in range(i, len(L)) if L[k] == "\t}")
    return i + 3, j        # first line after "{", last line before "}"
names = [c + v for c in "bgkms" for v in "aeiou"]
fixedU = ["A" + n for n in names] + ["C" + v for v in "aeiou"] + ["D" + v for v in "aeiou"] + \
         ["E" + n for n in names] + ["State[%d]" % i for i in range(25)]
fixedC = ["A[%d]" % i for i in range(25)] + ["C[%d]" % i for i in range(5)] + ["D[%d]" % i for i in range(5)] + \
         ["E[%d]" % i for i in range(25)] + ["RC48_i", "RC48_i1"]
out = ["""(** The Keccak permutations as statement lists (see Model_Straight.v).
    GENERATED by tools/gen_keccak.py from CEX/Keccak.h; do not edit. *)
From Verif Require Import Base Model_Straight.
Open Scope Z_scope.
"""]
for n, d in (("PermuteR24P1600U", "keccak24_U"), ("PermuteR48P1600U", "keccak48_U")):
    a, b = span(n)
    t = translate(R, a, b, fixedU)
    assert len(t.reg) == len(fixedU), t.reg
    out.append(emit(t, d, "CEX/Keccak.h:%d-%d, body of Keccak::%s" % (a, b, n)))
# the compact form: the body of the loop
i = start("Permute")
a = next(k for k in range(i, len(L)) if "for (i = 0;" in L[k]) + 3
b = next(k for k in range(a, len(L)) if L[k] == "\t\t}")
text = body(R, a, b).replace("KECCAK_RC48[i + 1]", "RC48_i1").replace("KECCAK_RC48[i]", "RC48_i")
t = Tr(fixedC)
for s in text.split(";"): t.stmt(s)
assert len(t.reg) == len(fixedC), t.reg
out.append(emit(t, "keccak_C", "CEX/Keccak.h:%d-%d, body of the loop of Keccak::Permute" % (a, b),
  "\n    RC48_i and RC48_i1 stand for KECCAK_RC48[i] and KECCAK_RC48[i + 1]"))
# the constants
src = open("/repo/CEX/Keccak.cpp", encoding="utf-8-sig").read()
cl = src.split("\n")
k = next(n for n, l in enumerate(cl) if "KECCAK_RC48" in l)
e = next(n for n in range(k, len(cl)) if cl[n].startswith("};"))
rc = re.findall(r"0x[0-9A-Fa-f]{16}", "\n".join(cl[k:e]))
assert len(rc) == 48
out.append("(** CEX/Keccak.cpp:%d-%d *)\nDefinition KECCAK_RC48 : list Z := [\n%s\n]." % (k + 1, e + 1, ";\n".join("  " + "; ".join(rc[i:i+4]) for i in range(0, 48, 4))))
open(os.path.join(os.path.dirname(__file__), "../rocq/theories/Model_KeccakGen.v"), "w").write("\n".join(out))
