#!/usr/bin/env python3
"""Generates rocq/theories/Model_SHA2Gen.v from /repo/CEX/SHA2.h."""
import os, sys
sys.path.insert(0, os.path.dirname(__file__))
from straight import *
R = "/repo/CEX/SHA2.h"
fixed = list("ABCDEFGH") + ["R"] + ["W%d" % i for i in range(16)] + \
        ["State[%d]" % i for i in range(8)] + ["Input[%d]" % i for i in range(16)]
L = open(R, encoding="utf-8-sig", errors="replace").read().split("\n")
def span(name):
    i = next(k for k, l in enumerate(L) if ("static void " + name) in l)
    j = next(k for k in range(i, len(L)) if L[k] == "\t}")
    return i + 3, j        # first line after "{", last line before "}"
def fix(name):
    a, b = span(name)
    t = translate(R, a, b, fixed)
    assert len(t.reg) == len(fixed), t.reg
    return t, a, b
out = ["""(** The unrolled SHA-2 block functions as statement lists (see Model_Straight.v).
    GENERATED by tools/gen_sha2.py from CEX/SHA2.h; do not edit. *)
From Verif Require Import Base Model_Straight.
Open Scope Z_scope.
"""]
for n, d in (("PermuteR64P512U", "sha256_U"), ("PermuteR80P1024U", "sha512_U")):
    t, a, b = fix(n)
    out.append(emit(t, d, "CEX/SHA2.h:%d-%d, body of SHA2::%s" % (a, b, n)))
open(os.path.join(os.path.dirname(__file__), "../rocq/theories/Model_SHA2Gen.v"), "w").write("\n".join(out))
