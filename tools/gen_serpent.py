#!/usr/bin/env python3
"""Generates rocq/theories/Model_SerpentGen.v from /repo/CEX/Serpent.h."""
import os, sys
sys.path.insert(0, os.path.dirname(__file__))
from straight import *
F = "/repo/CEX/Serpent.h"
L = open(F, encoding="utf-8-sig", errors="replace").read().replace("\r", "").split("\n")
def span(name):
    i = next(k for k, l in enumerate(L) if ("static void " + name + "(") in l)
    j = next(k for k in range(i, len(L)) if L[k] == "}")
    return i + 3, j        # first line after "{", last line before "}"
out = ["""(** The Serpent S-boxes and linear transformations as statement lists (see Model_Straight.v).
    GENERATED by tools/gen_serpent.py from CEX/Serpent.h; do not edit.
    Registers: 0-3 are R0 to R3, 4 is B4. *)
From Verif Require Import Base Model_Straight.
Open Scope Z_scope.
"""]
for n in ["LinearTransform", "InverseTransform"] + [p + str(k) for k in range(8) for p in ("Sb", "Ib")]:
    a, b = span(n)
    tr = translate(F, a, b, ["R0", "R1", "R2", "R3"])
    out.append("(** CEX/Serpent.h:%d-%d *)\nDefinition %s_prog : prog := [\n%s]." % (a - 2, b + 1, n, ";\n".join("  (%d%%nat, %s)" % s for s in tr.stmts)) + "\n")
sys.stdout.write("\n".join(out))
