#!/usr/bin/env python3
"""Generates rocq/theories/Model_BlakeGen.v from /repo/CEX/Blake.h and Blake.cpp."""
import os, re, sys
sys.path.insert(0, os.path.dirname(__file__))
from straight import *
F = "/repo/CEX/Blake.h"
L = open(F, encoding="utf-8-sig", errors="replace").read().replace("\r", "").split("\n")
C = open("/repo/CEX/Blake.cpp", encoding="utf-8-sig", errors="replace").read().replace("\r", "").split("\n")
def span(name):
    i = next(k for k, l in enumerate(L) if ("static void " + name + "(") in l)
    j = next(k for k in range(i, len(L)) if L[k] == "\t}")
    return i + 3, j        # first line after "{", last line before "}"
def words(p, n): return [p % i for i in range(n)]
out = ["""(** The Blake2 compression functions as statement lists (see Model_Straight.v).
    GENERATED by tools/gen_blake.py from CEX/Blake.h and CEX/Blake.cpp; do not edit.
    Registers of the unrolled form: 0-15 R, 16-31 M, 32-39 State, 40-47 IV, 48-63 the words of Input.
    Registers of the compact form: 0-15 R, 16-31 the words M[Sigma[(i * 16) + k]], k = 0 .. 15. *)
From Verif Require Import Base Model_Straight.
Open Scope Z_scope.
"""]
def lst(name, cite, ty, items):
    out.append("(** %s *)\nDefinition %s : %s := [\n%s]." % (cite, name, ty, ";\n".join("  " + i for i in items)) + "\n")
def const_table(name, d, cols):
    i = next(k for k, l in enumerate(C) if re.search(r"Blake::%s =" % name, l))
    j = next(k for k in range(i, len(C)) if C[k] == "};")
    v = re.findall(r"0x[0-9A-Fa-f]+", "\n".join(C[i + 1:j]))
    assert len(v) in (8, 192)
    rows = ["; ".join(v[k:k + cols]) for k in range(0, len(v), cols)]
    ty = "list Z"
    if len(v) == 192:
        rows = ["; ".join("%d%%nat" % int(x, 16) for x in v[k:k + cols]) for k in range(0, len(v), cols)]
        ty = "list nat"
    lst(d, "CEX/Blake.cpp:%d-%d %s" % (i + 1, j + 1, name), ty, rows)
def unrolled(name, d):
    a, b = span(name)
    tr = translate(F, a, b, words("R%d", 16) + words("M%d", 16) + words("State[%d]", 8) + words("IV[%d]", 8) + words("Input[%d]", 16))
    assert len(tr.reg) == 64, tr.reg
    lst(d, "CEX/Blake.h:%d-%d %s" % (a, b, name), "prog", ["(%d%%nat, %s)" % s for s in tr.stmts])
def compact(name, d, sigma, w, rounds):
    a, b = span(name)
    text = body(F, a, b)
    m = re.search(r"R\{(.*?)\};", text, re.S)
    init = [s.strip() for s in m.group(1).split(",")]
    assert init == words("State[%d]", 8) + words("IV[%d]", 8), init
    m = re.search(r"for \(i = 0; i < (\d+); \+\+i\)\s*\{(.*?)\}", text, re.S)
    assert int(m.group(1)) == rounds
    loop, rest = m.group(2), text[m.end():]
    loop = re.sub(r"M\[%s\[\(i \* 16\)(?: \+ (\d+))?\]\]" % sigma, lambda k: "W%s" % (k.group(1) or "0"), loop)
    tr = Tr(words("R[%d]", 16) + words("W%d", 16))
    for s in loop.split(";"): tr.stmt(s)
    assert len(tr.reg) == 32, tr.reg
    lst(d, "CEX/Blake.h:%d-%d %s: one pass of the loop (i < %d)" % (a, b, name, rounds), "prog", ["(%d%%nat, %s)" % s for s in tr.stmts])
    tr = Tr(words("R[%d]", 16) + words("M[%d]", 16) + words("State[%d]", 8))
    for s in rest.split(";"): tr.stmt(s)
    assert len(tr.reg) == 40, tr.reg
    lst(d + "_fin", "CEX/Blake.h:%d-%d %s: after the loop; registers 0-15 R, 32-39 State" % (a, b, name), "prog", ["(%d%%nat, %s)" % s for s in tr.stmts])
const_table("IV256", "IV256", 4)
const_table("IV512", "IV512", 4)
const_table("Sigma256", "Sigma256", 16)
const_table("Sigma512", "Sigma512", 16)
unrolled("PermuteR10P512U", "blake256_U")
unrolled("PermuteR12P1024U", "blake512_U")
compact("PermuteR10P512C", "blake256_C", "Sigma256", 32, 10)
compact("PermuteR12P1024C", "blake512_C", "Sigma512", 64, 12)
open(os.path.join(os.path.dirname(__file__), "../rocq/theories/Model_BlakeGen.v"), "w").write("\n".join(out))
