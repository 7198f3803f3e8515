#!/usr/bin/env python3
"""Generates rocq/theories/Model_ChaChaGen.v from /repo/CEX/ChaCha.h."""
import os, re, sys
sys.path.insert(0, os.path.dirname(__file__))
from straight import *
F = "/repo/CEX/ChaCha.h"
L = open(F, encoding="utf-8-sig", errors="replace").read().replace("\r", "").split("\n")
def span(name):
    i = next(k for k, l in enumerate(L) if ("static void " + name + "(") in l)
    j = next(k for k in range(i, len(L)) if L[k] == "\t}")
    return i + 3, j        # first line after "{", last line before "}"
STORE = re.compile(r"^IntegerTools::Le(32|64)ToBytes\((.*), Output, OutOffset(?: \+ (\d+))?\)$")
def fixed(x):
    return [x % i for i in range(16)] + ["State[%d]" % i for i in range(14)] + ["Counter[0]", "Counter[1]"]
out = ["""(** The ChaCha permutations as statement lists (see Model_Straight.v).
    GENERATED by tools/gen_chacha.py from CEX/ChaCha.h; do not edit.
    Registers: 0-15 the working words X, 16-29 State, 30-31 Counter.  An entry (e, n) of a
    store list is the statement LeNToBytes(e, Output, OutOffset + n). *)
From Verif Require Import Base Model_Straight.
Open Scope Z_scope.
"""]
def lst(name, cite, ty, items):
    out.append("(** %s *)\nDefinition %s : %s := [\n%s]." % (cite, name, ty, ";\n".join("  " + i for i in items)) + "\n")
def run(name, d):
    a, b = span(name)
    text = body(F, a, b)
    loop = None
    m = re.search(r"std::array<uint64_t, 16> X\{(.*?)\};", text, re.S)
    if m:
        tr = Tr(fixed("X[%d]"))
        lst(d + "_init", "CEX/ChaCha.h:%d-%d %s: the initialiser of X" % (a, b, name), "list sx", [tr.e(P(toks(s)).expr()) for s in m.group(1).split(",")])
        text = text[m.end():]
        m = re.search(r"while \(Rounds != 0\)\s*\{(.*?)Rounds -= 2;\s*\}", text, re.S)
        loop, text = m.group(1), text[:m.start()] + text[m.end():]
    else:
        tr = Tr(fixed("X%d"))
    stores = []
    code = []
    for s in text.split(";"):
        s = s.strip()
        if not s: continue
        m = STORE.match(s)
        if m: stores.append("(%s, %s%%nat)" % (tr.e(P(toks(m.group(2))).expr()), m.group(3) or "0"))
        else:
            assert not stores, s
            code.append(s)
    if loop is not None:
        assert not code, code
        code = [s for s in loop.split(";") if s.strip()]
    for s in code: tr.stmt(s)
    assert len(tr.reg) == 32, tr.reg
    lst(d, "CEX/ChaCha.h:%d-%d %s: %s" % (a, b, name, "one pass of the loop on Rounds" if loop else "the statements before the stores"), "prog", ["(%d%%nat, %s)" % s for s in tr.stmts])
    lst(d + "_out", "CEX/ChaCha.h:%d-%d %s: the stores" % (a, b, name), "list (sx * nat)", stores)
run("PermuteR20P512U", "chacha_U")
run("PermuteP512C", "chacha_C")
run("PermuteP1024C", "csx_C")
open(os.path.join(os.path.dirname(__file__), "../rocq/theories/Model_ChaChaGen.v"), "w").write("\n".join(out))
