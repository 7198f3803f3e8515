#!/usr/bin/env python3
"""Translate a straight-line C++ function body of /repo/CEX into a Gallina statement list.

Every statement of the body is translated; declarations without initialiser are dropped.
Accepted statements: `x = e;`, `T x = e;`, `x op= e;`.  Operators: + - * ^ | & ~ << >>,
IntegerTools::Rot[F][L|R][32|64](e, n), literals, scalar variables, Array[literal], and the
word loads IntegerTools::{Be,Le}BytesTo{32,64}(Input, InOffset [+ n]), which become the
register `Input[n / size]`.  Anything else aborts the translation.
"""
import re, sys

TOK = re.compile(r"\s*(0[xX][0-9a-fA-F]+|\d+|[A-Za-z_][A-Za-z_0-9:]*|<<=|>>=|<<|>>|[-+*/^|&~()\[\],=])")

def toks(s):
    out, i = [], 0
    s = s.strip()
    while i < len(s):
        m = TOK.match(s, i)
        if not m: raise SystemExit("bad token at: " + s[i:])
        t = m.group(1); i = m.end()
        if re.match(r"^(0[xX]|\d)", t):
            m2 = re.compile(r"(ULL|UL|U)?").match(s, i); i = m2.end()
        out.append(t)
    return out

PREC = {"|": 1, "^": 2, "&": 3, "<<": 4, ">>": 4, "+": 5, "-": 5, "*": 6}

class P:
    def __init__(self, ts): self.t, self.i = ts, 0
    def peek(self): return self.t[self.i] if self.i < len(self.t) else None
    def next(self): self.i += 1; return self.t[self.i - 1]
    def eat(self, x):
        if self.next() != x: raise SystemExit("expected %s in %s" % (x, self.t))
    def expr(self, p=1):
        l = self.unary()
        while self.peek() in PREC and PREC[self.peek()] >= p:
            op = self.next(); r = self.expr(PREC[op] + 1); l = (op, l, r)
        return l
    def unary(self):
        t = self.peek()
        if t == "~": self.next(); return ("~", self.unary())
        if t == "(":
            self.next(); e = self.expr(); self.eat(")"); return e
        t = self.next()
        if re.match(r"^\d", t): return ("lit", int(t, 0))
        if self.peek() == "(":
            self.next(); a = [self.expr()]
            while self.peek() == ",": self.next(); a.append(self.expr())
            self.eat(")"); return ("call", t, a)
        if self.peek() == "[":
            self.next(); e = self.expr(); self.eat("]")
            return ("var", "%s[%d]" % (t, const(e)))
        return ("var", t)

def const(e):
    if e[0] == "lit": return e[1]
    if e[0] == "+": return const(e[1]) + const(e[2])
    if e[0] == "-": return const(e[1]) - const(e[2])
    if e[0] == "*": return const(e[1]) * const(e[2])
    raise SystemExit("not constant: %r" % (e,))

class Tr:
    def __init__(self, fixed=()):
        self.reg = {}
        for v in fixed: self.reg[v] = len(self.reg)
        self.stmts = []
    def r(self, v):
        if v not in self.reg: self.reg[v] = len(self.reg)
        return self.reg[v]
    def e(self, x):
        k = x[0]
        if k == "lit": return "K 0x%X" % x[1]
        if k == "var": return "R %d" % self.r(x[1])
        if k == "~": return "No (%s)" % self.e(x[1])
        if k in ("<<", ">>"):
            return "%s (%s) %d" % ("SL" if k == "<<" else "SR", self.e(x[1]), const(x[2]))
        if k in "+-*^|&":
            n = {"+": "Ad", "-": "Su", "*": "Mu", "^": "Xo", "|": "Or", "&": "An"}[k]
            return "%s (%s) (%s)" % (n, self.e(x[1]), self.e(x[2]))
        if k == "call":
            m = re.match(r"^(?:Tools::)?IntegerTools::RotF?([LR])(32|64)$", x[1])
            if m: return "R%s (%s) %d" % (m.group(1) + "o", self.e(x[2][0]), const(x[2][1]))
            m = re.match(r"^(?:Tools::)?IntegerTools::(Be|Le)BytesTo(32|64)$", x[1])
            if m:
                o = x[2][1]
                sz = int(m.group(2)) // 8
                if o == ("var", "InOffset"): n = 0
                elif o[0] == "+" and o[1] == ("var", "InOffset"): n = const(o[2])
                else: raise SystemExit("bad load %r" % (x,))
                assert n % sz == 0
                return "R %d" % self.r("Input[%d]" % (n // sz))
        raise SystemExit("unsupported %r" % (x,))
    def stmt(self, s):
        s = s.strip()
        if not s: return
        if re.match(r"^(const )?(uint\d+_t|T|std::array<[^>]*>)\s+\w+$", s): return
        s = re.sub(r"^(const )?(uint32_t|uint64_t|T)\s+", "", s)
        m = re.match(r"^([\w\[\] +]+?)\s*(\+|\^|\||&|-)?=(?!=)\s*(.*)$", s, re.S)
        if not m: raise SystemExit("bad statement: " + s)
        lhs = P(toks(m.group(1))).expr()
        assert lhs[0] == "var"
        rhs = P(toks(m.group(3)))
        e = rhs.expr()
        if rhs.peek() is not None: raise SystemExit("trailing tokens: " + s)
        if m.group(2): e = (m.group(2), lhs, e)
        ex = self.e(e)
        self.stmts.append((self.r(lhs[1]), ex))

def body(path, first, last):
    """lines first..last (1-based, inclusive) with comments removed"""
    t = open(path, encoding="utf-8-sig", errors="replace").read().split("\n")[first - 1:last]
    t = [re.sub(r"//.*$", "", l) for l in t]
    return "\n".join(t)

def translate(path, first, last, fixed):
    tr = Tr(fixed)
    for s in body(path, first, last).split(";"):
        tr.stmt(s)
    return tr

def emit(tr, name, cite, extra=""):
    regs = ", ".join("%d=%s" % (i, v) for v, i in sorted(tr.reg.items(), key=lambda p: p[1]))
    out = ["(** %s: generated by tools/straight.py, one entry per statement.\n    Registers: %s.%s *)" % (cite, regs, extra)]
    out.append("Definition %s : prog := [" % name)
    out.append(";\n".join("  (%d%%nat, %s)" % s for s in tr.stmts))
    out.append("].")
    return "\n".join(out) + "\n"
