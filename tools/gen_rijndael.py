#!/usr/bin/env python3
"""Translate the tables and the row shifts of CEX/Rijndael.h into Coq (Model_RijndaelGen.v).
usage: gen_rijndael.py /repo/CEX/Rijndael.h > Model_RijndaelGen.v"""
import re, sys
src = open(sys.argv[1]).read().split('\n')
def find(pat, start=0):
    for i in range(start, len(src)):
        if re.search(pat, src[i]): return i
    raise SystemExit('not found: ' + pat)
def table(name):
    a = find(r'\b%s =' % name); b = find(r'\};', a)
    vals = re.findall(r'0x[0-9A-Fa-f]+', '\n'.join(src[a:b]))
    return a + 1, b + 1, vals
def body(name, tmp):
    a = find(r'static void %s\(' % name); i = a + 2; out = []
    while src[i].strip() != '}':
        l = src[i].split('//')[0].strip()
        if l and l != 'uint8_t tmp;':
            m = re.match(r'(tmp|State\[(\d+)\]) = (tmp|State\[(\d+)\]);$', l)
            if not m: raise SystemExit('cannot translate: ' + l)
            d = tmp if m.group(1) == 'tmp' else int(m.group(2))
            s = tmp if m.group(3) == 'tmp' else int(m.group(4))
            out.append((d, s))
        i += 1
    return a + 1, i + 1, out
print('''(** Tables and row shifts of CEX/Rijndael.h.
    GENERATED by tools/gen_rijndael.py; do not edit.  A row shift is the list of its assignments (Model_Straight.v):
    registers 0.. are State, the register after the last is tmp. *)
From Verif Require Import Base Model_Straight.
Open Scope Z_scope.
''')
for n in ['Rcon', 'ISBox', 'SBox']:
    a, b, v = table(n)
    print('(** CEX/Rijndael.h:%d-%d *)\nDefinition %s : list Z := [' % (a, b, n))
    rows = ['  ' + '; '.join(v[i:i+16]) for i in range(0, len(v), 16)]
    print(';\n'.join(rows) + '].')
for n, t in [('InvShiftRows', 16), ('ShiftRows128', 16), ('ShiftRows256', 32), ('ShiftRows512', 64)]:
    a, b, o = body(n, t)
    print('(** CEX/Rijndael.h:%d-%d *)\nDefinition %s_prog : prog := [' % (a, b, n))
    st = ['(%d%%nat, R %d)' % x for x in o]
    print(';\n'.join('  ' + '; '.join(st[i:i+8]) for i in range(0, len(st), 8)) + '].')
