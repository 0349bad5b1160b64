#!/usr/bin/env python3
"""Writes rocq/theories/SseIsa.v: the SSE instructions whose execution is specified (name, encoding, form, meaning).
The meaning of an SSE instruction is that of the VEX instruction with the prefix v (VecIsa.v) at 128 bits."""
import re, os
root = os.path.join(os.path.dirname(os.path.abspath(__file__)), '..', 'rocq', 'theories')
rd = lambda f: open(os.path.join(root, f)).read()
isa = {}
for m in re.finditer(r'\("(\w+)/(\w+)", (r_\w+), (M[^;]*?)\)[;\]]', rd('VecIsa.v')):
    isa.setdefault(m.group(1), []).append((m.group(2), m.group(4)))
out = []
FORM = {'xo': 'One', 'xoi': 'One', 'xa': 'One', 'xxo': 'Two', 'xxoi': 'Two', 'xoo': 'Two', 'ax': 'Store'}
def add(name, pp, mp, opc, imm, want):
    vn = 'v' + re.sub(r'_ax$', '', name)
    for shape, meaning in isa.get(vn, []):
        f = FORM.get(shape)
        if f and (f == 'Store') == (want == 'Store') and shape.endswith('i') == (imm == 'I_8'):
            out.append((name, pp, mp, opc, 'true' if imm == 'I_8' else 'false', f, meaning)); return
for m in re.finditer(r'Definition e_\w+ := mkLE "(\w+)"%string \[t\w+; tOx\] \(roi? i_\w+\) \[(.*)\]\.', rd('LegTables.v')):
    x = re.search(r'xrow (\w+) (\d) (0x\w+) OsN (I_\w+)', m.group(2))
    if x: add(m.group(1), *x.groups(), 'reg')
for m in re.finditer(r'mkME "(\w+)"%string \[(.*)\] \(f_(ar|ra) i_\w+\)\n  \[mkL (\w+) (\d) (0x\w+) true None \[(m_ Sany; r_ KX Sany|r_ KX Sany; m_ Sany)\] Os0 (I_none)\]', rd('MixTables.v')):
    add(m.group(1), m.group(4), m.group(5), m.group(6), m.group(8), 'Store' if m.group(3) == 'ar' else 'reg')
names = [o[0] for o in out]
assert len(set(names)) == len(names), [n for n in names if names.count(n) > 1]
with open(os.path.join(root, 'SseIsa.v'), 'w') as f:
    f.write('''(* Generated by tools/ssetab.py.  Specification: SSE instructions (Intel SDM vol. 2): encoding, form and meaning. *)
From Coq Require Import ZArith List String.
From Verif Require Import Base SpecIsa SpecExec SpecVec SpecSse.
Import ListNotations.
Open Scope Z_scope.
Definition sse_isa : list (string * sserow) := [
''')
    f.write(';\n'.join(f'  ("{n}"%string, mkSse {pp} {mp} {opc} {imm} {fm} ({me}))' for n, pp, mp, opc, imm, fm, me in out))
    f.write('''].
Definition sse_proc : list sserow := map snd sse_isa.
Definition sse_named (n : string) : option sserow := match find (fun t => String.eqb n (fst t)) sse_isa with Some t => Some (snd t) | None => None end.
''')
print(len(out), ' '.join(names))
