#!/usr/bin/env python3
"""Writes FixedTables.v: the methods of Mnemonic.v without operands and the x87 register methods, by name."""
import re, os
T = os.path.join(os.path.dirname(os.path.abspath(__file__)), '../rocq/theories/')
s = open(T + 'Mnemonic.v').read()
fixed, two, one0, onep, single = [], [], [], [], []
for m in re.finditer(r'^Definition (i_\w+)([^:]*?)((?: ?\(p_\w+ : \w+\))*) : E unit :=\s*(.*?)\.\s*$', s, re.M | re.S):
    n, args, body = m[1], m[3].strip(), re.sub(r'\s+', ' ', m[4])
    name = re.sub(r'_(none|ff|f)$', '', n[2:])
    if args == '' and re.match(r'db ', body): fixed.append((name, n))
    elif body.startswith('opFpuFpu p_reg1 p_reg2'): two.append((name, n))
    elif body.startswith('opFpuFpu (Fpu 0)'): one0.append((name, n))
    elif body.startswith('opFpuFpu p_reg1 (Fpu 0)'): onep.append((name, n))
    elif body.startswith('opFpu '): single.append((name, n))
def table(nm, ty, l, ):
    it = [f'("{a}", {b})' for a, b in l]
    lines, cur = [], ''
    for i in it:
        if len(cur) + len(i) > 105: lines.append(cur); cur = ''
        cur += (' ' if cur else '') + i + ';'
    lines.append(cur[:-1])
    return f'Definition {nm} : list (string * {ty}) := [\n  ' + '\n  '.join(lines) + '].\n'
two_part = [x for x in two if x[0].startswith('fcmov') or x[0].endswith('comi') or x[0].endswith('comip')]
two_all = [x for x in two if x not in two_part]
o = '(* GENERATED by tools/fixedtab.py: methods without operands and x87 register methods of xbyak_mnemonic.h. *)\n'
o += 'From Coq Require Import ZArith List String.\nFrom Verif Require Import Base Types Emit Mnemonic.\nImport ListNotations.\nOpen Scope Z_scope.\nOpen Scope string_scope.\n\n'
o += table('fixed_methods', 'E unit', fixed)
o += '(* st(0), st(i) or st(i), st(0) *)\n' + table('x87_two', '(Reg -> Reg -> E unit)', two_all)
o += '(* instructions with the form st(0), st(i) only *)\n' + table('x87_to0', '(Reg -> Reg -> E unit)', two_part)
o += '(* one parameter: st(0), st(i) *)\n' + table('x87_one', '(Reg -> E unit)', one0)
o += '(* one parameter: st(i), st(0) *)\n' + table('x87_onep', '(Reg -> E unit)', onep)
o += '(* st(i) *)\n' + table('x87_single', '(Reg -> E unit)', single)
open(T + 'FixedTables.v', 'w').write(o)
print(len(fixed), len(two_all), len(two_part), len(one0), len(onep), len(single))
