#!/usr/bin/env python3
"""Writes rocq/theories/Params.v: the C++ types of the operand parameters of the methods of the legacy tables, read from the
declarations in xbyak_mnemonic.h and xbyak.h.

usage: params.py TABLE < list     where each line of the list is "name [class; class; ..]" as printed by
   Eval vm_compute in map (fun e => (le_name e, le_sig e)) (legacy_table ++ gpr_table).
   Eval vm_compute in map (fun e => (me_name e, me_sig e)) (mix_table ++ mix2_table ++ wait_table).
The first 342 lines are the former table."""
import collections, re, sys

REPO = '/repo/xbyak/'
TYPES = {'Operand': 'O', 'Reg': 'R', 'Reg32e': 'E', 'Reg8': 'R8', 'Reg64': 'R64', 'Xmm': 'X', 'Mmx': 'M', 'Address': 'A', 'BoundsReg': 'B'}
# overloads whose entry has a name or classes that do not decide
BY_HAND = {'pshufd': 'M O', 'pshufhw': 'M O', 'pshuflw': 'M O', 'fnstsw_a': 'A', 'fstsw_a': 'A', 'maskmovq': 'M M', 'movdq2q': 'M X', 'movq2dq': 'X M',
           'movntq': 'A M', 'movd_mo': 'M O', 'movd_om': 'O M', 'movq_mq': 'M R64', 'movq_qm': 'R64 M', 'movq_mo': 'M O', 'movq_am': 'A M',
           'pinsrw': 'M O', 'pextrw': 'O M', 'out_': 'R'}
decl = collections.defaultdict(list)
for fn in ['xbyak_mnemonic.h', 'xbyak.h']:
    for line in open(REPO + fn):
        m = re.match(r'\s*void (\w+)\(([^)]*)\)\s*(?:\{|$)', line)
        if m:
            decl[m.group(1)].append([p.strip() for p in m.group(2).split(',') if p.strip()])

def type_of(p):
    m = re.match(r'const (\w+)\s*&', p)
    return TYPES.get(m.group(1), '?') if m else None

def admits(t, c):
    if re.match(r'tA|aM |aLow \(aM', c): return t in 'AO'
    if t == 'A': return False
    if c.startswith('tO'): return t == 'O'
    if c.startswith('tEe'): return t == 'E'
    if c.startswith('tE'): return t == 'O'
    if c.startswith('tG'): return t in 'RE'
    if c == 'tX': return t == 'X'
    if c in ('tM', 'tMm'): return t == 'M'
    return True

def split(s):
    r, d, c = [], 0, ''
    for ch in s:
        d += ch in '[('
        d -= ch in '])'
        if ch == ';' and d == 0:
            r.append(c.strip()); c = ''
        else:
            c += ch
    return r + [c.strip()] if c.strip() else r

rows = []
for line in sys.stdin:
    m = re.match(r'(\w+) \[(.*)\]', line.strip())
    if not m: continue
    name, sig = m.group(1), split(m.group(2))
    found = set()
    for nm in (name, name + '_'):
        for ps in decl.get(nm, []):
            ts = [type_of(p) for p in ps]
            n = ts.index(None) if None in ts else len(ts)
            if any(ts[n:]) or n != len(sig): continue
            if all(admits(t, c) for t, c in zip(ts[:n], sig)): found.add(tuple(ts[:n]))
    if len(found) == 1: rows.append((name, list(found)[0]))
    else: rows.append((name, ('A X' if name.endswith('_ax') else BY_HAND[name]).split()))

def table(l):
    items = ['("%s", [%s])' % (n, '; '.join('p' + x for x in t)) for n, t in l]
    lines, cur = [], '  '
    for i, x in enumerate(items):
        y = x + ('; ' if i < len(items) - 1 else '')
        if len(cur) + len(y) > 170: lines.append(cur.rstrip()); cur = '  '
        cur += y
    return '[\n' + '\n'.join(lines + [cur]) + ' ]%string'

head = open(sys.argv[1]).read().split('Definition leg_params')[0]
open(sys.argv[1], 'w').write(head + 'Definition leg_params : list (string * list ptype) := ' + table(rows[:342]) + '.\nDefinition mix_params : list (string * list ptype) := ' + table(rows[342:]) + '.\n')
