#!/usr/bin/env python3
"""Generates rocq/theories/NameTables.v: the register objects that class CodeGenerator and namespace util offer.

Reads /repo/xbyak/xbyak.h: the member declarations and the constructor of CodeGenerator, the constants of namespace util,
and enum Operand::Code.
"""
import re
S = open('/repo/xbyak/xbyak.h').read().split('\n')
T = '/verif/rocq/theories/'
def find(pat, start=0):
    return next(i for i in range(start, len(S)) if re.search(pat, S[i]))
# enum Code
code = {}
a = find(r'enum Code \{'); b = find(r'\};', a); v = -1
for t in re.findall(r'(\w+)(?:\s*=\s*(\d+))?\s*[,\n]', re.sub(r'#\w+.*', '', '\n'.join(S[a + 1:b])) + '\n'):
    v = int(t[1]) if t[1] else v + 1
    code[t[0]] = v
# member types
ctor = find(r'CodeGenerator\(size_t maxSize')
a = find(r'const Mmx mm0, mm1'); b = find(r'const RegRip rip', a); typ = {}
for l in S[a:b]:
    m = re.match(r'\s*const (\w+) ([^;]*);', l)
    if m:
        for n in m.group(2).split(','): typ[n.strip().lstrip('&')] = (m.group(1), '&' in n)
REGS = ['Reg8', 'Reg16', 'Reg32', 'Reg64', 'Mmx', 'Xmm', 'Ymm', 'Zmm', 'Tmm', 'Opmask', 'BoundsReg', 'Fpu']
def value(t, arg):
    ps = [x.strip() for x in arg.split(',')]
    n = ps[0].replace('Operand::', '')
    n = code[n] if n in code else int(n)
    return '%s %d' % ('Reg8e' if t == 'Reg8' and len(ps) > 1 and ps[1] == 'true' else t, n)
body = '\n'.join(S[ctor + 1:find(r'isDefaultJmpNEAR_\(false\)', ctor)])
body = re.sub(r'//.*', '', body)
mem, short, frames = [], [], []
for n, arg in re.findall(r'(\w+)\(([^()]*)\)', body):
    if n == 'CodeArray' or n not in typ: continue
    t, ref = typ[n]
    if ref: short.append((n, '%s' % arg.strip()))
    elif t in REGS: mem.append((n, value(t, arg)))
    elif t == 'AddressFrame': frames.append((n, arg))
util, uframes = [], []
a = find(r'^namespace util', ctor); b = find(r'^\} // util', a)
for l in S[a:b]:
    m = re.match(r'static const XBYAK_CONSTEXPR (\w+) (.*);', l)
    if not m: continue
    for n, arg in re.findall(r'(\w+)\(([^()]*)\)', m.group(2)):
        if m.group(1) in REGS: util.append((n, value(m.group(1), arg)))
        elif m.group(1) == 'AddressFrame': uframes.append((n, arg))
def frame(x):
    ps = [p.strip() for p in x[1].split(',')]
    return '("%s", (%s, %s))' % (x[0], ps[0], 'true' if len(ps) > 1 and ps[1] == 'true' else 'false')
def lst(l): return '[' + ';\n   '.join('; '.join(l[i:i + 8]) for i in range(0, len(l), 8)) + ']'
with open(T + 'NameTables.v', 'w') as o:
    o.write("""(* Model: the register and address-frame objects of class CodeGenerator (xbyak.h:2862-2909 declared, %d-%d initialised) and of
   namespace util (%d-%d), with the classes and constructor arguments written there.  Produced by tools/nametab.py. *)
From Coq Require Import ZArith List String.
From Verif Require Import Base Types.
Import ListNotations.
Open Scope string_scope. Open Scope Z_scope.

""" % (ctor + 1, find(r'isDefaultJmpNEAR_\(false\)', ctor), a + 1, b + 1))
    o.write('Definition members : list (string * Reg) :=\n  %s.\n' % lst(['("%s", %s)' % x for x in mem]))
    d = dict(mem)
    o.write('(* references to other members *)\nDefinition shorthands : list (string * Reg) :=\n  %s.\n' % lst(['("%s", %s)' % (n, d[r]) for n, r in short]))
    o.write('Definition frames : list (string * (Z * bool)) :=\n  %s.\n' % lst([frame(x) for x in frames]))
    o.write('Definition util_members : list (string * Reg) :=\n  %s.\n' % lst(['("%s", %s)' % x for x in util]))
    o.write('Definition util_frames : list (string * (Z * bool)) :=\n  %s.\n' % lst([frame(x) for x in uframes]))
    # the tables of Operand::toString
    t0 = find(r'const char \*toString\(\) const'); t1 = find(r'ERR_INTERNAL, 0', t0)
    src = '\n'.join(S[t0:t1]); tb = []
    for m in re.finditer(r'tbl\[\d+\](?:\[\d+\])? = (\{.*?\});', src, re.S): tb.append(m.group(1))
    names = ['strExt8', 'strReg', 'strOpmask', 'strTmm', 'strZmm', 'strYmm', 'strXmm', 'strMmx', 'strFpu', 'strBnd']
    assert len(tb) == len(names)
    o.write('(* the tables of Operand::toString, xbyak.h:%d-%d *)\n' % (t0 + 1, t1))
    for n, t in zip(names, tb):
        if n == 'strReg':
            o.write('Definition strReg : list (list string) :=\n  [%s].\n' % ';\n   '.join(lst(['"%s"' % x for x in re.findall(r'"(\w+)"', r)]) for r in re.findall(r'\{([^{}]*)\}', t[1:-1])))
        else: o.write('Definition %s : list string := %s.\n' % (n, lst(['"%s"' % x for x in re.findall(r'"(\w+)"', t)])))
    # xbyak_bin2hex.h
    bc = re.findall(r'(B[01]{8})= (\d+)', open('/repo/xbyak/xbyak_bin2hex.h').read())
    o.write('(* the enumeration of xbyak_bin2hex.h *)\nDefinition binConstants : list (string * Z) :=\n  %s.\n' % lst(['("%s", %s)' % x for x in bc]))
print(len(bc), len(mem), len(short), len(frames), len(util), len(uframes))
