#!/usr/bin/env python3
"""Generates rocq/theories/Say32Tables.v: the methods of the 32-bit build with the instruction rows of the 64-bit tables.

Reads the entries of LegTables.v, LegTables2.v, MixTables.v, MixTables2.v and VexTables.v and looks the methods up in the table of
Sim32Tables.v (module simtab).  Entries with 64-bit general registers are left out: there are none in the 32-bit build.
"""
import re, sys
sys.argv, argv = [sys.argv[0]], sys.argv
import simtab
sys.argv = argv
T = simtab.T
APX, SMALL = [x.split() for x in open('/verif/tools/starttab.txt').read().split('\n')[:2]]
where = {}
for i, (n, b, b2, u) in enumerate(simtab.entries): where[n] = (i // 25, i % 25, b.split()[0])
FUN = re.compile(r'\((?:f_)?[a-z0-9_]+ (?:\(fun [a-z ]* => )?(\w+)')
skip = {}
def conv(fun, name):
    """the 32-bit function and the place of the method; None if it is not in the table"""
    m = re.match(r'\(\w+ (?:\(fun [\w ]*? => )?(\w+)', fun)
    f = m.group(1)
    if f not in where: skip.setdefault('not in the table', []).append(name); return None
    k, j, q = where[f]
    short = f[2:] if f.startswith('i_') else f
    if short in APX: skip.setdefault('apx', []).append(name); return None
    return re.sub(r'\b%s\b' % f, q, fun, 1), k, j, short in SMALL
def balanced(s, i):
    """the parenthesised term that starts at i"""
    d = 0
    for j in range(i, len(s)):
        d += {'(': 1, ')': -1}.get(s[j], 0)
        if d == 0: return s[i:j + 1]
def defs(f, kind):
    s = open(T + f + '.v').read()
    for m in re.finditer(r'^Definition (\w+)(?: : \w+)? := %s "([^"]*)"%%string (.*?)\.\n(?=Lemma)' % kind, s, re.M | re.S):
        body = m.group(3)
        i = body.index('] (') + 2 if '] (' in body else body.index('(')
        yield m.group(1), m.group(2), body, balanced(body, i)
rows = []  # (list kind, term, tactic)
for f in ('LegTables', 'LegTables2'):
    for d, n, body, fun in defs(f, 'mkLE'):
        if 'Os64' in body: skip.setdefault('Os64', []).append(n); continue
        c = conv(fun, n)
        if c: rows.append(('leg', '(%s, le32 %s %s)' % ('true' if c[3] else 'false', d, c[0]), 'lrow_ l%s sims%d_ok start%d %d%%nat' % (d[1:], c[1], c[1], c[2])))
for f in ('MixTables', 'MixTables2'):
    for d, n, body, fun in defs(f, 'mkME'):
        if d.startswith('ve_'): continue
        if 'Os64' in body: skip.setdefault('Os64', []).append(n); continue
        c = conv(fun, n)
        if c: rows.append(('mix', '(%s, me32 %s %s)' % ('true' if c[3] else 'false', d, c[0]), 'mrow_ %s sims%d_ok start%d %d%%nat' % (d.replace('e_', '_', 1), c[1], c[1], c[2])))
s = open(T + 'VexTables.v').read()
for m in re.finditer(r'^Definition (tab\d+)( \(enc : PreferredEncoding\))? : list entry := \[\n(.*?)\n?\]\.', s, re.M | re.S):
    tab, enc, body = m.groups()
    for k, e in enumerate(re.findall(r'^  (mkEntry .*?);?$', body, re.M)):
        n = re.match(r'mkEntry "([^"]*)" (\[[^]]*\]) ', e)
        if re.search(r'cR 64|cG 64', n.group(2)): skip.setdefault('64-bit registers', []).append(n.group(1)); continue
        c = conv(balanced(e, e.index('(', n.end() - 1) if '(' in e[n.end() - 1:] else 0), n.group(1))
        if c: rows.append(('vexe' if enc else 'vex', '(%s, en32 (%s) %s)' % ('true' if c[3] else 'false', e, c[0]),
                           'vrow_ %s_ok %d%%nat sims%d_ok start%d %d%%nat' % ('(%s' % tab if enc else tab, k, c[1], c[1], c[2]) if not enc else
                           'verow (%s_ok enc) %d%%nat sims%d_ok start%d %d%%nat enc' % (tab, k, c[1], c[1], c[2])))
print({k: len(v) for k, v in skip.items()})
for k, v in skip.items(): print(k, ' '.join(v))
C = 30
with open(T + 'Say32Tables.v', 'w') as o:
    o.write("""(* The methods of the 32-bit build paired with the rows of the 64-bit instruction tables: whatever they emit is, in 32-bit mode,
   the instruction of the row.  The flag says that the method is proved for operands without 64-bit ones only.
   Produced by tools/say32tab.py. *)
From Coq Require Import ZArith List Bool String Lia.
From Verif Require Import Base Types Emit Encode Encode32 SpecX86 SpecAddr SpecIsa SpecInsn SpecLeg SpecMix IsaRows Mnemonic MnemonicAvx
  LegShapes LegTables LegGpr LegGpr2 LegGpr3 LegTables2 MixShapes MixTables MixTables2 VexTables
  Spec32 SpecB32 SpecStart32 SpecSays32 Sim32Tables Start32Tables Says32.
From Verif Require Mnemonic32 MnemonicAvx32 MnemonicOmit32.
Import ListNotations.
Open Scope string_scope.
Open Scope Z_scope.

Ltac fin := let ops := fresh in let imm := fresh in let act := fresh in let H := fresh in
  intros ops imm act H; cbv beta delta [f_0 f_i f_o f_oi f_oo f_orr f_a f_r f_ri f_rr f_rri f_ra f_ar f_ro f_or f_roi f_ori rro roo rroi rror rra arr rar rrr ro roi or_ ori ra ar rr rri a1 r1] in H;
  repeat match type of H with match ?x with _ => _ end = _ => destruct x; try discriminate H end; injection H as <-; split; reflexivity.
Ltac cov S T n e := eapply (covers_of apx_methods small_methods sized_methods _ e);
  [eapply (nth_Forall _ _ n); [exact S|reflexivity]|eapply (nth_Forall _ _ n); [exact T|reflexivity]|vm_compute; reflexivity|vm_compute; reflexivity|fin].
Ltac lrow_ L S T n := apply Forall_cons; [apply lift_leg; [reflexivity|exact L|cov S T n DefaultEncoding]|].
Ltac mrow_ L S T n := apply Forall_cons; [apply lift_mix; [reflexivity|exact L|cov S T n DefaultEncoding]|].
Ltac verow L k S T n e := apply Forall_cons; [eapply lift_vex; [eapply (nth_Forall _ _ k); [exact L|reflexivity]|cov S T n e]|].
Ltac vrow_ L k S T n := verow L k S T n DefaultEncoding.

""")
    for kind, ty, pred, par, arg in (('leg', 'lentry', 'limplements32', '', ''), ('mix', 'mentry', 'mimplements32', '', ''), ('vex', 'entry', 'implements32', '', ''),
                           ('vexe', 'entry', 'implements32', ' (enc : PreferredEncoding)', ' enc')):
        r = [x for x in rows if x[0] == kind]
        chunks = [r[i:i + C] for i in range(0, len(r), C)]
        print(kind, len(r))
        for k, c in enumerate(chunks):
            o.write('Definition %s32_%d%s : list (bool * %s) := [\n  %s].\n' % (kind, k, par, ty, ';\n  '.join(x[1] for x in c)))
            o.write('Lemma %s32_%d_ok%s : Forall (fun p => %s (fst p) (snd p)) (%s32_%d%s).\nProof. unfold %s32_%d.\n%s.\napply Forall_nil. Qed.\n' % (kind, k, par, pred, kind, k, arg, kind, k, '.\n'.join(x[2] for x in c)))
        o.write('Definition %s32_table%s : list (bool * %s) := %s.\n' % (kind, par, ty, ' ++ '.join('%s32_%d%s' % (kind, k, arg) for k in range(len(chunks)))))
        o.write('Lemma %s32_ok%s : Forall (fun p => %s (fst p) (snd p)) (%s32_table%s).\nProof. unfold %s32_table. repeat (apply Forall_app; split); auto using %s. Qed.\n' % (kind, par, pred, kind, arg, kind, ', '.join('%s32_%d_ok' % (kind, k) for k in range(len(chunks)))))
