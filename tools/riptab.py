#!/usr/bin/env python3
"""Generates rocq/theories/RipTables*.v: every instruction method with a memory-capable parameter, one entry for
each such parameter, all other operands being registers.

Reads the Definitions of Mnemonic.v, MnemonicAvx.v and MnemonicOmit.v; the methods of xbyak.h itself are listed
here by hand.
"""
import re, sys
T = '/verif/rocq/theories/'
DEF = re.compile(r'^Definition (i_\w+)((?: \([^)]*\))*) : E unit :=\n?(.*?)(?=^\(\*|^Definition|\Z)', re.M | re.S)
bodies = {}
defs = []
for f in ['Mnemonic', 'MnemonicAvx', 'MnemonicOmit']:
    for m in DEF.finditer(open(T + f + '.v').read()):
        ps = [(n, t) for g in re.findall(r'\(([^)]*)\)', m.group(2)) for ns, t in [g.split(' : ')] for n in ns.split()]
        bodies[m.group(1)] = m.group(3)
        defs.append((f, m.group(1), ps))
EXTRA = [('test_', 'Operand Reg'), ('test_imm', 'Operand Z'), ('imul_imm', 'Reg Operand Z'), ('push_op', 'Operand'), ('pop_op', 'Operand'),
         ('mov_oo', 'Operand Operand'), ('mov_oi', 'Operand Z'), ('xchg', 'Operand Operand'),
         ('vmovd', 'Operand Operand PreferredEncoding'), ('vmovw', 'Operand Operand PreferredEncoding')]
for n, ts in EXTRA:
    defs.append(('Encode', n, [('p', t) for t in ts.split()]))
def unfolds(n, seen):
    seen.append(n)
    for x in re.findall(r'\bi_\w+', bodies.get(n, '')):
        if x not in seen: unfolds(x, seen)
    return seen
ARG = {'Reg': '(r %d)', 'Operand': '(OReg (r %d))', 'Z': '(n %d)', 'PreferredEncoding': 'e', 'bool': None, 'LabelType': None, 'LabelRef': None}
entries = []
for f, name, ps in defs:
    for k, (_, t) in enumerate(ps):
        if t not in ('Operand', 'Address'): continue
        args, ok = [], True
        for j, (_, u) in enumerate(ps):
            if j == k: args.append('(OMem a)' if t == 'Operand' else 'a')
            elif ARG.get(u) is None: ok = False
            else: args.append(ARG[u] % j if '%' in ARG[u] else ARG[u])
        if ok: entries.append((f, name, k, '%s %s' % (name, ' '.join(args)), unfolds(name, [])))
        else: print('skipped', name, ps, file=sys.stderr)
for m in ('jmp_op', 'call_op'):
    for t in ('T_SHORT', 'T_NEAR', 'T_FAR', 'T_AUTO'):
        entries.append(('Encode', m, t, '%s (OMem a) %s' % (m, t), [m]))
for sg in 'ES CS SS DS FS GS'.split():
    entries.append(('Encode', 'mov_o_seg', sg, 'mov_o_seg (OMem a) %s' % sg, ['mov_o_seg']))
    entries.append(('Encode', 'mov_seg_o', sg, 'mov_seg_o %s (OMem a)' % sg, ['mov_seg_o']))
KEEP = ['i_vpextrw', 'mov_oo', 'mov_oi', 'xchg', 'imul_imm', 'test_imm', 'mov_o_seg', 'mov_seg_o']   # have their own lemmas in RipFacts.v
EXCEPT = re.compile(r'i_(rcl|rcr|rol|ror|sal|sar|shl|shr)_roi$|i_rorx$')
def dest(u): return any(re.search(r'opRO[OI] p_d\b', bodies.get(x, '')) for x in u)
chunks, cur = [], []
for e in entries:
    if EXCEPT.match(e[1]): continue
    cur.append(e)
    if len(cur) == 25: chunks.append(cur); cur = []
if cur: chunks.append(cur)
if __name__ == '__main__':
    with open(T + 'RipTables.v', 'w') as o:
        o.write("""(* Every method of CodeGenerator with a parameter that may be a memory operand, once for each such parameter; the other
   operands are arbitrary registers and numbers.  Not in the table: the eight shifts by an immediate with a new data
   destination and rorx, see PropRip.v.  Produced by tools/riptab.py. *)
From Coq Require Import ZArith List Bool String.
From Verif Require Import Base Types Emit Encode Mnemonic MnemonicAvx MnemonicOmit SpecRip RipFacts.
Import ListNotations.
Open Scope Z_scope. Open Scope string_scope.

(* re_dest: register 0 is a data destination, which has to be a general register *)
Record rip_entry := mkRipE { re_name : string; re_dest : bool; re_fun : Address -> (Z -> Reg) -> (Z -> Z) -> PreferredEncoding -> E unit }.
Definition entry_refers (x : rip_entry) : Prop :=
  forall a r n e, rip_mem a -> (re_dest x = true -> isREG (r 0) = true) -> refers a (re_fun x a r n e).

Ltac row := apply Forall_cons; [intros a r n e Ha Hr; cbn [re_fun re_dest] in *; try specialize (Hr eq_refl); apply R_refers|].

""")
        for k, c in enumerate(chunks):
            o.write('Definition rips%d : list rip_entry :=\n  [' % k)
            o.write(';\n   '.join('mkRipE "%s/%s" %s (fun a r n e => %s)' % (n[2:] if n.startswith('i_') else n, p, 'true' if dest(u) else 'false', b) for f, n, p, b, u in c))
            o.write('].\nLemma rips%d_ok : Forall entry_refers rips%d.\nProof. unfold rips%d. \n' % (k, k, k))
            for f, n, p, b, u in c:
                u = [x for x in u if x not in KEEP]
                o.write('row. { %sref. }\n' % ('unfold %s. ' % ', '.join(u) if u else ''))
            o.write('apply Forall_nil. Qed.\n')
        o.write('\nDefinition rip_methods : list rip_entry :=\n  %s.\n' % ' ++ '.join('rips%d' % k for k in range(len(chunks))))
        o.write('Lemma rip_methods_ok : Forall entry_refers rip_methods.\nProof. unfold rip_methods. repeat (apply Forall_app; split); auto using %s. Qed.\n' % ', '.join('rips%d_ok' % k for k in range(len(chunks))))
    print(sum(map(len, chunks)))
