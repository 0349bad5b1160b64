#!/usr/bin/env python3
"""Generates rocq/theories/Sim32Tables.v: every instruction method that exists in both builds, the 32-bit one with the
operands of the 32-bit build, the 64-bit one with the corresponding operands.

Reads the Definitions of the six Mnemonic*.v files; the methods of xbyak.h itself are listed here by hand.
"""
import re, sys
T = '/verif/rocq/theories/'
DEF = re.compile(r'^Definition (i_\w+)((?: \([^)]*\))*) : E unit :=\n?(.*?)(?=^\(\*|^Definition|\Z)', re.M | re.S)
def read(names):
    d = {}
    for f in names:
        for m in DEF.finditer(open(T + f + '.v').read()):
            ps = [t for g in re.findall(r'\(([^)]*)\)', m.group(2)) for ns, t in [g.split(' : ')] for n in ns.split()]
            d[m.group(1)] = (f, ps, m.group(3))
    return d
d64 = read(['Mnemonic', 'MnemonicAvx', 'MnemonicOmit'])
d32 = read(['Mnemonic32', 'MnemonicAvx32', 'MnemonicOmit32'])
HAND = [('test_', 'Operand Reg'), ('test_imm', 'Operand Z'), ('imul_imm', 'Reg Operand Z'), ('mov_oi', 'Operand Z'),
        ('vmovd', 'Operand Operand PreferredEncoding'), ('vmovw', 'Operand Operand PreferredEncoding'),
        ('mov_o_seg', 'Operand Segment'), ('mov_seg_o', 'Segment Operand')]
A32 = {'Reg': '(r %d)', 'Operand': '(o %d)', 'Address': '(a %d)', 'Z': '(n %d)', 'PreferredEncoding': 'e', 'Segment': 's'}
A64 = dict(A32, Operand='(widen_op (o %d))', Address='(widen_addr (a %d))')
EXCEPT = {'i_' + n for n in 'inc_o inc_ro dec_o dec_ro lea vmovmskpd vmovmskps umonitor vfpclasspbf16 bndldx bndstx'.split()}
def unfolds(d, n, seen):
    if n not in d: return seen
    q = d[n][0] + '.' + n
    if q in seen: return seen
    seen.append(q)
    for x in re.findall(r'\bi_\w+', d[n][2]): unfolds(d, x, seen)
    return seen
entries, only32 = [], []
for n, (f, ps, body) in d32.items():
    if n not in d64: only32.append(n); continue
    if any(t not in A32 for t in ps): print('skipped', n, ps, file=sys.stderr); continue
    assert d64[n][1] == ps, n
    if n in EXCEPT: continue
    a = lambda A: ' '.join(A[t] % j if '%' in A[t] else A[t] for j, t in enumerate(ps))
    entries.append((n, f + '.' + n + ' ' + a(A32), d64[n][0] + '.' + n + ' ' + a(A64), unfolds(d32, n, []) + unfolds(d64, n, [])))
for n, ts in HAND:
    ps = ts.split()
    entries.append((n, 'Encode32.' + n + ' ' + a(A32), 'Encode.' + n + ' ' + a(A64), []))
if __name__ == '__main__':
    dbg = '--debug' in sys.argv
    SIZED = open('/verif/tools/simtab.txt').read().split()
    print('only in the 32-bit build:', ' '.join(only32))
    with open(T + 'Sim32Tables.v', 'w') as o:
        o.write("""(* Every instruction method that depends on the build and exists in both: the call in the 32-bit build and the
   corresponding call in the 64-bit build, all parameters arbitrary.  Not in the table: %s, see PropB32.v.
   Produced by tools/simtab.py. *)
From Coq Require Import ZArith List Bool String Lia.
From Verif Require Import Base Types Emit Encode Encode32 Mnemonic MnemonicAvx MnemonicOmit Mnemonic32 MnemonicAvx32 MnemonicOmit32 Spec32 SpecB32 Sim32 Sim32b Sim32c Sim32d.
Import ListNotations.
Open Scope Z_scope. Open Scope string_scope.

(* the methods that, in the 64-bit build, compare the size of a memory operand with the size of a register *)
Definition sized_methods : list string :=
  %s.
Definition same := entry_same sized_methods.
Lemma free_row x : (forall v, args32 v -> bsame True (b_call32 x v) (b_call64 x v)) -> same x.
Proof. intros H v A. destruct (H v A) as [P Q]. split; [exact P|]. intros _. exact (Q Logic.I). Qed.
Lemma sized_row x : existsb (String.eqb (b_name x)) sized_methods = true ->
  (forall v, args32 v -> bsame (args_fit v) (b_call32 x v) (b_call64 x v)) -> same x.
Proof. intros K H v A. destruct (H v A) as [P Q]. split; [exact P|]. intros M. exact (Q (M K)). Qed.
Ltac row := apply Forall_cons; [apply free_row; intros [o a r n e s] (Ho & Ha & Hr & Hm); cbn [b_call32 b_call64 ar_o ar_a ar_r ar_n ar_e ar_s] in *|].
Ltac srow_ := apply Forall_cons; [apply sized_row; [reflexivity|]; intros [o a r n e s] (Ho & Ha & Hr & Hm); cbn [b_call32 b_call64 ar_o ar_a ar_r ar_n ar_e ar_s] in *|].

""" % (', '.join(sorted(x[2:] for x in EXCEPT)), '[' + '; '.join('"%s"' % n for n in SIZED) + ']'))
        C = 25
        chunks = [entries[i:i + C] for i in range(0, len(entries), C)]
        for k, c in enumerate(chunks):
            o.write('Definition sims%d : list b_entry :=\n  [' % k)
            o.write(';\n   '.join('mkB "%s" (fun v => let (o, a, r, n, e, s) := v in %s)\n     (fun v => let (o, a, r, n, e, s) := v in %s)' % (n[2:] if n.startswith('i_') else n, b, b2) for n, b, b2, u in c))
            o.write('].\nLemma sims%d_ok : Forall same sims%d.\nProof. unfold sims%d.\n' % (k, k, k))
            for n, b, b2, u in c:
                t = '%srow_sim' % ('unfold %s. ' % ', '.join(u) if u else '')
                if dbg: t = t.replace('row_sim', 'first [row_sim | idtac "FAIL %s"; give_up]' % n)
                o.write('%s. { %s. }\n' % ('srow_' if (n[2:] if n.startswith('i_') else n) in SIZED else 'row', t))
            o.write('apply Forall_nil. %s\n' % ('Admitted.' if dbg else 'Qed.'))
        o.write('\nDefinition b_methods : list b_entry :=\n  %s.\n' % ' ++ '.join('sims%d' % k for k in range(len(chunks))))
        o.write('Lemma b_methods_ok : Forall same b_methods.\nProof. unfold b_methods. repeat (apply Forall_app; split); auto using %s. Qed.\n' % ', '.join('sims%d_ok' % k for k in range(len(chunks))))
    print(len(entries))
