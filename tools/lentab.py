#!/usr/bin/env python3
"""Generates rocq/theories/LenTables.v: every instruction method that emits one instruction, with all its parameters free.

Reads the Definitions of Mnemonic.v, MnemonicAvx.v and MnemonicOmit.v through riptab.py; the methods of xbyak.h itself
are listed there and here by hand.
"""
import sys
from riptab import defs, unfolds, T
MORE = [('jmp_op', 'Operand LabelType'), ('call_op', 'Operand LabelType'), ('mov_o_seg', 'Operand Segment'), ('mov_seg_o', 'Segment Operand'),
        ('push_imm', 'Z'), ('push_af', 'Z Z'), ('push_seg', 'Segment'), ('pop_seg', 'Segment'), ('mov_label', 'Reg LabelRef'), ('bswap', 'Reg')]
for n, ts in MORE:
    defs.append(('Encode', n, [('p', t) for t in ts.split()]))
ARG = {'Reg': '(r %d)', 'Operand': '(o %d)', 'Address': '(a %d)', 'Z': '(n %d)', 'PreferredEncoding': 'e', 'LabelType': 'j', 'LabelRef': 'l', 'Segment': 's'}
KEEP = 'mov_oo mov_oi xchg imul_imm test_imm mov_o_seg mov_seg_o bswap push_imm push_af mov_label'.split()
entries = []
for f, name, ps in defs:
    if any(u not in ARG for _, u in ps):
        print('skipped', name, ps, file=sys.stderr)
        continue
    args = [ARG[u] % j if '%' in ARG[u] else ARG[u] for j, (_, u) in enumerate(ps)]
    entries.append((name, ' '.join([name] + args), [x for x in unfolds(name, []) if x not in KEEP]))
if __name__ == '__main__':
    with open(T + 'LenTables.v', 'w') as o:
        o.write("""(* Every method of CodeGenerator that emits an instruction, all parameters arbitrary.  Not in the table: jumps to labels and
   addresses (MnemonicJmp.v), nop(n) and align(n), which emit several instructions.  Produced by tools/lentab.py. *)
From Coq Require Import ZArith List Bool String Lia.
From Verif Require Import Base Types Emit Encode Mnemonic MnemonicAvx MnemonicOmit SpecLen LenFacts.
Import ListNotations.
Open Scope Z_scope. Open Scope string_scope.

Record len_args := mkArgs { ar_o : Z -> Operand; ar_a : Z -> Address; ar_r : Z -> Reg; ar_n : Z -> Z;
  ar_e : PreferredEncoding; ar_j : LabelType; ar_l : LabelRef; ar_s : Segment }.
Definition args_ok (x : len_args) : Prop := (forall i, narrow (ar_o x i)) /\\ (forall i, narrow (OReg (ar_r x i))).
Record len_entry := mkLen { ln_name : string; ln_fun : len_args -> E unit }.
Definition entry_within (x : len_entry) : Prop := forall v, args_ok v -> within max_length (ln_fun x v).

Ltac row := apply Forall_cons; [intros [o a r n e j l s] [Ho Hr]; cbn [ln_fun ar_o ar_a ar_r ar_n ar_e ar_j ar_l ar_s] in *; unfold max_length|].

""")
        C = 25
        chunks = [entries[i:i + C] for i in range(0, len(entries), C)]
        for k, c in enumerate(chunks):
            o.write('Definition lens%d : list len_entry :=\n  [' % k)
            o.write(';\n   '.join('mkLen "%s" (fun v => let (o, a, r, n, e, j, l, s) := v in %s)' % (n[2:] if n.startswith('i_') else n, b) for n, b, u in c))
            o.write('].\nLemma lens%d_ok : Forall entry_within lens%d.\nProof. unfold lens%d.\n' % (k, k, k))
            for n, b, u in c:
                o.write('row. { %srow_len. }\n' % ('unfold %s. ' % ', '.join(u) if u else ''))
            o.write('apply Forall_nil. Qed.\n')
        o.write('\nDefinition len_methods : list len_entry :=\n  %s.\n' % ' ++ '.join('lens%d' % k for k in range(len(chunks))))
        o.write('Lemma len_methods_ok : Forall entry_within len_methods.\nProof. unfold len_methods. repeat (apply Forall_app; split); auto using %s. Qed.\n' % ', '.join('lens%d_ok' % k for k in range(len(chunks))))
    print(len(entries))
