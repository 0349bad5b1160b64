#!/usr/bin/env python3
"""Generates rocq/theories/AliasTables.v: the pseudo-operations and the forms with an omitted operand.

Only names are used here: which method has which relation, suffix and type in its name, and which three-operand
method has the name of a two-operand one.  The immediates below are only the witnesses of the proofs.
"""
import re
T = '/verif/rocq/theories/'
src = {f: open(T + f + '.v').read() for f in ('Mnemonic', 'MnemonicAvx', 'MnemonicOmit')}
have = [d for f in src for d in re.findall(r'^Definition (i_\w+)', src[f], re.M)]
haveset = set(have)
RELS = ['eq', 'lt', 'le', 'gt', 'ge', 'neq', 'nlt', 'nle', 'ngt', 'nge', 'ord', 'unord', 'true', 'false']
SUF = {'': 'Dflt', '_oq': 'Oq', '_os': 'Os', '_uq': 'Uq', '_us': 'Us', '_q': 'Sq', '_s': 'Ss'}
FT = ['ps', 'pd', 'ss', 'sd']
NUM = 'eq_oq lt_os le_os unord_q neq_uq nlt_us nle_us ord_q eq_uq nge_us ngt_us false_oq neq_oq ge_os gt_os true_uq eq_os lt_oq le_oq unord_s neq_us nlt_uq nle_uq ord_s eq_us nge_uq ngt_uq false_os neq_os ge_oq gt_oq true_us'.split()


def number(r, s):
    if s == '':
        return next(i for i, n in enumerate(NUM[:16]) if n.split('_')[0] == r and not (r == 'eq' and i) and not (r == 'neq' and i != 4))
    return NUM.index(r + s)


out = ['''(* Generated by tools/aliastab.py: the pseudo-operations of xbyak_mnemonic.h (SpecAlias.v) and the methods with an omitted
   operand, each with the method it stands for. *)
From Coq Require Import ZArith List Bool String Lia.
From Verif Require Import Base Types Emit Encode Mnemonic MnemonicAvx MnemonicOmit SpecAlias.
Import ListNotations.
Open Scope Z_scope.
Open Scope string_scope.
Ltac cmp_row n := apply Forall_cons; [split; [reflexivity|exists n; split; [reflexivity|intros; reflexivity]]|].
''']


def family(name, op, suffix, ty, base, wrap):
    rows, nums = [], []
    for m in have:
        g = re.fullmatch(r'i_%s(%s)(%s)(%s)%s' % (op, '|'.join(RELS), '|'.join(sorted(SUF, key=len, reverse=True)), '|'.join(FT), suffix), m)
        if not g:
            continue
        r, s, t = g.groups()
        rows.append('  ("%s", (R%s, %s, F%s), fun %s)' % (m[2:len(m) - len(suffix)], r, SUF[s], t, wrap % m))
        nums.append(number(r, s))
    out.append('Definition %s_base (t : ftype) (a : %s) (imm : Z) : E unit :=\n  match t with %s end.'
               % (name, ty, ' | '.join('F%s => %s' % (t, (base % t).replace('i_cmpsd ', 'i_cmpsd_xoi ')) for t in FT)))
    k = 16
    parts = []
    for c in range(0, len(rows), k):
        p = '%s_%d' % (name, c // k)
        parts.append(p)
        out.append('Definition %s : list (string * (prel * psuffix * ftype) * (%s -> E unit)) := [\n%s\n].' % (p, ty, ';\n'.join(rows[c:c + k])))
        out.append('Lemma %s_ok : Forall (compares %s_base "%s") %s.\nProof.\n%s\n  apply Forall_nil.\nQed.'
                   % (p, name, op, p, '\n'.join('  cmp_row %d.' % n for n in nums[c:c + k])))
    whole(name, parts, 'compares %s_base "%s"' % (name, op))
    print(name, len(rows))


def whole(name, parts, prop):
    out.append('Definition %s := (%s)%%list.' % (name, ' ++ '.join(parts)))
    out.append('Lemma %s_ok : Forall (%s) %s.\nProof. unfold %s. repeat (apply Forall_app; split). %s Qed.'
               % (name, prop, name, name, ' '.join('exact %s_ok.' % p for p in parts)))


P2, P3 = '(Reg * Operand)%type', '(Reg * Reg * Operand)%type'
family('sse_compare', 'cmp', '', P2, 'let (x, op) := a in i_cmp%s x op imm', "'(x, op) => %s x op")
family('avx_compare', 'vcmp', '_xxo', P3, "let '(x1, x2, op) := a in i_vcmp%s_xxoi x1 x2 op imm", "'(x1, x2, op) => %s x1 x2 op")
family('mask_compare', 'vcmp', '_kxo', P3, "let '(k, x, op) := a in i_vcmp%s_kxoi k x op imm", "'(k, x, op) => %s k x op")

for name, op, ty, base, pat, fun in [('sse_clmul', 'pclmul', P2, 'let (x, op) := a in i_pclmulqdq x op imm', 'i_pclmul%s', "'(x, op) => %s x op"),
                                     ('avx_clmul', 'vpclmul', P3, "let '(x1, x2, op) := a in i_vpclmulqdq_xxoi x1 x2 op imm", 'i_vpclmul%s', "'(x1, x2, op) => %s x1 x2 op")]:
    rows = []
    for h1 in (0, 1):
        for h2 in (0, 1):
            n = 'lh'[h1] + 'q' + 'lh'[h2] + 'qdq'
            assert pat % n in haveset
            rows.append(('  ("%s%s", (%s, %s), fun %s)' % (op, n, ['false', 'true'][h1], ['false', 'true'][h2], fun % (pat % n)), h1 + 16 * h2))
    out.append('Definition %s_base (a : %s) (imm : Z) : E unit := %s.' % (name, ty, base))
    out.append('Definition %s : list (string * (bool * bool) * (%s -> E unit)) := [\n%s\n].' % (name, ty, ';\n'.join(r for r, _ in rows)))
    out.append('Lemma %s_ok : Forall (multiplies %s_base "%s") %s.\nProof.\n%s\n  apply Forall_nil.\nQed.' % (
        name, name, op, name, '\n'.join('  apply Forall_cons; [split; [reflexivity|exists %d; split; [lia|split; [reflexivity|split; [reflexivity|intros; reflexivity]]]]|].' % n for _, n in rows)))

omit = re.findall(r'^Definition (i_\w+)', src['MnemonicOmit'], re.M)
kinds = {'xo': ('Operand', "fun x a => %s x a", 'fun x1 x2 a => %s x1 x2 a', '_xxo'),
         'xoi': ('(Operand * Z)%type', "fun x '(op, imm) => %s x op imm", "fun x1 x2 '(op, imm) => %s x1 x2 op imm", '_xxoi'),
         'xox': ('(Operand * Reg)%type', "fun x '(op, x4) => %s x op x4", "fun x1 x2 '(op, x4) => %s x1 x2 op x4", '_xxox'),
         'xi': ('Z', "fun x imm => %s x imm", 'fun x1 x2 imm => %s x1 (OReg x2) imm', '_xoi')}
done = 0
for k, (ty, f, g, suf) in kinds.items():
    ms = [m for m in omit if m.endswith('_' + k)]
    rows = []
    for m in ms:
        b = m[:-len(k) - 1]
        base = next((c for c in (b + suf, b) if c in haveset), None)
        gg = g
        if base is None and b + '_xxoip' in haveset:
            base, gg = b + '_xxoip', "fun x1 x2 '(op, imm) => %s x1 x2 op imm DefaultEncoding"
        if base is None:
            # the three-operand form takes Operand as its second argument
            base, gg = b + '_xoo', 'fun x1 x2 a => %s x1 (OReg x2) a'
        assert base in haveset, m
        rows.append('  ("%s", %s, %s)' % (m[2:], f % m, gg % base))
    name = 'omitted_' + k
    parts = []
    for c in range(0, len(rows), 32):
        p = '%s_%d' % (name, c // 32)
        parts.append(p)
        out.append('Definition %s : list (string * (Reg -> %s -> E unit) * (Reg -> Reg -> %s -> E unit)) := [\n%s\n].' % (p, ty, ty, ';\n'.join(rows[c:c + 32])))
        out.append('Lemma %s_ok : Forall omits %s.\nProof. unfold %s. repeat (apply Forall_cons; [omit_row|]). apply Forall_nil. Qed.' % (p, p, p))
    whole(name, parts, 'omits')
    done += len(rows)
    print(name, len(rows))
assert done == len(omit)
i = next(i for i, o in enumerate(out) if o.startswith('Definition omitted_'))
out.insert(i, '''Lemma w8_w8 x : w8 (w8 x) = w8 x. Proof. unfold w8. now rewrite Z.mod_mod by lia. Qed.
Ltac omit_row := cbv beta iota delta [omits]; intros; try reflexivity;
  repeat match goal with |- (let (_, _) := ?a in _) = _ => destruct a end;
  match goal with |- ?f _ _ = _ => unfold f | |- ?f _ _ _ = _ => unfold f end;
  cbv zeta; try reflexivity;
  match goal with |- ?f _ _ _ _ = _ => unfold f | |- ?f _ _ _ = _ => unfold f | |- ?f _ _ _ _ _ = _ => unfold f end; cbv zeta; rewrite ?w8_w8; reflexivity.''')
open(T + 'AliasTables.v', 'w').write('\n'.join(out) + '\n')
