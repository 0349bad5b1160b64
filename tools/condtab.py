#!/usr/bin/env python3
"""Generates rocq/theories/CondTables.v: for every family of conditional methods the list (suffix, method).

Only the pairing of a suffix with the method of that name is generated here.  Which condition code belongs to a
suffix is decided in SpecCond.v, and the codes below are only the witnesses of the proofs.
"""
import re
T = '/verif/rocq/theories/'
have = set(re.findall(r'^Definition (i_\w+)', open(T + 'Mnemonic.v').read() + open(T + 'MnemonicJmp.v').read(), re.M))
apx = re.findall(r'mkAE "([^"]*)"', open(T + 'ApxTables.v').read())
CC = {'o':0,'no':1,'b':2,'c':2,'nae':2,'ae':3,'nb':3,'nc':3,'e':4,'z':4,'ne':5,'nz':5,'be':6,'na':6,'a':7,'nbe':7,
      's':8,'ns':9,'p':10,'pe':10,'np':11,'po':11,'l':12,'nge':12,'ge':13,'nl':13,'le':14,'ng':14,'g':15,'nle':15}
SCC = {k: v for k, v in CC.items() if v not in (10, 11)}
SCC.update({'t': 10, 'f': 11})
# family, type of the method, method name, suffixes, statement, proof of one case
F = [
 ('jcc', '(LabelRef -> LabelType -> M unit) * (Z -> M unit)', ['i_j%s_sj', 'i_j%s_v'], CC, None, None),
 ('setcc', 'Operand -> E unit', ['i_set%s'], CC, 'leg', 'l_set%s'),
 ('cmovcc', 'Reg -> Operand -> E unit', ['i_cmov%s_ro'], CC, 'leg', 'l_cmov%s_ro'),
 ('setcc_apx', 'Operand -> E unit', ['i_set%s'], CC, 'apx', 'set%s'),
 ('cmovcc_apx', 'Reg -> Reg -> Operand -> E unit', ['i_cmov%s_rro'], CC, 'apx', 'cmov%s/rro'),
 ('cfcmovcc', 'Operand -> Operand -> E unit', ['i_cfcmov%s_oo'], CC, 'apx', 'cfcmov%s/oo'),
 ('cfcmovcc3', 'Reg -> Reg -> Operand -> E unit', ['i_cfcmov%s_rro'], CC, 'apx', 'cfcmov%s/rro'),
 ('cmpccxadd', 'Address -> Reg -> Reg -> E unit', ['i_cmp%sxadd'], CC, 'apx', 'cmp%sxadd'),
 ('ccmpscc', 'Operand -> Operand -> Z -> E unit', ['i_ccmp%s_ooi'], SCC, 'apx', 'ccmp%s/oo'),
 ('ccmpscci', 'Operand -> Z -> Z -> E unit', ['i_ccmp%s_oii'], SCC, 'apx', 'ccmp%s/oi'),
 ('ctestscc', 'Operand -> Reg -> Z -> E unit', ['i_ctest%s_ori'], SCC, 'apx', 'ctest%s/or'),
 ('ctestscci', 'Operand -> Z -> Z -> E unit', ['i_ctest%s_oii'], SCC, 'apx', 'ctest%s/oi'),
]
out = ['''(* Generated by tools/condtab.py: the conditional methods of xbyak_mnemonic.h by suffix, and that each of them encodes the
   condition code of its suffix (SpecCond.v). *)
From Coq Require Import ZArith List Bool Lia String.
From Verif Require Import Base Types Emit Encode State Code Label Gen Mnemonic MnemonicJmp SpecX86 SpecAddr SpecIsa SpecInsn SpecLeg LegShapes LegGpr LegGpr2 LegGpr3 SpecApx ApxTables
  LegTables2 SpecCond CondFacts.
Import ListNotations.
Open Scope Z_scope.
Open Scope string_scope.
''']
for fam, ty, meths, codes, kind, lem in F:
    names = [n for n in codes if all(m % n in have for m in meths)]
    miss = [n for n in codes if n not in names]
    print(fam, len(names), 'missing', ' '.join(miss))
    body = '; '.join('("%s", %s)' % (n, ('(%s)' if len(meths) > 1 else '%s') % ', '.join(m % n for m in meths)) for n in names)
    out.append('Definition %s_methods : list (string * (%s)) := [\n  %s].' % (fam, ty, body))
    pred = fam + '_ok'
    out.append('Lemma %s_all : Forall %s %s_methods.\nProof.' % (fam, pred, fam))
    for n in names:
        k = codes[n]
        if kind is None:
            out.append('  apply Forall_cons; [exists %d; split; [cond_witness|split; intros; reflexivity]|].' % k)
        elif kind == 'leg':
            out.append('  apply Forall_cons; [exists %d; split; [cond_witness|exact %s]|].' % (k, lem % n))
        else:
            i = apx.index(lem % n)
            out.append('  apply Forall_cons; [exists %d; split; [cond_witness|exact (apx_nth %d _ eq_refl)]|].' % (k, i))
    out.append('  apply Forall_nil.\nQed.')
open(T + 'CondTables.v', 'w').write('\n'.join(out) + '\n')
