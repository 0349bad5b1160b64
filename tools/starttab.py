#!/usr/bin/env python3
"""Generates rocq/theories/Start32Tables.v: the methods of Sim32Tables.v whose bytes begin alike in 32-bit and in 64-bit mode."""
import re, sys
sys.argv, argv = [sys.argv[0]], sys.argv
import simtab
sys.argv = argv
T = simtab.T
dbg = '--debug' in sys.argv
APX, SMALL = [x.split() for x in open('/verif/tools/starttab.txt').read().split('\n')[:2]]
C = 25
entries = [(n[2:] if n.startswith('i_') else n, [q for q in u if '32.' in q]) for n, b, b2, u in simtab.entries]
chunks = [entries[i:i + C] for i in range(0, len(entries), C)]
def lst(l): return '[' + '; '.join('"%s"' % n for n in l) + ']'
with open(T + 'Start32Tables.v', 'w') as o:
    o.write("""(* The methods of Sim32Tables.v: what they emit begins alike in 32-bit and in 64-bit mode.  Produced by tools/starttab.py. *)
From Coq Require Import ZArith List Bool String Lia.
From Verif Require Import Base Types Emit Encode Encode32 Mnemonic32 MnemonicAvx32 MnemonicOmit32 Spec32 SpecB32 SpecStart32 Sim32Tables Start32 Start32b Start32c.
Import ListNotations.
Open Scope Z_scope. Open Scope string_scope.

Definition apx_methods : list string :=
  %s.
Definition small_methods : list string :=
  %s.
Definition entry_a := entry_alike apx_methods small_methods.
Ltac xrow := apply Forall_cons; [let H := fresh in intros H; discriminate H|].
Ltac arow := apply Forall_cons; [apply start_row; intros o a r n e s Ho Ha Hr; cbn [b_call32 ar_o ar_a ar_r ar_n ar_e ar_s]|].
Ltac srow := apply Forall_cons; [apply small_row; [reflexivity|]; intros o a r n e s Ho Ha Hr Hq Hw; cbn [b_call32 ar_o ar_a ar_r ar_n ar_e ar_s]|].

""" % (lst(APX), lst(SMALL)))
    for k, c in enumerate(chunks):
        o.write('Lemma start%d : Forall entry_a sims%d.\nProof. unfold sims%d.\n' % (k, k, k))
        for n, u in c:
            if n in APX: o.write('xrow.\n'); continue
            t = '%sss' % ('unfold %s. ' % ', '.join(u) if u else '')
            if dbg: t = '%sfirst [ss | idtac "FAIL %s"; give_up]' % ('unfold %s. ' % ', '.join(u) if u else '', n)
            o.write('%s. { %s. }\n' % ('srow' if n in SMALL else 'arow', t))
        o.write('apply Forall_nil. %s\n' % ('Admitted.' if dbg else 'Qed.'))
    o.write('Lemma start_ok : Forall entry_a b_methods.\nProof. unfold b_methods. repeat (apply Forall_app; split); auto using %s. Qed.\n' % ', '.join('start%d' % k for k in range(len(chunks))))
