#!/usr/bin/env python3
"""Regenerates MANIFEST.json: the theorem names come from rocq/theories/Prop*.v, the status and
the note of each property from tools/notes.json."""
import glob, json, os, re
root = os.path.dirname(os.path.dirname(os.path.abspath(__file__)))
names = {}
for f in sorted(glob.glob(root + '/rocq/theories/Prop*.v')):
    for n in re.findall(r'^Theorem (C\d\d_\w+)', open(f).read(), re.M):
        names.setdefault(n[:3], []).append(n)
notes = json.load(open(root + '/tools/notes.json'))
claims = []
for p in sorted(names):
    claims.append({'property': p, 'status': notes[p]['status'], 'theorems': names[p], 'note': notes[p]['note']})
json.dump({'claims': claims}, open(root + '/MANIFEST.json', 'w'), indent=1)
print(len(claims), 'claims', sum(len(c['theorems']) for c in claims), 'theorems')
