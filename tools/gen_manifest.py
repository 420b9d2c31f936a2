#!/usr/bin/env python3
"""Writes MANIFEST.json from the theorem names in rocq/theories/Props*.v and the
status notes below.  A theorem belongs to the property its name starts with."""
import re, json, glob, os
root = os.path.dirname(os.path.dirname(os.path.abspath(__file__)))
NOTES = json.load(open(os.path.join(root, 'tools', 'status.json')))
ths = {}
for f in sorted(glob.glob(os.path.join(root, 'rocq/theories/Props*.v'))):
    for m in re.finditer(r'^(?:Theorem|Lemma|Corollary)\s+(C\d\d)_(\w+)', open(f).read(), re.M):
        ths.setdefault(m.group(1), []).append(m.group(1) + '_' + m.group(2))
claims = []
for l in open(os.path.join(root, 'properties.jsonl')):
    i = json.loads(l)['id']
    if i not in ths and i not in NOTES:
        continue
    st, note = NOTES.get(i, ['proved', ''])
    if i not in ths:
        if st != 'not_applicable':
            continue
    claims.append({'property': i, 'status': st, 'theorems': ths.get(i, []), 'note': note})
json.dump({'claims': claims}, open(os.path.join(root, 'MANIFEST.json'), 'w'), indent=1)
print(len(claims), 'claims', sum(len(c['theorems']) for c in claims), 'theorems')
