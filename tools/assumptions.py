#!/usr/bin/env python3
"""tools/assumptions.py: prints the assumptions of every theorem named in MANIFEST.json
(needs a built rocq/theories) and writes ASSUMPTIONS.txt."""
import json, os, re, subprocess, tempfile
root = os.path.dirname(os.path.dirname(os.path.abspath(__file__)))
names = [t for c in json.load(open(root + '/MANIFEST.json'))['claims'] for t in c['theorems']]
mods = [l.split('/')[1][:-2] for l in open(root + '/rocq/_CoqProject').read().split('\n') if l.startswith('theories/Props')]
with tempfile.TemporaryDirectory() as d:
    out = []
    for m in mods:
        text = open(f'{root}/rocq/theories/{m}.v').read()
        here = [n for n in names if re.search(r'^(Theorem|Lemma|Corollary)\s+%s\b' % n, text, re.M)]
        if not here: continue
        open(d + '/a.v', 'w').write(f'From Verif Require Import {m}.\n' + ''.join(f'Print Assumptions {n}.\n' for n in here))
        r = subprocess.run(['coqc', '-Q', root + '/rocq/theories', 'Verif', d + '/a.v'], capture_output=True, text=True, check=True)
        parts = re.split(r'(?=Closed under the global context|Axioms:)', r.stdout)[1:]
        assert len(parts) == len(here)
        out += [f'{n}: {p.strip()}' for n, p in zip(here, parts)]
open(root + '/ASSUMPTIONS.txt', 'w').write('\n'.join(out) + '\n')
print(len(out), 'of', len(names), 'theorems;', sum('Closed' not in o for o in out), 'with assumptions')
