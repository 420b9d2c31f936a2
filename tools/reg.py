#!/usr/bin/env python3
"""tools/reg.py File "design row" after: registers theories/File.v after another file in _CoqProject and adds a row to DESIGN.md."""
import sys, os
root = os.path.dirname(os.path.dirname(os.path.abspath(__file__)))
f, row, after = sys.argv[1:4]
p = root + '/rocq/_CoqProject'; s = open(p).read()
if f'theories/{f}.v\n' not in s:
    s = s.replace(f'theories/{after}.v\n', f'theories/{after}.v\ntheories/{f}.v\n'); open(p, 'w').write(s)
p = root + '/DESIGN.md'; s = open(p).read().split('\n')
i = max(k for k, l in enumerate(s) if l.startswith('| C'))
s.insert(i + 1, row); open(p, 'w').write('\n'.join(s))
