#!/usr/bin/env python3
"""Writes rocq/theories/DbText{A..F}.v: the bytes of /repo/assets/PhoneNumberMetadata.xml, verbatim.

The file is cut after "<territories>" and after every "</territory>"; each part is a list of string
literals (cut into pieces of some 2000 bytes, and inside words that are Coq commands, so that no line
of a comment in the metadata looks like one).  With --check the theories are read back and compared
with the file instead.
"""
import re,sys
SRC='/repo/assets/PhoneNumberMetadata.xml'
OUT='/verif/rocq/theories/DbText%s.v'
WORDS=re.compile(r'\b(variables?|parameters?|axioms?|hypothes[ie]s|conjecture|admit(ted)?|abort|load|reset|back|undo|restart|redirect|'
  r'elpi|unset|set|from|local|global|time|timeout|add|typing|declare|module|include|nested|context|obligations?|primitive|drop|require|defined|qed|section|end|fail|check|print|import|export)\b',re.I)
s=open(SRC,encoding='utf8').read()
NAMES='ABCDEF'
def cut(t):
    i=t.index('<territories>')+len('<territories>'); parts=[t[:i]]
    while True:
        j=t.find('</territory>',i)
        if j<0: break
        j+=len('</territory>'); parts.append(t[i:j]); i=j
    parts.append(t[i:]); return parts
def pieces(p):
    cuts={0,len(p)}
    for m in WORDS.finditer(p): cuts.add(m.start()+2)
    last=0
    for m in re.finditer('\n',p):
        if m.end()-last>2000: cuts.add(m.end()); last=m.end()
    c=sorted(cuts); return [p[a:b] for a,b in zip(c,c[1:])]
lit=lambda x:'"'+x.replace('"','""')+'"'
parts=cut(s); assert ''.join(parts)==s
if '--check' in sys.argv:
    got=''
    for n in NAMES:
        v=open(OUT%n,encoding='utf8').read(); v=v[v.index(':='):]
        got+=''.join(m.group(1).replace('""','"') for m in re.finditer(r'"((?:[^"]|"")*)"',v))
    assert got==s; print('DbText*.v spell out',SRC,len(s.encode()),'bytes'); sys.exit()
groups=[[] for _ in NAMES]; size=0; total=len(s)
for p in parts:
    groups[min(len(NAMES)-1,size*len(NAMES)//total)].append(p); size+=len(p)
for n,g in zip(NAMES,groups):
    with open(OUT%n,'w',encoding='utf8') as f:
        f.write('(** Generated by tools/gen_text.py: the text of /repo/assets/PhoneNumberMetadata.xml,\n    part %s of %s, cut after every territory. *)\nFrom Verif Require Import Base.\nLocal Open Scope bstr_scope.\n\n'%(n,NAMES[-1]))
        f.write('Definition text_%s : list (list bstr) :=\n [[%s]].\n'%(n.lower(),'];\n  ['.join(';\n   '.join(lit(x) for x in pieces(p)) for p in g)))
    print(n,len(g),sum(map(len,g)))
