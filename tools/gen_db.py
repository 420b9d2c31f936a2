#!/usr/bin/env python3
"""Writes rocq/theories/DbEvents{A,B,C,D}.v: the XML events of /repo/assets/PhoneNumberMetadata.xml.

Dropped (they cannot influence the loader, see Loader.v): comments and text between elements of the
structure, and the text inside the ignored <references> elements.  White space inside regular
expressions is dropped too: they are compiled with ignore_whitespace, and the script checks that this
does not change which fixed-line and mobile patterns are textually equal (validator.rs:268-280).
"""
import re,os,sys
src=open('/repo/assets/PhoneNumberMetadata.xml').read()
TOK=re.compile(r'<!--.*?-->|<!DOCTYPE.*?\]>|<\?.*?\?>|<!\[CDATA\[.*?\]\]>|<[^>]*>|[^<]+',re.S)
toks=TOK.findall(src)
assert ''.join(toks)==src
ATTR=re.compile(r'\s*([A-Za-z]+)\s*=\s*"([^"]*)"')
def attrs(t):
    out=[];i=0
    while t[i:].strip():
        m=ATTR.match(t,i); assert m,(t,i); out.append((m.group(1),m.group(2))); i=m.end()
    assert len(set(k for k,_ in out))==len(out)
    return out
REGEX_ATTR={('territory','internationalPrefix'),('territory','nationalPrefixForParsing'),('territory','leadingDigits'),('numberFormat','pattern')}
REGEX_EL={'nationalNumberPattern','leadingDigits'}
TEXT_EL={'nationalNumberPattern','exampleNumber','leadingDigits','format','intlFormat'}
def q(s):
    assert all(32<=ord(c)<127 for c in s),s
    assert '&' not in s
    return '"'+s.replace('"','""')+'"'
strip=lambda s: re.sub(r'\s+','',s)
stack=[];events=[]  # (kind, coq text)
cur=None; pats={}
def attrs_coq(name,al):
    r=[]
    for k,v in al:
        if (name,k) in REGEX_ATTR: v=strip(v)
        r.append('(%s, %s)'%(q(k),q(v)))
    return '['+'; '.join(r)+']'
check=[]; terr={}
out=[]
for t in toks:
    if t.startswith('<!--') : continue
    if t.startswith('<!DOCTYPE'): out.append(('x','EvDocType')); continue
    assert not t.startswith('<?') and not t.startswith('<![')
    if t.startswith('</'):
        n=t[2:-1].strip(); assert stack and stack[-1]==n; stack.pop()
        if n=='territory':
            a=terr.get('fixedLine'); b=terr.get('mobile')
            assert (a is not None and a==b)==(a is not None and b is not None and strip(a)==strip(b))
            terr={}
        out.append(('end',n)); continue
    if t.startswith('<'):
        empty=t.endswith('/>')
        body=t[1:-2] if empty else t[1:-1]
        m=re.match(r'[A-Za-z]+',body); n=m.group(0); al=attrs(body[m.end():])
        if empty: out.append(('empty',n,attrs_coq(n,al)))
        else: out.append(('start',n,attrs_coq(n,al))); stack.append(n)
        continue
    if stack and stack[-1] in TEXT_EL:
        if stack[-1]=='nationalNumberPattern': terr[stack[-2]]=t
        out.append(('text',strip(t) if stack[-1] in REGEX_EL else t))
    else:
        assert not t.strip() or (stack and stack[-1]=='sourceUrl'),(t,stack)
assert not stack
# render
lines=[];i=0
terrs=[];pre=[];post=[];mode='pre';buf=None
while i<len(out):
    o=out[i]
    if o[0]=='start' and i+2<len(out) and out[i+1][0]=='text' and out[i+2][0]=='end':
        assert o[2]=='[]'; line='tx %s %s'%(q(o[1]),q(out[i+1][1])); step=3
    elif o[0]=='start': line='st %s %s'%(q(o[1]),o[2]); step=1
    elif o[0]=='end': line='en %s'%q(o[1]); step=1
    elif o[0]=='empty': line='em %s %s'%(q(o[1]),o[2]); step=1
    elif o[0]=='x': line='[%s]'%o[1]; step=1
    else: raise Exception(o)
    if o[0]=='start' and o[1]=='territory': buf=[]
    if buf is not None:
        buf.append(line)
        if o[0]=='end' and o[1]=='territory': terrs.append(buf); buf=None
    elif not terrs: pre.append(line)
    else: post.append(line)
    i+=step
print(len(terrs),pre,post)
d=os.path.join(os.path.dirname(os.path.abspath(__file__)),"../rocq/theories/")
HEAD='''(** Generated by tools/gen_db.py from /repo/assets/PhoneNumberMetadata.xml: XML events,
    territories %d to %d of %d.  See the script for what is dropped. *)
From Verif Require Import Base CountryId Types Metadata Loader DbEventsDefs.
Local Open Scope bstr_scope.

'''
n=4; per=(len(terrs)+n-1)//n
for k in range(n):
    part=terrs[k*per:(k+1)*per]
    with open(d+'DbEvents%s.v'%"ABCD"[k],'w') as f:
        f.write(HEAD%(k*per+1,k*per+len(part),len(terrs)))
        for j,b in enumerate(part):
            f.write('Definition ev_%d : list event :=\n  %s.\n\n'%(k*per+j,'\n  ++ '.join(b)))
        f.write('Definition events_%s : list (list event) := [%s].\n'%("abcd"[k],'; '.join('ev_%d'%(k*per+j) for j in range(len(part)))))
with open(d+'DbEvents.v','w') as f:
    f.write('''(** Generated by tools/gen_db.py: all XML events of
    /repo/assets/PhoneNumberMetadata.xml (see DbEventsA.v). *)
From Verif Require Import Base CountryId Types Metadata Loader DbEventsDefs DbEventsA DbEventsB DbEventsC DbEventsD.
Local Open Scope bstr_scope.

Definition db_events : list event :=
  %s
  ++ concat (events_a ++ events_b ++ events_c ++ events_d)
  ++ %s.
'''%('\n  ++ '.join(pre),'\n  ++ '.join(post)))
