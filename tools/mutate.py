#!/usr/bin/env python3
"""tools/mutate.py mutants.json out.jsonl [first last]

Rebuilds a scratch copy of the development once per mutant and records which
statements no longer check.  Each mutant is {"def", "file", "old", "new",
"claim"}; [old] must occur exactly once in the file.  Examples and Tests.v are
left out of the scratch copy, so that only theorems can catch a mutant."""
import json, os, re, shutil, subprocess, sys
ROOT = os.path.dirname(os.path.dirname(os.path.abspath(__file__)))
BASE = '/tmp/mut/base'; WORK = '/tmp/mut/work'
STMT = re.compile(r'^(?:Local )?(Theorem|Lemma|Corollary|Fact|Remark|Proposition|Example|Definition|Fixpoint|Inductive|Record)\s+([A-Za-z0-9_\']+)', re.M)

def strip_examples(text):
    out, i = [], 0
    for m in re.finditer(r'^Example .*?Qed\.', text, re.M | re.S):
        if m.start() < i: continue
        out.append(text[i:m.start()]); i = m.end()
    out.append(text[i:])
    return ''.join(out)

def prepare():
    src = os.path.join(ROOT, 'rocq')
    os.makedirs(BASE, exist_ok=True)
    os.makedirs(BASE + '/theories', exist_ok=True)
    proj = open(src + '/_CoqProject').read().replace('theories/Tests.v\n', '')
    def put(p, t):
        if not os.path.exists(p) or open(p).read() != t: open(p, 'w').write(t)
    put(BASE + '/_CoqProject', proj)
    for line in proj.split('\n'):
        if line.startswith('theories/'):
            t = open(src + '/' + line).read()
            put(BASE + '/' + line, strip_examples(t) if '/Props' in line else t)
    subprocess.check_call('coq_makefile -f _CoqProject -o Makefile', shell=True, cwd=BASE)
    r = subprocess.run('make -j4 > build.log 2>&1', shell=True, cwd=BASE)
    if r.returncode: print(open(BASE + '/build.log').read()[-2000:]); sys.exit('base does not build')

def statement_at(path, line):
    text = open(path).read(); pos = sum(len(l) + 1 for l in text.split('\n')[:line - 1]); name = '?'
    for m in STMT.finditer(text):
        if m.start() <= pos: name = m.group(2)
        else: break
    return name

def graph():
    """name -> claims whose statement or proof refers to it, transitively"""
    body = {}
    for f in os.listdir(BASE + '/theories'):
        if not f.endswith('.v') or f.startswith(('DbEvents', 'DbText')): continue
        t = open(BASE + '/theories/' + f).read(); ms = list(STMT.finditer(t))
        for a, b in zip(ms, ms[1:] + [None]):
            body.setdefault(a.group(2), set()).update(re.findall(r"[A-Za-z_][A-Za-z0-9_']*", t[a.end():b.start() if b else None]))
    users = {}
    for n, toks in body.items():
        for k in toks:
            if k in body and k != n: users.setdefault(k, set()).add(n)
    def claims(n):
        seen, todo = {n}, [n]
        while todo:
            for u in users.get(todo.pop(), ()):
                if u not in seen: seen.add(u); todo.append(u)
        return sorted(x for x in seen if re.match(r'C\d\d_', x))
    return claims

def run(mut, claims):
    shutil.rmtree(WORK, ignore_errors=True)
    subprocess.check_call(['cp', '-a', BASE, WORK])
    p = WORK + '/theories/' + mut['file']; t = open(p).read()
    if t.count(mut['old']) != 1: return {'error': 'old occurs %d times' % t.count(mut['old'])}
    open(p, 'w').write(t.replace(mut['old'], mut['new']))
    try: subprocess.run('ulimit -v 14000000; make -k -j4 > build.log 2>&1', shell=True, cwd=WORK, timeout=1500)
    except subprocess.TimeoutExpired: return {'error': 'timeout'}
    log = open(WORK + '/build.log').read(); failed = []
    for m in re.finditer(r'File "\./theories/(\w+\.v)", line (\d+), characters [^\n]*\n(Error[^\n]*)', log):
        failed.append((m.group(1), statement_at(WORK + '/theories/' + m.group(1), int(m.group(2)))))
    hit = sorted({c for _, s in failed for c in claims(s)})
    return {'failed': ['%s:%s' % f for f in failed], 'claims': hit}

if __name__ == '__main__':
    muts = json.load(open(sys.argv[1])); out = sys.argv[2]
    if len(sys.argv) > 4: muts = muts[int(sys.argv[3]):int(sys.argv[4])]
    prepare(); cl = graph()
    for m in muts:
        r = run(m, cl); r = {**m, **r}
        open(out, 'a').write(json.dumps(r) + '\n')
        print(m['def'], '|', m.get('note', ''), '->', r.get('error') or r['failed'] or 'SURVIVED', flush=True)
