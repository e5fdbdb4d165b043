#!/usr/bin/env python3
"""Seeds a bug into a scratch copy of the model and reports which theorems break.

usage: seed.py FILE.json   (a list of {"file","def","old","new","edit","claim"})

For each entry the model is copied to /tmp/seed<pid>, the text replaced, and every
dependent file recompiled.  A lemma whose proof no longer goes through is
replaced by an axiom in the scratch copy so that the rest can be compiled; a
property theorem counts as failed if it breaks itself or if Print Assumptions
shows that it rests on a broken lemma."""
import json, os, re, shutil, subprocess, sys
from multiprocessing import Pool
ROOT = os.path.dirname(os.path.dirname(os.path.abspath(__file__)))

def W():
    return '/tmp/seed%d' % os.getpid()

def TH():
    return W() + '/theories'

def sh(cmd, t=300):
    try:
        r = subprocess.run(cmd, shell=True, cwd=W(), capture_output=True, text=True, timeout=t)
        return r.returncode, r.stdout + r.stderr, r.stdout
    except subprocess.TimeoutExpired:
        return 124, 'TIMEOUT', ''

START = re.compile(r'^\s*(?:Local\s+|Global\s+|#\[[^\]]*\]\s*)*(Theorem|Lemma|Example|Corollary|Fact|Definition|Fixpoint|Instance|Remark|Proposition)\s+(\w+)', re.M)

def deps():
    _, out, _ = sh('coqdep -Q theories Verif theories/*.v')
    d = {}
    for l in out.splitlines():
        m = re.match(r'theories/(\w+)\.vo .*?: (.*)', l)
        if m:
            d[m.group(1)] = [x for x in re.findall(r'theories/(\w+)\.vo', m.group(2))]
    return d

def order(d):
    seen, res = set(), []
    def go(f):
        if f in seen: return
        seen.add(f)
        for x in d[f]: go(x)
        res.append(f)
    for f in d: go(f)
    return res

def compile_file(f, broken):
    path = f'{TH()}/{f}.v'
    while True:
        rc, out, so = sh(f'timeout 280 coqc -Q theories Verif theories/{f}.v')
        if rc == 0:
            return so
        if rc == 124:
            return None
        m = re.search(r'line (\d+), characters (\d+)-', out)
        if not m:
            print('   ?', out[:300]); return None
        ln = int(m.group(1))
        src = open(path).read()
        lines = src.split('\n')
        pos = sum(len(x) + 1 for x in lines[:ln - 1]) + int(m.group(2))
        st = [x for x in START.finditer(src) if x.start() <= pos]
        if not st:
            print('   ?', out[:300]); return None
        s = st[-1]
        q = re.compile(r'\b(Qed|Defined)\.').search(src, s.start())
        p = re.compile(r'\bProof\b[^.]*\.').search(src, s.start())
        if not q or not p or p.start() > q.start() or p.start() > pos + 400:
            print('   cannot skip', s.group(2), out[:300]); return None
        broken.append((f, s.group(2)))
        src = src[:p.start()] + 'Admitted.' + src[q.end():]
        open(path, 'w').write(src)

def run(e):
    shutil.rmtree(W(), ignore_errors=True)
    shutil.copytree(ROOT + '/rocq', W())
    path = f"{TH()}/{e['file']}.v"
    src = open(path).read()
    n = src.count(e['old'])
    if n != 1:
        print('   BAD SEED: found', n, e['def']); return None
    open(path, 'w').write(src.replace(e['old'], e['new']))
    d = deps(); o = order(d)
    dirty, broken, failed = {e['file']}, [], []
    for f in o:
        if f in dirty or any(x in dirty for x in d[f]):
            dirty.add(f)
            out = compile_file(f, broken)
            if out is None:
                print('   file does not compile:', f)
                broken.append((f, '*'))
                return broken, ['(file %s)' % f]
            if f.endswith('Props'):
                names = re.findall(r'^Print Assumptions (\w+)\.', open(f'{TH()}/{f}.v').read(), re.M)
                chunks = re.findall(r'Closed under the global context|Axioms:\n(?:(?!Closed under|Axioms:).*\n?)*', out)
                if len(names) != len(chunks):
                    print('   mismatch', f, len(names), len(chunks))
                for nm, c in zip(names, chunks):
                    if c.startswith('Axioms'):
                        failed.append(nm)
    bt = [b for _, b in broken]
    for b in bt:
        if re.match(r'C\d\d_', b) and b not in failed:
            failed.append(b)
    return broken, failed

def one(e):
    r = run(e)
    shutil.rmtree(W(), ignore_errors=True)
    return e, r

if __name__ == '__main__':
    with Pool(4) as p:
        for e, r in p.imap(one, json.load(open(sys.argv[1])), chunksize=1):
            print('==', e['file'], e['def'], '|', e['edit'])
            if r is None: continue
            broken, failed = r
            print('   broken:', ' '.join(b for _, b in broken))
            print('   FAILED:', ' '.join(failed), flush=True)
            with open('/tmp/seed_out.jsonl', 'a') as o:
                o.write(json.dumps({"definition": e['file'] + '.' + e['def'], "edit": e['edit'],
                                    "claim": e['claim'], "failed": failed,
                                    "tightened": e.get('tightened', [])}) + '\n')
