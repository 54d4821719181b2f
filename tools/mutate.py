#!/usr/bin/env python3
"""mutate.py MUTANTS.json OUT.jsonl [WORKERS]

Runs seeded bugs against the theorems in scratch copies of rocq/.
MUTANTS.json: list of {"id", "file", "old", "new", "definition", "edit", "claim"}.
A proof that no longer checks is admitted in the scratch copy only, so that all
broken lemmas are found; a property theorem counts as failed if its own proof
fails or if it rests (Print Assumptions) on an admitted lemma."""
import json, os, re, shutil, subprocess, sys, time
from concurrent.futures import ThreadPoolExecutor
SRC = os.environ.get('SEED_BASE', '/tmp/seed/base')

def files():
    return [l.strip() for l in open(SRC + '/_CoqProject') if l.strip().endswith('.v')]
def ordered():
    out, seen = [], set()
    def go(f):
        if f in seen: return
        seen.add(f)
        for x in DEPS.get(f, []): go(x)
        out.append(f)
    for f in files(): go(f)
    return out
def deps():
    out = subprocess.run(['coqdep', '-Q', 'theories', 'Verif'] + files(), cwd=SRC, capture_output=True, text=True).stdout
    d = {}
    for l in out.replace('\\\n', ' ').splitlines():
        if ':' not in l: continue
        a, b = l.split(':', 1)
        t = [x for x in a.split() if x.endswith('.vo')]
        if t: d[t[0][:-1]] = [x[:-1] for x in b.split() if x.endswith('.vo') and x.startswith('theories')]
    return d
HEAD = re.compile(r'^\s*(?:Local |Global |#\[[^\]]*\]\s*)*(Lemma|Theorem|Example|Corollary|Fact|Remark|Definition|Fixpoint|Instance|Program Definition)\s+([\w\']+)', re.M)

def compile(d, f, failed, note):
    for _ in range(200):
        try:
            r = subprocess.run(['coqc', '-Q', 'theories', 'Verif', f], cwd=d, capture_output=True, text=True, timeout=900)
        except subprocess.TimeoutExpired:
            note.append('timeout in ' + f); return None
        if r.returncode == 0: return r.stdout
        m = re.search(r'line (\d+), characters', r.stderr + r.stdout)
        p = d + '/' + f
        s = open(p).read()
        if not m: note.append(f + ': ' + r.stderr[:200]); return None
        lines = s.split('\n'); n = int(m.group(1))
        off = sum(len(x) + 1 for x in lines[:n - 1]) + (len(lines[n - 1]) if n <= len(lines) else 0)
        heads = [h for h in HEAD.finditer(s) if h.start() <= off]
        if not heads: note.append(f + ': ' + r.stderr[:300]); return None
        h = heads[-1]
        pr = re.compile(r'\bProof\b.*?\b(Qed|Defined)\.', re.S).search(s, h.start())
        nxt = [x for x in HEAD.finditer(s) if x.start() > h.start()]
        if not pr or h.group(1) in ('Fixpoint',) or (nxt and nxt[0].start() < pr.start()) :
            note.append('%s: %s does not compile: %s' % (f, h.group(2), r.stderr[-200:])); return None
        failed.append((f, h.group(1), h.group(2)))
        s = s[:pr.start()] + 'Admitted.' + s[pr.end():]
        open(p, 'w').write(s)
    return None

def run(m):
    d = '/tmp/seed/w_' + m['id']
    if os.path.exists(d): shutil.rmtree(d)
    shutil.copytree(SRC, d)
    subprocess.run('find . -name "*.v" -exec touch -d @0 {} +', shell=True, cwd=d)
    p = d + '/theories/' + m['file']
    s = open(p).read()
    if s.count(m['old']) < 1:
        shutil.rmtree(d); return dict(m, error='pattern not found')
    if s.count(m['old']) > 1 and not m.get('multi'):
        shutil.rmtree(d); return dict(m, error='pattern ambiguous (%d)' % s.count(m['old']))
    open(p, 'w').write(s.replace(m['old'], m['new']) if m.get('multi') else s.replace(m['old'], m['new'], 1))
    dirty = {'theories/' + m['file']}; failed = []; note = []; skipped = set(); assum = {}
    for f in ordered():
        if f in dirty or any(x in dirty for x in DEPS.get(f, [])):
            dirty.add(f)
            if any(x in skipped for x in DEPS.get(f, [])): skipped.add(f); continue
            out = compile(d, f, failed, note)
            if out is None: skipped.add(f); continue
    # property theorems resting on admitted lemmas
    bad = {n for _, _, n in failed}
    hit = []
    for f in sorted(dirty):
        if not os.path.basename(f).startswith('Props') or f in skipped: continue
        s = open(d + '/' + f).read()
        ths = re.findall(r'^Theorem\s+([\w\']+)', s, re.M)
        t = d + '/theories/Zz_chk_%s' % os.path.basename(f)
        open(t, 'w').write('From Verif Require Import %s.\n' % os.path.basename(f)[:-2] +
            ''.join('Check 0. Print Assumptions %s.\n' % x for x in ths))
        r = subprocess.run(['coqc', '-Q', 'theories', 'Verif', t], cwd=d, capture_output=True, text=True)
        parts = r.stdout.split('0\n     : nat')[1:]
        for x, q in zip(ths, parts):
            if 'Closed under the global context' not in q: hit.append(x)
    ex = [n for f, k, n in failed if os.path.basename(f).startswith('Props') and k == 'Example']
    shutil.rmtree(d)
    return dict(m, broken_lemmas=[n for _, _, n in failed], theorems_failed=hit, examples_failed=ex, note=note, skipped=sorted(skipped))

if __name__ == '__main__':
    ms = json.load(open(sys.argv[1])); DEPS = deps()
    w = int(sys.argv[3]) if len(sys.argv) > 3 else 3
    with ThreadPoolExecutor(w) as ex, open(sys.argv[2], 'a') as out:
        for r in ex.map(run, ms):
            out.write(json.dumps(r) + '\n'); out.flush()
            print(r['id'], r.get('error') or '', r.get('theorems_failed'), 'ex', r.get('examples_failed'), 'lem', len(r.get('broken_lemmas', [])), r.get('note'), flush=True)
