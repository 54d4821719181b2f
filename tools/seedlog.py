#!/usr/bin/env python3
"""seedlog.py RESULT.jsonl... : append mutate.py results to seeded/LOG.jsonl, one line per attempt.

tightened.json next to the results maps an attempt id to the theorems tightened because of it;
equivalent.json maps an id to the reason why no claim is broken by the edit."""
import json, sys, os
log = '/verif/seeded/LOG.jsonl'
seen = set()
if os.path.exists(log):
    seen = {json.loads(l)['id'] for l in open(log) if l.strip()}
def side(name):
    p = '/tmp/seed/' + name
    return json.load(open(p)) if os.path.exists(p) else {}
tight, equiv = side('tightened.json'), side('equivalent.json')
with open(log, 'a') as out:
    for p in sys.argv[1:]:
        for l in open(p):
            r = json.loads(l)
            if r['id'] in seen: continue
            seen.add(r['id'])
            d = {"id": r['id'], "definition": r['file'] + ': ' + r['definition'],
                 "edit": r['edit'] + ' (' + r['old'] + '  =>  ' + r['new'] + ')', "claim": r['claim'],
                 "theorems_failed": r['theorems_failed'], "lemmas_failed": r['broken_lemmas'],
                 "examples_failed": r['examples_failed'], "tightened": tight.get(r['id'], [])}
            if r['id'] in equiv: d['note'] = equiv[r['id']]
            out.write(json.dumps(d) + '\n')
