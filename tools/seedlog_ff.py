#!/usr/bin/env python3
"""seedlog_ff.py PREFIX RESULT.jsonl... : append to seeded/LOG.jsonl the attempts that were run until the
first failure.  notes.json next to the results maps an id to why no claim is broken by the edit,
tightened.json to the theorems tightened because of it."""
import json, sys, os
log = '/verif/seeded/LOG.jsonl'
seen = {json.loads(l)['id'] for l in open(log) if l.strip()}
def side(name):
    p = '/tmp/seed/' + name
    return json.load(open(p)) if os.path.exists(p) else {}
notes, tight = side('notes.json'), side('tightened.json')
pre = sys.argv[1]
with open(log, 'a') as out:
    for p in sys.argv[2:]:
        for l in open(p):
            r = json.loads(l); i = pre + r['id']
            if r.get('status') not in ('killed', 'SURVIVED') or i in seen: continue
            if r['status'] == 'SURVIVED' and i not in notes and i not in tight: print('unexplained', i); continue
            seen.add(i)
            th = r.get('theorem', ''); c = th[:1] == 'C' and th[1:3].isdigit()
            edit = r.get('edit') or 'automatic edit of a %s (line %d) in: %s' % (r['what'], r['line'], r['text'].strip())
            d = {"id": i, "definition": r['file'] + ': ' + r['definition'], "edit": edit + ' (' + r['old'] + '  =>  ' + r['new'] + ')',
                 "claim": r.get('claim') or "whatever the claims resting on %s say of it" % r['definition'],
                 "theorems_failed": [th] if c else [], "lemmas_failed": [th] if th and not c else [], "examples_failed": [], "tightened": tight.get(i, [])}
            d['note'] = ('the build stops at this first failure, in %s.v' % r['at'] if r['status'] == 'killed' else
                         notes.get(i) or 'survived; the theorems listed were added and fail under the edit')
            out.write(json.dumps(d) + '\n')
