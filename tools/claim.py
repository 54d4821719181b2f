#!/usr/bin/env python3
"""claim.py ID STATUS NOTE THEOREM... : add or replace one line of MANIFEST.json"""
import json, sys
p = '/verif/MANIFEST.json'
m = {c['property']: c for c in json.load(open(p))['claims']}
i, st, note, ths = sys.argv[1], sys.argv[2], sys.argv[3], sys.argv[4:]
m[i] = {"property": i, "status": st, "theorems": ths, "note": note}
with open(p, 'w') as f:
    f.write('{"claims": [\n' + ',\n'.join(' ' + json.dumps(m[k]) for k in sorted(m)) + '\n]}\n')
