#!/usr/bin/env python3
"""Write MANIFEST.json from the theorem names in rocq/theories/P_*.v and status.json.
status.json: { "C01": ["proved", "note"], ... }"""
import glob, json, re, os
root = os.path.dirname(os.path.abspath(__file__))
status = json.load(open(root + '/status.json'))
thms = {}
for f in sorted(glob.glob(root + '/rocq/theories/P_*.v')):
    for m in re.finditer(r'^Theorem\s+((C\d\d+)_\w+)', open(f).read(), re.M):
        thms.setdefault(m.group(2), []).append(m.group(1))
claims = []
for line in open(root + '/properties.jsonl'):
    p = json.loads(line)['id']
    if p in status:
        s, note = status[p]
        claims.append(dict(property=p, status=s, theorems=thms.get(p, []), note=note))
    elif p in thms:
        claims.append(dict(property=p, status='partial', theorems=thms[p], note='work in progress'))
json.dump(dict(claims=claims), open(root + '/MANIFEST.json', 'w'), indent=1)
print({p: len(t) for p, t in thms.items()}, [p for p in status if p not in thms])
