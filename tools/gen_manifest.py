#!/usr/bin/env python3
"""Write MANIFEST.json from the table below, checking every theorem name
against the theories."""
import json, re, os, glob
root = os.path.dirname(os.path.dirname(os.path.abspath(__file__)))
names = set()
for f in glob.glob(root + '/rocq/theories/*.v'):
    names |= set(re.findall(r'^\s*Theorem\s+(\w+)', open(f).read(), re.M))
claims = []
def claim(pid, status, theorems, note):
    for t in theorems:
        if t not in names:
            print('MISSING theorem', pid, t)
    claims.append({"property": pid, "status": status, "theorems": theorems, "note": note})
exec(open(root + '/tools/claims.py').read())
props = [json.loads(l)['id'] for l in open(root + '/properties.jsonl')]
have = [c['property'] for c in claims]
for p in props:
    if p not in have:
        print('no claim yet for', p)
used = {t for c in claims for t in c['theorems']}
for n in sorted(names):
    if re.match(r'C\d\d', n) and n not in used:
        print('unlisted theorem', n)
claims.sort(key=lambda c: c['property'])
json.dump({"claims": claims}, open(root + '/MANIFEST.json', 'w'), indent=1)
