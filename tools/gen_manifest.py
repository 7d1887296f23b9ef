#!/usr/bin/env python3
"""Writes MANIFEST.json; checks that every theorem named exists in rocq/theories."""
import json, re, glob
C = []
def claim(p, status, theorems, note):
    C.append({"property": p, "status": status, "theorems": theorems.split(), "note": note})
exec(open('/verif/tools/claims.py').read())
names = set()
for f in glob.glob('/verif/rocq/theories/*.v'):
    for m in re.finditer(r'^Theorem\s+(\w+)', open(f).read(), re.M): names.add(m.group(1))
for c in C:
    for t in c['theorems']:
        if t not in names: print('MISSING', c['property'], t)
used = {t for c in C for t in c['theorems']}
for t in sorted(names - used):
    if re.match(r'C\d\d', t): print('UNUSED', t)
ids = [json.loads(l)['id'] for l in open('/verif/properties.jsonl')]
for i in ids:
    if i not in [c['property'] for c in C]: print('NO CLAIM', i)
json.dump({"claims": C}, open('/verif/MANIFEST.json', 'w'), indent=1)
