#!/usr/bin/env python3
"""Writes MANIFEST.json from the table below and checks it against the theories and properties.jsonl."""
import json, re, glob, sys
C = []
def claim(p, status, thms, note): C.append(dict(property=p, status=status, theorems=thms.split(), note=note))
exec(open('/verif/tools/claims.py').read())
names = set()
for f in glob.glob('/verif/rocq/theories/*.v'):
    names |= set(re.findall(r'^(?:Theorem|Lemma|Corollary|Example)\s+(\w+)', open(f).read(), re.M))
bad = [t for c in C for t in c['theorems'] if t not in names]
props = [json.loads(l)['id'] for l in open('/verif/properties.jsonl')]
missing = [p for p in props if p not in [c['property'] for c in C]]
print('unknown theorems:', bad, 'properties without claim:', missing)
json.dump(dict(claims=C), open('/verif/MANIFEST.json', 'w'), indent=1)
