#!/usr/bin/env python3
"""Regenerates MANIFEST.json from the theorem names found in rocq/theories.

A property is 'proved' unless one of its theorems ends in _partial or _refuted
(then it is 'partial').  NOTES holds the free-text notes."""
import json, re, glob, os
root = os.path.dirname(os.path.dirname(os.path.abspath(__file__)))
notes = json.load(open(os.path.join(root, 'scripts', 'notes.json')))
ids = [json.loads(l)['id'] for l in open(os.path.join(root, 'properties.jsonl'))]
th = {i: [] for i in ids}
listed = [l.strip() for l in open(os.path.join(root, 'rocq', '_CoqProject')) if l.strip().endswith('.v')]
for f in listed:
    if not f.endswith('Props.v'):
        continue
    for m in re.finditer(r'^Theorem (C\d+)(_\w+)', open(os.path.join(root, 'rocq', f)).read(), re.M):
        th[m.group(1)].append(m.group(1) + m.group(2))
claims = []
for i in ids:
    if not th[i]:
        continue
    part = any(t.endswith('_partial') or t.endswith('_refuted') for t in th[i])
    claims.append({"property": i, "status": "partial" if part else "proved",
                   "theorems": th[i], "note": notes.get(i, "")})
json.dump({"claims": claims}, open(os.path.join(root, 'MANIFEST.json'), 'w'), indent=1)
print(len(claims), 'claims;', 'missing:', [i for i in ids if not th[i]])
