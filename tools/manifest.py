#!/usr/bin/env python3
"""Regenerate MANIFEST.json from the theorem names in rocq/theories/Properties_*.v and the notes below."""
import re, glob, json, os
root = os.path.dirname(os.path.dirname(os.path.abspath(__file__)))
notes = json.load(open(os.path.join(root, 'tools', 'notes.json')))
thms = {}
for f in sorted(glob.glob(os.path.join(root, 'rocq/theories/Properties_*.v'))):
    for m in re.finditer(r'^Theorem (C\d\d)(\w*)', open(f).read(), re.M):
        thms.setdefault(m.group(1), []).append(m.group(1) + m.group(2))
ids = [json.loads(l)['id'] for l in open(os.path.join(root, 'properties.jsonl')) if l.strip()]
claims = []
for i in ids:
    n = notes.get(i)
    if i not in thms and not (n and n['status'] == 'not_applicable'):
        continue
    t = thms.get(i, [])
    st = n['status'] if n else ('partial' if any(x.endswith('_partial') or x.endswith('_refuted') for x in t) else 'proved')
    claims.append({'property': i, 'status': st, 'theorems': t, 'note': n['note'] if n else ''})
json.dump({'claims': claims}, open(os.path.join(root, 'MANIFEST.json'), 'w'), indent=1)
for c in claims: print(c['property'], c['status'], len(c['theorems']))
