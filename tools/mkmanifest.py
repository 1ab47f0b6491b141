#!/usr/bin/env python3
"""Write MANIFEST.json: theorems are collected from theories/Props/*.v."""
import json, re, glob, os
R = '/verif/rocq/theories/Props/'
props = [json.loads(l)['id'] for l in open('/verif/properties.jsonl')]
NOTES = json.load(open('/verif/tools/notes.json'))
claims = []
for p in props:
    thms = []
    for f in sorted(glob.glob(R + '*.v')):
        thms += re.findall(r'^Theorem (' + p + r'_\w+)', open(f).read(), re.M)
    if not thms and p not in NOTES:
        continue
    st = NOTES.get(p, {}).get('status') or ('partial' if any(t.endswith('_partial') for t in thms) else 'proved')
    claims.append({'property': p, 'status': st, 'theorems': thms, 'note': NOTES.get(p, {}).get('note', '')})
json.dump({'claims': claims}, open('/verif/MANIFEST.json', 'w'), indent=1)
print(len(claims), 'claims')
