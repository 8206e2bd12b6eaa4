#!/usr/bin/env python3
"""Write MANIFEST.json from the theorem names in rocq/theories/P_*.v."""
import glob, json, os, re
from manifest_notes import NOTES, PARTIAL
root = os.path.dirname(os.path.dirname(os.path.abspath(__file__)))
thms = {}
for f in sorted(glob.glob(root + '/rocq/theories/P_*.v')):
    for m in re.finditer(r'^Theorem (C\d+)(\w*)', open(f).read(), re.M):
        thms.setdefault(m.group(1), []).append(m.group(1) + m.group(2))
props = [json.loads(l)['id'] for l in open(root + '/properties.jsonl')]
claims = []
for p in props:
    if p not in thms:
        print('no theorem yet:', p)
        continue
    status = 'partial' if p in PARTIAL or any(t.endswith('_partial') for t in thms[p]) else 'proved'
    claims.append({'property': p, 'status': status, 'theorems': thms[p],
                   'note': NOTES.get(p, '')})
json.dump({'claims': claims}, open(root + '/MANIFEST.json', 'w'), indent=1)
