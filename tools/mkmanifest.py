#!/usr/bin/env python3
"""Rebuild MANIFEST.json from the theorems in *_Props.v and tools/notes.json.
A property with a theorem named ..._partial or ..._refuted gets status partial."""
import glob, json, re
thms = {}
for f in sorted(glob.glob('/verif/rocq/theories/*_Props.v')):
    for m in re.finditer(r'^Theorem (C\d\d\d?)(_\w+)', open(f).read(), re.M):
        thms.setdefault(m.group(1), []).append(m.group(1) + m.group(2))
notes = json.load(open('/verif/tools/notes.json'))
ids = [json.loads(l)['id'] for l in open('/verif/properties.jsonl') if l.strip()]
claims = []
for i in ids:
    ts = thms.get(i, [])
    if not ts:
        continue
    part = any(re.search(r'_(partial|refuted)$', t) for t in ts)
    claims.append({'property': i, 'status': 'partial' if part else 'proved',
                   'theorems': ts, 'note': notes.get(i, '')})
    if part and i not in notes:
        print('no note for partial', i)
json.dump({'claims': claims}, open('/verif/MANIFEST.json', 'w'), indent=1)
print(len(claims), 'claims;', 'missing:', [i for i in ids if i not in thms], 'unknown:', [k for k in thms if k not in ids])
