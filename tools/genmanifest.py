#!/usr/bin/env python3
"""Write MANIFEST.json from the property theorems in rocq/theories/Prop_*.v and tools/notes.json."""
import re, glob, json, os
base = os.path.join(os.path.dirname(os.path.abspath(__file__)), '..')
notes = json.load(open(os.path.join(base, 'tools', 'notes.json')))
thms = {}
for f in sorted(glob.glob(os.path.join(base, 'rocq/theories/Prop_*.v'))):
    for m in re.finditer(r'^Theorem (C(\d\d+)_\w+)', open(f).read(), re.M):
        thms.setdefault('C' + m.group(2), []).append(m.group(1))
claims = []
for l in open(os.path.join(base, 'properties.jsonl')):
    p = json.loads(l)['id']
    t = thms.get(p, [])
    n = notes.get(p, {})
    if not t: continue
    claims.append({'property': p, 'status': n.get('status', 'partial' if any(x.endswith('_partial') for x in t) else 'proved'),
                   'theorems': t, 'note': n.get('note', '')})
json.dump({'claims': claims}, open(os.path.join(base, 'MANIFEST.json'), 'w'), indent=1)
print(len(claims), 'claims', sum(len(c['theorems']) for c in claims), 'theorems')
