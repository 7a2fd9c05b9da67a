#!/usr/bin/env python3
"""Write MANIFEST.json from the theorems found in rocq/theories (names starting with the property id)."""
import json, re, glob, os
root = os.path.join(os.path.dirname(os.path.abspath(__file__)), '..')
notes = json.load(open(os.path.join(root, 'tools', 'manifest_notes.json')))
listed = set(re.findall(r'theories/(\w+)\.v', open(os.path.join(root, 'rocq', '_CoqProject')).read()))
thms = {}
for f in sorted(glob.glob(os.path.join(root, 'rocq', 'theories', '*.v'))):
    if os.path.basename(f)[:-2] not in listed: continue
    for m in re.finditer(r'^Theorem\s+(C\d\d_\w+)', open(f).read(), re.M):
        if m.group(1)[:3] and not os.path.basename(f).startswith('Properties'):
            thms.setdefault(m.group(1)[:3], []).append(m.group(1))
claims = []
for l in open(os.path.join(root, 'properties.jsonl')):
    pid = json.loads(l)['id']
    n = notes.get(pid, {})
    ts = thms.get(pid, [])
    if not ts and not n: continue
    claims.append({'property': pid, 'status': n.get('status', 'partial'), 'theorems': ts, 'note': n.get('note', '')})
json.dump({'claims': claims}, open(os.path.join(root, 'MANIFEST.json'), 'w'), indent=1, ensure_ascii=False)
open(os.path.join(root, 'MANIFEST.json'), 'a').write('\n')
print(len(claims), 'claims', sum(len(c['theorems']) for c in claims), 'theorems')
for c in claims:
    if not c['note']: print('no note', c['property'])
