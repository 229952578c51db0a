#!/usr/bin/env python3
"""Write MANIFEST.json from the theorem names in rocq/theories (Theorem Cnn_...), notes.json and properties.jsonl."""
import json, re, glob, os
root = os.path.dirname(os.path.dirname(os.path.abspath(__file__)))
th = {}
for f in sorted(glob.glob(root + '/rocq/theories/*.v')):
    for m in re.finditer(r'^\s*Theorem\s+(C\d\d)(\w*)', open(f).read(), re.M):
        th.setdefault(m.group(1), []).append(m.group(1) + m.group(2))
notes = json.load(open(root + '/tools/notes.json'))
claims = []
for l in open(root + '/properties.jsonl'):
    p = json.loads(l)
    n = notes.get(p['id'], {})
    ts = th.get(p['id'], [])
    if not ts:
        if n.get('status') == 'not_applicable':
            claims.append({'property': p['id'], 'status': 'not_applicable', 'theorems': [], 'note': n.get('note', '')})
        continue
    st = n.get('status', 'proved')
    claims.append({'property': p['id'], 'status': st, 'theorems': ts, 'note': n.get('note', '')})
json.dump({'claims': claims}, open(root + '/MANIFEST.json', 'w'), indent=1)
print(len(claims), 'claims', sum(len(c['theorems']) for c in claims), 'theorems')
