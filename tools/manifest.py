#!/usr/bin/env python3
"""Regenerates MANIFEST.json: the theorems of each property are those named Cnn_* in rocq/theories/Properties."""
import json, re, glob, os
root = os.path.dirname(os.path.dirname(os.path.abspath(__file__)))
props = [json.loads(l) for l in open(root + '/properties.jsonl')]
ths = {}
for f in sorted(glob.glob(root + '/rocq/theories/Properties/*.v')):
    for m in re.finditer(r'^\s*(?:Theorem|Corollary)\s+((C\d\d)_\w+)', open(f).read(), re.M):
        ths.setdefault(m.group(2), []).append(m.group(1))
notes = json.load(open(root + '/tools/notes.json'))
claims = []
for p in props:
    i = p['id']
    if i in ths:
        st = notes.get(i, {}).get('status', 'proved')
        if st == 'proved' and any(t.endswith('_partial') for t in ths[i]): st = 'partial'
        claims.append({'property': i, 'status': st, 'theorems': ths[i], 'note': notes.get(i, {}).get('note', '')})
json.dump({'claims': claims}, open(root + '/MANIFEST.json', 'w'), indent=1)
print(len(claims), 'claims of', len(props), 'properties;', sum(len(c['theorems']) for c in claims), 'theorems')
print('missing:', [p['id'] for p in props if p['id'] not in ths])
