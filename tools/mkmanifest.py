#!/usr/bin/env python3
"""Writes MANIFEST.json from the theorem names in the Properties_*.v files.

A theorem named Cnn_... belongs to property Cnn."""
import glob, json, os, re
root = os.path.dirname(os.path.dirname(os.path.abspath(__file__)))
props = [json.loads(l)['id'] for l in open(root + '/properties.jsonl')]
notes = json.load(open(root + '/tools/notes.json'))
thms = {}
for f in sorted(glob.glob(root + '/rocq/theories/Properties_*.v')):
    for m in re.finditer(r'^Theorem\s+(\w+)', open(f).read(), re.M):
        n = m.group(1)
        k = re.match(r'C(\d\d)_', n)
        if k:
            thms.setdefault('C' + k.group(1), []).append(n)
claims = []
for p in props:
    ts = thms.get(p, [])
    n = notes.get(p, {})
    st = n.get('status', 'proved' if ts else 'partial')
    claims.append({'property': p, 'status': st, 'theorems': ts,
                   'note': n.get('note', '' if ts else 'not proved yet')})
json.dump({'claims': claims}, open(root + '/MANIFEST.json', 'w'), indent=1)
for c in claims:
    print(c['property'], c['status'], len(c['theorems']))
