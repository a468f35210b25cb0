#!/usr/bin/env python3
"""Append the records of mutation logs to seeded/LOG.jsonl, skipping those already there.

usage: addlog.py LOG.jsonl..."""
import json, os, sys
out = os.path.dirname(os.path.dirname(os.path.abspath(__file__))) + '/seeded/LOG.jsonl'
old = open(out).read().splitlines() if os.path.exists(out) else []
seen = {(json.loads(l)['definition'], json.loads(l)['edit']) for l in old}
new = []
for f in sys.argv[1:]:
    for l in open(f):
        r = json.loads(l)
        if r.get('error') or (r['definition'], r['edit']) in seen:
            continue
        r.pop('stuck', None)
        new.append(r)
with open(out, 'a') as o:
    for r in new:
        o.write(json.dumps(r) + '\n')
print(len(new), 'added')
