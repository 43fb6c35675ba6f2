#!/usr/bin/env python3
"""Regenerate MANIFEST.json from tools/claims.json and check that every theorem exists."""
import json, re, glob, os
root = os.path.dirname(os.path.dirname(os.path.abspath(__file__)))
names = set()
for f in glob.glob(root + '/rocq/theories/T*.v'):
    names |= set(re.findall(r'^ *Theorem (\w+)', open(f).read(), re.M))
claims = json.load(open(root + '/tools/claims.json'))
props = [json.loads(l)['id'] for l in open(root + '/properties.jsonl')]
out = []
for p in props:
    c = claims.get(p, {})
    th = sorted(n for n in names if n.startswith(p + '_'))
    if not th:
        out.append(dict(property=p, status=c.get('status', 'not_applicable'), theorems=[], note=c.get('note', 'not proved yet')))
        continue
    out.append(dict(property=p, status=c.get('status', 'proved'), theorems=th, note=c.get('note', '')))
json.dump({'claims': out}, open(root + '/MANIFEST.json', 'w'), indent=1)
left = [n for n in names if n.split('_')[0] not in props]
print(len(names), 'theorems;', 'unassigned:', left)
print('without theorems:', [o['property'] for o in out if not o['theorems']])
