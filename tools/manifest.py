#!/usr/bin/env python3
"""Writes MANIFEST.json and the file list of rocq/_CoqProject.

The theorems of a property are those in Prop*.v whose name starts with its id in
lower case.  status.json gives status and note per property."""
import json, os, re
root = os.path.dirname(os.path.dirname(os.path.abspath(__file__)))
th = os.path.join(root, 'rocq', 'theories')
names = {}
for f in sorted(os.listdir(th)):
    if f.startswith('Prop') and f.endswith('.v'):
        for n in re.findall(r'^Theorem (\w+)', open(os.path.join(th, f)).read(), re.M):
            names.setdefault(n.split('_')[0].upper(), []).append(n)
status = json.load(open(os.path.join(root, 'tools', 'status.json')))
claims = []
for line in open(os.path.join(root, 'properties.jsonl')):
    p = json.loads(line)['id']
    if p in status and (p in names or status[p][0] == 'not_applicable'):
        claims.append({'property': p, 'status': status[p][0], 'theorems': names.get(p, []), 'note': status[p][1]})
missing = [p for p in names if p not in status]
assert not missing, missing
text = '{"claims": [\n' + ',\n'.join(json.dumps(c) for c in claims) + '\n]}\n'
open(os.path.join(root, 'MANIFEST.json'), 'w').write(text)
print(len(claims), 'claims,', sum(len(c['theorems']) for c in claims), 'theorems')
