#!/usr/bin/env python3
"""Regenerate MANIFEST.json: theorem names are read from the Properties files,
status and note per property come from STATUS below."""
import json, re, glob, os
root = os.path.dirname(os.path.dirname(os.path.abspath(__file__)))
names = {}
for f in sorted(glob.glob(root + '/rocq/theories/Properties*.v')):
    for m in re.finditer(r'^Theorem (C\d\d)(_\w+)', open(f).read(), re.M):
        names.setdefault(m.group(1), []).append(m.group(1) + m.group(2))
status = json.load(open(root + '/tools/status.json'))
claims = []
for line in open(root + '/properties.jsonl'):
    pid = json.loads(line)['id']
    if pid in names:
        st, note = status.get(pid, ['proved', ''])
        claims.append({'property': pid, 'status': st, 'theorems': names[pid], 'note': note})
json.dump({'claims': claims}, open(root + '/MANIFEST.json', 'w'), indent=1)
missing = [json.loads(l)['id'] for l in open(root + '/properties.jsonl') if json.loads(l)['id'] not in names]
print('claims', len(claims), 'missing', missing)
