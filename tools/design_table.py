#!/usr/bin/env python3
"""Refresh the generated tables of DESIGN.md (between the marker comments):
the files of the development and, per property, what was proved."""
import json, os, re
root = os.path.dirname(os.path.dirname(os.path.abspath(__file__)))
th = root + '/rocq/theories/'
MODEL = {'Base', 'Types', 'Encode', 'Decode', 'Arrays', 'Codec', 'Protocol', 'Message', 'Framing', 'MessageOps',
         'Engine', 'State', 'Session', 'SessionStep', 'Connection', 'Handshake', 'KeepAlive', 'Control', 'Router', 'TwoPeers'}
MODEL |= set(os.environ.get('MORE_MODEL', '').split())
for line in open(root + '/tools/model_files.txt'):
    MODEL.add(line.strip())

def files():
    rows = ['| file | kind | content |', '|------|------|---------|']
    for l in open(root + '/rocq/_CoqProject'):
        if not l.startswith('theories/'):
            continue
        f = l.strip()[9:]
        s = open(th + f).read()
        m = re.match(r"\(\*\* \* (.*?)(?:\n\n|\*\))", s, re.S)
        t = ' '.join(m.group(1).split()).replace('[', '`').replace(']', '`')
        b = f[:-2]
        kind = ('theorems' if b.startswith('Properties') else 'specification' if b.startswith('Spec') else
                'examples' if b == 'Scenario' else 'model' if b in MODEL else 'proofs')
        rows.append(f'| `{f}` | {kind} | {t} |')
    return '\n'.join(rows)

def claims():
    titles = {json.loads(l)['id']: json.loads(l)['title'] for l in open(root + '/properties.jsonl')}
    rows = ['| id | property | status | result |', '|----|----------|--------|--------|']
    for c in json.load(open(root + '/MANIFEST.json'))['claims']:
        rows.append(f"| {c['property']} | {titles[c['property']]} | {c['status']} | {c['note'] or 'As stated.'} |")
    return '\n'.join(rows)

p = root + '/DESIGN.md'
s = open(p).read()
for name, f in (('files', files), ('claims', claims)):
    s = re.sub(f'(<!-- {name} -->\n).*?(<!-- end {name} -->)', lambda m: m.group(1) + f() + '\n' + m.group(2), s, flags=re.S)
open(p, 'w').write(s)
