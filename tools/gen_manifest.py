#!/usr/bin/env python3
"""Writes MANIFEST.json: theorem names are collected from rocq/theories/T*.v by
their property prefix; status and notes are kept in tools/notes.json."""
import glob, json, os, re
root = os.path.dirname(os.path.dirname(os.path.abspath(__file__)))
names = {}
for f in sorted(glob.glob(root + '/rocq/theories/T*.v')):
    for m in re.finditer(r'^Theorem\s+((C\d\d+)_\w+)', open(f).read(), re.M):
        names.setdefault(m.group(2), []).append(m.group(1))
notes = json.load(open(root + '/tools/notes.json'))
claims = []
for line in open(root + '/properties.jsonl'):
    p = json.loads(line)['id']
    if p in names:
        n = notes.get(p, {})
        claims.append({'property': p, 'status': n.get('status', 'proved'),
                       'theorems': names[p], 'note': n.get('note', '')})
json.dump({'claims': claims}, open(root + '/MANIFEST.json', 'w'), indent=1)
missing = [p for p in names if p not in notes]
print(len(claims), 'claims;', sum(len(c['theorems']) for c in claims), 'theorems; no note:', missing)
