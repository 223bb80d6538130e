#!/usr/bin/env python3
"""Rebuild MANIFEST.json from the Theorem names in rocq/theories/*Props.v and notes.json."""
import glob, json, re, collections
th = collections.OrderedDict()
for f in sorted(glob.glob('/verif/rocq/theories/*Props*.v')):
    for m in re.finditer(r'^Theorem (C(\d+)\w*)', open(f).read(), re.M):
        th.setdefault('C' + m.group(2), []).append(m.group(1))
notes = json.load(open('/verif/notes.json'))
claims = []
for l in open('/verif/properties.jsonl'):
    i = json.loads(l)['id']
    if i in th:
        n = notes.get(i, {})
        part = n.get('status', 'partial' if all(t.endswith('_partial') for t in th[i]) else 'proved')
        claims.append({'property': i, 'status': part, 'theorems': th[i], 'note': n.get('note', '')})
    elif i in notes and notes[i].get('status') == 'not_applicable':
        claims.append({'property': i, 'status': 'not_applicable', 'theorems': [], 'note': notes[i]['note']})
json.dump({'claims': claims}, open('/verif/MANIFEST.json', 'w'), indent=1)
print(len(claims), 'claims', sum(len(c['theorems']) for c in claims), 'theorems')
