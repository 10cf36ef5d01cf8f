#!/usr/bin/env python3
"""Write /verif/MANIFEST.json from the theorem names in rocq/theories/*Props.v.
A theorem Cnn_... belongs to property Cnn.  tools/notes.json holds the notes and the
properties whose status is not simply 'proved'."""
import glob, json, re
notes = json.load(open('/verif/tools/notes.json'))
thms = {}
for f in sorted(glob.glob('/verif/rocq/theories/*Props.v')):
    for n in re.findall(r'(?m)^Theorem\s+(C\d\d\d?_[\w\']+)', open(f).read()):
        thms.setdefault(n.split('_')[0], []).append(n)
claims = []
for line in open('/verif/properties.jsonl'):
    pid = json.loads(line)['id']
    t = thms.get(pid, [])
    n = notes.get(pid, {})
    if not t and n.get('status') != 'not_applicable':
        continue
    status = n.get('status') or ('partial' if any(x.endswith('_partial') for x in t) else 'proved')
    claims.append({'property': pid, 'status': status, 'theorems': t, 'note': n.get('note', '')})
json.dump({'claims': claims}, open('/verif/MANIFEST.json', 'w'), indent=1)
print(len(claims), 'claims,', sum(len(c['theorems']) for c in claims), 'theorems')
