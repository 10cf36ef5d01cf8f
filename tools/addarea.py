#!/usr/bin/env python3
"""usage: addarea.py notes.json-fragment file1 file2 ...  (adds files to _CoqProject, merges notes)"""
import json, sys
frag = json.loads(sys.argv[1])
n = json.load(open('/verif/tools/notes.json'))
for k, v in frag.items(): n[k] = v if isinstance(v, dict) else {"note": v}
json.dump(n, open('/verif/tools/notes.json', 'w'), indent=0)
c = open('/verif/rocq/_CoqProject').read()
for f in sys.argv[2:]:
    if f'theories/{f}.v\n' not in c: c += f'theories/{f}.v\n'
open('/verif/rocq/_CoqProject', 'w').write(c)
