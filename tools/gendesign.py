#!/usr/bin/env python3
"""Fills the generated parts of DESIGN.md: the theorem list of section 3."""
import glob, json, re, os
root = os.path.dirname(os.path.dirname(os.path.abspath(__file__)))
thms = {}
for f in sorted(glob.glob(root + '/rocq/theories/*Props.v')):
    area = os.path.basename(f)[:-7]
    src = open(f).read()
    pa = set(re.findall(r'^Print Assumptions (\w+)\.', src, re.M))
    for n in re.findall(r'^Theorem (C\d+_\w+)', src, re.M):
        thms.setdefault(n.split('_')[0], []).append((n, area, n in pa))
out = []
for c in sorted(thms):
    for n, area, printed in thms[c]:
        if not printed:
            print('no Print Assumptions:', n)
    areas = sorted({a for _, a, _ in thms[c]})
    out.append('| %s | %s | %s |' % (c, ', '.join(a + 'Props.v' for a in areas),
               ', '.join('`%s`' % n.split('_', 1)[1] for n, _, _ in thms[c])))
p = root + '/DESIGN.md'
s = open(p).read()
b, e = '<!-- theorems -->', '<!-- end theorems -->'
i, j = s.index(b) + len(b), s.index(e)
s = s[:i] + '\n| id | file | theorems (prefix with the id) |\n|----|------|------|\n' + '\n'.join(out) + '\n' + s[j:]
open(p, 'w').write(s)
print(sum(len(v) for v in thms.values()), 'theorems listed')
