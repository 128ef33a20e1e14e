#!/usr/bin/env python3
"""Write MANIFEST.json from tools/claims.txt (property | status | note) and the theorem names in theories/P_*.v."""
import re, os, json
R = os.path.join(os.path.dirname(os.path.abspath(__file__)), '..')
D = os.path.join(R, 'rocq', 'theories')
names = []
for f in sorted(os.listdir(D)):
    if f.startswith('P_') and f.endswith('.v'):
        names += re.findall(r'^Theorem (C\d\d_\w+)', open(os.path.join(D, f)).read(), re.M)
props = [json.loads(l)['id'] for l in open(os.path.join(R, 'properties.jsonl'))]
cl = {}
for l in open(os.path.join(R, 'tools', 'claims.txt')):
    if l.strip() and not l.startswith('#'):
        p, s, n = [x.strip() for x in l.split('|', 2)]
        cl[p] = (s, n)
out = []
for p in props:
    th = [n for n in names if n.startswith(p + '_')]
    s, n = cl.get(p, ('partial', ''))
    if not th:
        print('no theorem for', p); continue
    out.append({'property': p, 'status': s, 'theorems': th, 'note': n})
    if any(t.endswith('_partial') or t.endswith('_refuted') for t in th) and s == 'proved': print('proved but has partial/refuted:', p)
json.dump({'claims': out}, open(os.path.join(R, 'MANIFEST.json'), 'w'), indent=1)
print(len(out), 'claims', sum(len(c['theorems']) for c in out), 'theorems')
