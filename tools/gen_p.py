#!/usr/bin/env python3
"""Generate theories/P_<X>.v from theories/T_<X>.v (lemmas t_Cnn_...) and theories/Ex_<X>.v (lemmas tex_Cnn_...).

A P file holds only the property theorems, each closed by the lemma of the same name, with Print Assumptions beneath,
and beside them the examples that meet their hypotheses. Also checks MANIFEST.json against the generated names."""
import re, os, json, sys
D = os.path.join(os.path.dirname(os.path.abspath(__file__)), '..', 'rocq', 'theories')
def lemmas(path, pref):
    if not os.path.exists(path): return []
    t = open(path).read()
    out = []
    for m in re.finditer(r'(\(\*\*(?:(?!\*\)).)*\*\)\n)?Lemma ' + pref + r'(C\d\d_\w+)\s*:(.*?)\.\nProof\.', t, re.S):
        out.append((m.group(2), m.group(1) or '', m.group(3)))
    return out
names = []
exs = []
for f in sorted(os.listdir(D)):
    if not (f.startswith('T_') and f.endswith('.v')): continue
    x = f[2:-2]
    ts = lemmas(os.path.join(D, f), 't_')
    if not ts: continue
    es = lemmas(os.path.join(D, 'Ex_%s.v' % x), 'tex_')
    src = open(os.path.join(D, f)).read()
    extra = [] 
    o = '(** Generated by tools/gen_p.py from T_%s.v: the property theorems, nothing else. *)\n' % x
    o += 'From Verif Require Import T_%s%s.\n' % (x, ' Ex_Base Ex_%s%s' % (x, {'Files': ' FileEx', 'Json': ' JsonEx', 'Print': ' PrintEx', 'Print2': ' PrintEx', 'Find': ' FindEx', 'Saver': ' SaverEx', 'Saver2': ' SaverEx', 'Lock': ' LockEx', 'Races': ' LockEx RaceEx', 'Multi': ' MultiEx', 'Conc': ' ConcEx', 'Life': ' LifeEx', 'Float': ' FloatEx'}.get(x, '')) if es else '')
    for l in src.split('\n'):
        if re.match(r'(Open Scope|Local Open Scope)', l): o += l + '\n'
    used = set()
    for n, c, s in ts:
        o += '\n%sTheorem %s :%s.\nProof. exact t_%s. Qed.\nPrint Assumptions %s.\n' % (c, n, s, n, n)
        names.append(n)
        for en, ec, e in es:
            if en == n or en.startswith(n + '__'):
                o += '%sExample ex_%s :%s.\nProof. exact tex_%s. Qed.\n' % (ec, en, e, en); used.add(en); exs.append(n)
    for en, ec, e in es:
        if en not in used: print('unmatched example', x, en)
    p = os.path.join(D, 'P_%s.v' % x)
    if not os.path.exists(p) or open(p).read() != o: open(p, 'w').write(o)
    pr = os.path.join(D, '..', '_CoqProject')
    t = open(pr).read()
    if 'theories/P_%s.v' % x not in t: open(pr, 'w').write(t.rstrip('\n') + '\ntheories/P_%s.v\n' % x)
print(len(names), 'theorems', len(exs), 'examples')
print('without example:', ' '.join(n for n in names if n not in exs and not n.endswith('_refuted')))
m = json.load(open(os.path.join(D, '..', '..', 'MANIFEST.json')))
listed = [t for c in m['claims'] for t in c['theorems']]
print('not in manifest:', ' '.join(n for n in names if n not in listed))
print('manifest names missing:', ' '.join(n for n in listed if n not in names))
