#!/usr/bin/env python3
"""Generate theories/Ex_<X>.v from tools/examples.txt and the statements of the lemmas t_Cnn_... in theories/T_<X>.v.

Each line of examples.txt:   theorem[__suffix] | x := witness ; y := witness ; ... | extra conjuncts | tactic
Variables that are not named get the default witness below.
The example says: there are values for the variables of the theorem, the witnesses, that meet all its hypotheses
(and the extra conjuncts, which show the case is not a trivial one)."""
import re, os, sys
R = os.path.join(os.path.dirname(os.path.abspath(__file__)), '..')
D = os.path.join(R, 'rocq', 'theories')
sys.path.insert(0, os.path.join(R, 'tools'))
def lemmas(path):
    t = open(path).read()
    return {m.group(1): m.group(2) for m in re.finditer(r'Lemma t_(C\d\d_\w+)\s*:(.*?)\.\nProof\.', t, re.S)}
def depth0(s, pat):
    """positions where pat occurs outside brackets"""
    d = 0; out = []
    for i, c in enumerate(s):
        if c in '([{': d += 1
        elif c in ')]}': d -= 1
        elif d == 0 and s.startswith(pat, i): out.append(i)
    return out
def split(stmt):
    s = ' '.join(stmt.split())
    binders = ''
    if s.startswith('forall '):
        i = depth0(s, ',')[0]
        binders = s[7:i]; s = s[i+1:].strip()
    prem = []
    while True:
        if re.match(r'(exists|if|match|forall)\b', s): break
        p = depth0(s, ' -> ')
        if not p: break
        seg = s[:p[0]]
        if depth0(seg, 'forall ') or depth0(seg, 'exists ') or depth0(seg, '/\\'): break
        prem.append(seg); s = s[p[0]+4:].strip()
    return binders, prem
def names(b):
    n = []
    for m in re.finditer(r'\(([^:()]*):[^()]*\)|(\S+)', b.split(' : ')[0] if '(' not in b else b):
        n += m.group(1).split() if m.group(1) else [m.group(2)]
    return n
DEF = {'b': 'true', 'ord': 'id_order', 'w': 'W', 'o': '0', 'f': '0', 'r': '0', 's': '10', 'a': '11', 'pv': 'o', 'ib': 'false', 'ie': 'false',
       'p': 'None', 'amt': 'None', 'ev': 'bv', 'ob': 'ob_at w o', 'sb': 'ob_at w s', 'ab': 'ob_at w a', 'rf': 'rf_at w f', "ob'": "ob_at w' o",
       "sb'": "ob_at w' s", 'rev': 'false', 'x': '10', 'y': '11', 'z': '12', 'xb': 'ob_at w x', 'yb': 'ob_at w y', 'zb': 'ob_at w z'}
def subst(t, env):
    """replace variables by their witnesses"""
    def rep(m):
        v = m.group(0)
        return '(%s)' % env[v] if v in env else v
    return re.sub(r'"[^"]*"|[A-Za-z_][A-Za-z_0-9\']*', rep, t)
def witnesses(b, prem, given):
    env = {}
    st = [re.match(r"step ord (\S+) (\w+|\(.*\)) = Some \((\S+), (?:(\w+)|(ORes|OBool) (\w+))\)$", p) for p in prem]
    st = [m for m in st if m]
    for v in names(b):
        if v in given: env[v] = subst(given[v], env); continue
        m = [m for m in st if v in (m.group(3), m.group(4), m.group(6))]
        if m:
            m = m[0]
            for u in names(b):  # variables of the operation that come later
                if u in given and u not in env and u in re.findall(r"[A-Za-z_0-9']+", m.group(2)): env[u] = subst(given[u], env)
            op = subst(m.group(2), {**{k: d for k, d in DEF.items() if k in names(b)}, **env})
            w0 = subst(m.group(1), env)
            env[v] = ('nw %s %s' if v == m.group(3) else 'out_of %s %s' if m.group(4) else 'res_of %s %s' if m.group(5) == 'ORes' else 'match out_of %s %s with OBool b => b | _ => false end') % (w0, op)
            continue
        if v in DEF: env[v] = subst(DEF[v], {**{k: d for k, d in DEF.items() if k in names(b)}, **given, **env}); continue
        print('no witness for', v, 'in', b)
        env[v] = '_'
    return [env[v] for v in names(b)]
ex = {}
for l in open(os.path.join(R, 'tools', 'examples.txt')):
    l = l.rstrip('\n')
    if not l.strip() or l.startswith('#'): continue
    parts = [p.strip() for p in re.split(r'\s\|(?=\s|$)', l)] + ['', '', '']
    ex.setdefault(parts[0].split('__')[0], []).append(parts)
for f in sorted(os.listdir(D)):
    if not (f.startswith('T_') and f.endswith('.v')): continue
    x = f[2:-2]
    ls = lemmas(os.path.join(D, f))
    mine = [n for n in ls if n in ex]
    if not mine: continue
    pr = open(os.path.join(R, 'rocq', '_CoqProject')).read()
    o = '(** Generated by tools/gen_ex.py from tools/examples.txt. *)\nFrom Verif Require Import T_%s Ex_Base%s.\nOpen Scope %s.\n' % (x, {'Files': ' FileEx', 'Json': ' JsonEx', 'Print': ' PrintEx', 'Print2': ' PrintEx', 'Find': ' FindEx', 'Saver': ' SaverEx', 'Saver2': ' SaverEx', 'Lock': ' LockEx', 'Races': ' LockEx RaceEx', 'Multi': ' MultiEx', 'Conc': ' ConcEx', 'Life': ' LifeEx', 'Float': ' FloatEx'}.get(x, ''), re.findall(r'Open Scope (\w+)', open(os.path.join(D, f)).read())[0])
    for n in mine:
        b, prem = split(ls[n])
        for parts in ex.pop(n):
            given = dict(re.split(r'\s*:=\s*', p.strip(), 1) for p in parts[1].split(' ; ')) if parts[1] else {}
            for g in given:
                if g not in names(b): print('no variable', g, 'in', parts[0])
            wit0 = dict(zip(names(b), witnesses(b, prem, given)))
            txt = ' '.join(prem + [parts[2]])
            used = [v for v in names(b) if re.search(r"(?<![\w'])%s(?![\w'])" % re.escape(v), txt)]
            ty = {v: m.group(0) for m in re.finditer(r'\(([^:()]*):[^()]*\)', b) for v in m.group(1).split() if len(m.group(1).split()) == 1}
            b2 = ' '.join(ty.get(v, v) for v in used)
            wit = ['(%s)' % wit0[v] for v in used]
            cs = prem + ([parts[2]] if parts[2] else [])
            body = ' /\\\n    '.join('(%s)' % c if re.search(r'\\/|\bforall\b|\bexists\b', c) and not c.startswith('(') else c for c in cs)
            tac = parts[3] or 'ex'
            o += '\nLemma tex_%s :\n  %s%s.\nProof. %s%s. Qed.\n' % (parts[0], 'exists %s,\n    ' % re.sub(r"\b(k'?)(?=\s|$)", r'(\1 : %s)' % ('fkind' if x == 'Float' else 'string'), b2) if used else '', body, 'exists %s; ' % ', '.join(wit) if wit else '', tac)
    p = os.path.join(D, 'Ex_%s.v' % x)
    if not os.path.exists(p) or open(p).read() != o: open(p, 'w').write(o)
    if 'theories/Ex_%s.v' % x not in pr:
        pr = re.sub(r'\ntheories/P_', '\ntheories/Ex_%s.v\ntheories/P_' % x, pr, 1)
        open(os.path.join(R, 'rocq', '_CoqProject'), 'w').write(pr)
for n in ex: print('no theorem for example', n)
