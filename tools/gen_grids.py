#!/usr/bin/env python3
"""Transcribe the static angular grids of the repository into the Coq model.

usage: gen_grids.py REPO OUTDIR

Reads include/integratorxx/quadratures/s2/<family>/<family>_<n>.hpp as text and writes
Model/GridsLL.v, GridsDelley.v, GridsAB.v, GridsWomersley.v. Every file is written as a list of
point blocks in the order of the source; before anything is written the blocks are expanded again
with the patterns of Model/GridCode.v (parsed from that file) and compared, literal by literal, with
the numbers in the source text.
"""
import re, sys, glob, os
REPO, OUT = sys.argv[1], sys.argv[2]
BASE = os.path.join(REPO, 'include/integratorxx/quadratures/s2')
WOMERSLEY_MAX = 513

def lit(t):
    """decimal literal text -> (m, e) with value m * 10^-e, e >= 0, no trailing zeros"""
    m = re.fullmatch(r'([-+]?)(\d+)\.(\d*)(?:[eE]([-+]?\d+))?', t)
    sg, a, b, x = m.groups()
    v, e = int(a + b), len(b) - int(x or 0)
    if v == 0: return (0, 0)
    while v % 10 == 0 and e > 0: v //= 10; e -= 1
    while e < 0: v *= 10; e += 1
    return (-v if sg == '-' else v, e)

NUM = r'[-+]?\d+\.\d*(?:[eE][-+]?\d+)?'
def array(body):
    toks = [x.strip() for x in body.split(',')]
    if toks and toks[-1] == '': toks.pop()
    assert all(re.fullmatch(NUM, x) for x in toks), [x for x in toks if not re.fullmatch(NUM, x)][:3]
    return [lit(x) for x in toks]

def load(fam, n):
    s = open(f'{BASE}/{fam}/{fam}_{n}.hpp').read()
    s = re.sub(r'/\*.*?\*/', '', s, flags=re.S); s = re.sub(r'//[^\n]*', '', s)
    assert f'struct {fam}_{n} ' in s
    pts = re.search(r'static constexpr std::array<\s*cartesian_pt_t<T>\s*,\s*%d\s*>\s*points\s*=\s*\{(.*?)\}\s*;' % n, s, re.S).group(1)
    p = array(pts); assert len(p) == 3 * n, (fam, n, len(p))
    p = [tuple(p[3*i:3*i+3]) for i in range(n)]
    if fam == 'womersley':
        assert re.search(r'static constexpr auto weights\s*=\s*detail::create_array<\s*%d\s*,\s*T\s*>\(\s*4\.0\s*\*\s*M_PI\s*/\s*%d\.0\s*\)\s*;' % (n, n), s), n
        return p, None
    w = array(re.search(r'static constexpr std::array<\s*T\s*,\s*%d\s*>\s*weights\s*=\s*\{(.*?)\}\s*;' % n, s, re.S).group(1))
    assert len(w) == n
    return p, w

def sizes(fam):
    return sorted(int(m.group(1)) for m in (re.search(r"_(\d+)\.hpp$", f) for f in glob.glob(f"{BASE}/{fam}/{fam}_*.hpp")) if m)

# ---- patterns, read from GridCode.v -------------------------------------------------
code = open(os.path.join(OUT, 'GridCode.v')).read()
def pattern(name):
    m = re.search(r'Definition %s ((?:\([^)]*\) )?):.*?:=\s*(.*?)\.\n' % name, code, re.S)
    args = re.findall(r'\w+', m.group(1).split(':')[0]) if m.group(1) else []
    body = m.group(2)
    pts = re.findall(r'\(([^(),]+),([^(),]+),([^(),]+)\)', body)
    def f(vals):
        env = dict(zip(args, vals))
        def ev(t):
            t = t.strip()
            if t == 'o': return (0, 0)
            if t[0] == '-': v = env[t[1:]]; return (-v[0], v[1])
            return env[t]
        return [tuple(ev(t) for t in p) for p in pts]
    f.nargs = len(args); f.n = len(pts)
    return f
PAT = {k: pattern(k) for k in ['ll6','ll8','ll12','ll24','ll24o','ll48','de6','de8','de12','de24','de24o','de48','ab12','ab60']}
CON = {'ll6':'LL6','ll8':'LL8','ll12':'LL12','ll24':'LL24','ll24o':'LL24o','ll48':'LL48',
       'de6':'DE6','de8':'DE8','de12':'DE12','de24':'DE24','de24o':'DE24o','de48':'DE48','ab12':'AB12','ab60':'AB60'}

def args_of(name, q):
    """the arguments of a block whose points are q, from the positions of the letters in its pattern"""
    m = re.search(r'Definition %s \(([^)]*)\)' % name, code)
    names = re.findall(r'\w+', m.group(1).split(':')[0])
    body = re.search(r'Definition %s .*?:=\s*(.*?)\.\n' % name, code, re.S).group(1)
    pts = re.findall(r'\(([^(),]+),([^(),]+),([^(),]+)\)', body)
    env = {}
    for p, v in zip(pts, q):
        for t, x in zip(p, v):
            t = t.strip()
            if t in names: env.setdefault(t, x)
            elif t[0] == '-' and t[1:] in names: env.setdefault(t[1:], (-x[0], x[1]))
    return [env[a] for a in names]

def encode(fam, p, w):
    cand = {'lebedev_laikov': ['ll6','ll8','ll12','ll24','ll24o','ll48'],
            'delley': ['de6','de8','de12','de24','de24o','de48'], 'ahrens_beylkin': ['ab12','ab60']}[fam]
    out = []; i = 0
    while i < len(p):
        for name in cand:
            k = PAT[name].n
            if i + k > len(p) or len(set(w[i:i+k])) != 1: continue
            a = args_of(name, p[i:i+k])
            if PAT[name](a) == p[i:i+k]: break
        else:
            raise SystemExit(f'no block fits at {i}')
        out.append((name, a, w[i])); i += k
    # re-expansion
    P = []; W = []
    for name, a, x in out:
        q = PAT[name](a); P += q; W += [x] * len(q)
    assert P == p and W == w
    return out

def s(d): return '(%d,%d)' % d
HEAD = '''(** Generated by tools/gen_grids.py from the text of the repository: %s.
    Each definition transcribes the arrays of one file, named in its comment, in the order of the file. *)
From Coq Require Import ZArith List.
From Verif Require Import Model.GridCode.
Import ListNotations.
Local Open Scope Z_scope.
'''
def nlines(fam, n):
    return open(f'{BASE}/{fam}/{fam}_{n}.hpp').read().count('\n')
for fam, short, modname in [('lebedev_laikov','ll','GridsLL'),('delley','de','GridsDelley'),('ahrens_beylkin','ab','GridsAB')]:
    o = [HEAD % f'quadratures/s2/{fam}/{fam}_*.hpp']
    for n in sizes(fam):
        p, w = load(fam, n)
        b = encode(fam, p, w)
        o.append(f'\n(** {fam}/{fam}_{n}.hpp:1-{nlines(fam,n)}. *)\nDefinition {short}_{n} : coded := [')
        o.append(';\n'.join('  (%s%s, %s)' % (CON[c], ''.join(' ' + s(x) for x in a), s(x)) for c, a, x in b) + '].\n')
    o.append(f'\n(** All transcribed files of quadratures/s2/{fam}/, by suffix (each entry cites its lines 1 ff. above). *)\nDefinition {short}_grids : list (Z * coded) := [\n  ')
    o.append('; '.join(f'({n}, {short}_{n})' for n in sizes(fam)) + '].\n')
    open(f'{OUT}/{modname}.v', 'w').write(''.join(o))
o = [HEAD % 'quadratures/s2/womersley/womersley_*.hpp (points; sizes up to %d)' % WOMERSLEY_MAX]
ns = [n for n in sizes('womersley') if n <= WOMERSLEY_MAX]
for n in ns:
    p, _ = load('womersley', n)
    o.append(f'\n(** womersley/womersley_{n}.hpp:1-{nlines("womersley",n)}. *)\nDefinition wo_{n} : list lit3 := [')
    o.append(';\n'.join('  (%s,%s,%s)' % tuple(map(s, q)) for q in p) + '].\n')
o.append('\n(** All transcribed files of quadratures/s2/womersley/, by suffix (each entry cites its lines 1 ff. above). *)\nDefinition wo_grids : list (Z * list lit3) := [\n  ')
o.append('; '.join(f'({n}, wo_{n})' for n in ns) + '].\n')
open(f'{OUT}/GridsWomersley.v', 'w').write(''.join(o))
