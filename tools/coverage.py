#!/usr/bin/env python3
"""For every function in the Go, assembly and C sources of /repo, list the definitions of the model
whose comment cites lines of it.

usage: coverage.py
"""
import glob, os, re
ROOT = os.path.dirname(os.path.dirname(os.path.abspath(__file__)))
funcs = []
for f in sorted(glob.glob('/repo/*.go') + glob.glob('/repo/edwards25519/*.go') + glob.glob('/repo/edwards25519/*.s')):
    if f.endswith('_test.go'): continue
    src = open(f).read().split('\n')
    for i, x in enumerate(src):
        m = re.match(r'func (?:\(\w+ \*?(\w+)\) )?(\w+)\(', x) or re.match(r'TEXT ()·(\w+)', x)
        if m:
            j = i
            if '{' in x or f.endswith('.go') and not x.rstrip().endswith(')') or f.endswith('.s'):
                while j < len(src) and src[j].rstrip() not in ('}', '\tRET', '    RET') and not src[j].strip() == 'RET': j += 1
            funcs.append((f[6:], i + 1, j + 1, (m.group(1) + '.' if m.group(1) else '') + m.group(2)))
src = open('/repo/cref/cref.c').read().split('\n')
for i, x in enumerate(src):
    m = re.match(r'(?:static )?(?:inline )?(?:unsigned )?\w+\s+(\w+)\([^;]*$', x)
    if m:
        j = i
        while src[j].rstrip() != '}': j += 1
        funcs.append(('cref/cref.c', i + 1, j + 1, m.group(1)))
cites = []
for f in sorted(glob.glob(os.path.join(ROOT, 'rocq/theories/*.v'))):
    t = open(f).read()
    for m in re.finditer(r'\(\*\*((?:(?!\*\)).)*?)\*\)\s*(?:Definition|Fixpoint|Inductive|Record|Notation|Local Notation)\s+"?(\w+)', t, re.S):
        last = None
        for c in re.finditer(r'(?:/repo/)?((?:edwards25519/|cref/)?\w+\.(?:go|s|c)):(\d+)(?:-(\d+))?', m.group(1)):
            g = c.group(1)
            if not os.path.exists('/repo/' + g): g = ('cref/' if g.endswith('.c') else 'edwards25519/') + g
            cites.append((g, int(c.group(2)), int(c.group(3) or c.group(2)), os.path.basename(f)[:-2] + '.' + m.group(2)))
for g, a, b, name in funcs:
    ds = [d for (h, x, y, d) in cites if h == g and x <= b and y >= a]
    print('%s:%d-%d %s: %s' % (g, a, b, name, ', '.join(ds) if ds else '-'))
