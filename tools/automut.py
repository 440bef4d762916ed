#!/usr/bin/env python3
"""Random mutation test.  For every definition of the model files draws small edits (a constant, an operator, a variable),
rebuilds what depends on it and stops at the first proof that fails and that some property theorem uses.  Survivors of the
whole build are reported; they are either edits that change nothing or gaps in the theorems.

usage: automut.py SCRATCH PART PARTS SEED PER_DEF FILE...      (SRC: compiled copy of rocq/)
or     automut.py SCRATCH json MUTATIONS.json ID...       the edits of a list for mutate.py
results are appended to SCRATCH/results.jsonl"""
import json, os, random, re, shutil, subprocess, sys, time, collections
SRC = os.environ['SRC']
SKIP = re.compile(os.environ['SKIP']) if 'SKIP' in os.environ else None   # files not to rely on
FILE_TIMEOUT = int(os.environ.get('FILE_TIMEOUT', '300'))
HEAD = re.compile(r'^\s*(?:Local\s+|Global\s+|#\[\w+\]\s*)?(?:Lemma|Theorem|Corollary|Fact|Remark|Example|Definition|Instance|Fixpoint)\s+([\w\']+)', re.M)

def strip_comments(s):
    out = []; d = 0; i = 0
    while i < len(s):
        if s.startswith('(*', i): d += 1; out.append('  '); i += 2; continue
        if s.startswith('*)', i) and d: d -= 1; out.append('  '); i += 2; continue
        out.append(s[i] if d == 0 or s[i] == '\n' else ' '); i += 1
    return ''.join(out)

files = re.findall(r'theories/(\w+)\.v', open(SRC + '/_CoqProject').read())
def deps():
    out = subprocess.run(['coqdep', '-Q', 'theories', 'Verif'] + ['theories/%s.v' % f for f in files], cwd=SRC, capture_output=True, text=True).stdout
    d = {}
    for line in out.replace('\\\n', ' ').splitlines():
        m = re.match(r'theories/(\w+)\.vo\b[^:]*:(.*)', line)
        if m: d[m.group(1)] = set(re.findall(r'theories/(\w+)\.vo\b', m.group(2))) - {m.group(1)}
    return d

def users():
    """constant -> constants whose statement or proof mentions it"""
    up = collections.defaultdict(set)
    for f in files:
        cur = None
        for line in open('%s/theories/%s.glob' % (SRC, f)):
            m = re.match(r'(def|prf|ind|rec|ex|thm|lem|fix|inst|constr)\w* \d+:\d+ \S+ (\S+)', line)
            if m and m.group(1) in ('def', 'prf', 'thm', 'lem', 'fix', 'inst', 'ex', 'ind', 'rec'): cur = f + '.' + m.group(2); continue
            m = re.match(r'R\d+:\d+ Verif\.(\w+) \S+ (\S+) ', line)
            if m and cur: up[m.group(1) + '.' + m.group(2)].add(cur)
    return up

def closure(up, c):
    seen = {c}; todo = [c]
    while todo:
        x = todo.pop()
        for y in up.get(x, ()):
            if y not in seen: seen.add(y); todo.append(y)
    return sorted(y.split('.')[1] for y in seen if y.startswith('Prop') and re.match(r'C\d\d_', y.split('.')[1]))

SWAP = [('Z.land', 'Z.lor'), ('Z.lor', 'Z.land'), ('Z.lxor', 'Z.lor'), ('Z.shiftr', 'Z.shiftl'), ('Z.shiftl', 'Z.shiftr'), ('&&', '||'), ('||', '&&'),
        ('<?', '<=?'), ('<=?', '<?'), ('=?', '<?'), (' + ', ' - '), (' - ', ' + '), (' * ', ' + '), ('true', 'false'), ('false', 'true'), ('negb', ''),
        ('u32', 'u64'), ('u64', 'u32'), ('i64', 'i32'), ('i32', 'i64'), ('fst', 'snd'), ('snd', 'fst'), ('Add', 'Sub'), ('Sub', 'Add'), ('Mul', 'Add'), ('And', 'Or'), ('Or', 'And'),
        ('_mul', '_add'), ('_add', '_sub'), ('_sub', '_add'), ('c_square', 'c_neg'), ('fAdd', 'fSub'), ('fSub', 'fAdd'), ('I64', 'I32'), ('U32', 'U64'), ('U64', 'U32')]
def mutants(body):
    out = []
    for m in re.finditer(r"(?<![\w'.])(0x[0-9a-fA-F]+|\d+)(?![\w'.]*\w)", body):
        v = int(m.group(1), 0); w = v + 1 if v != 1 else 2
        out.append((m.start(), m.end(), hex(w) if m.group(1).startswith('0x') else str(w)))
        if v > 1: out.append((m.start(), m.end(), str(v - 1)))
    for a, b in SWAP:
        for m in re.finditer(re.escape(a), body):
            if a in ('<?', '=?') and body[m.start() - 1] == '<' : continue
            if a[0].isalpha() and a not in ('Add', 'Sub', 'Mul', 'And', 'Or') and re.match(r"[\w']", body[m.end():m.end() + 1] or ' '): continue
            if a[0].isalpha() and a not in ('Add', 'Sub', 'Mul') and re.match(r"[\w'.]", body[m.start() - 1:m.start()] or ' '): continue
            out.append((m.start(), m.end(), b))
    ids = list(re.finditer(r"(?<![\w'.])([a-zA-Z]\w*?)(\d+)(?![\w'])", body)); names = {m.group(0) for m in ids}
    for m in ids:
        for k in (1, -1):
            n = m.group(1) + str(int(m.group(2)) + k)
            if n in names: out.append((m.start(), m.end(), n))
    vs = list(re.finditer(r"(?<![\w'.])([a-z])(?![\w'.])", body)); names = sorted({m.group(0) for m in vs})
    for m in vs:
        o = [n for n in names if n != m.group(0)]
        if o: out.append((m.start(), m.end(), o[hash(m.start()) % len(o)]))
    return out

def definitions(f):
    s = open('%s/theories/%s.v' % (SRC, f)).read(); c = strip_comments(s); out = []
    hs = [m for m in re.finditer(r'^(Definition|Fixpoint|Inductive|Lemma|Theorem|Notation|Section|End|Local|Strategy|Record|Arguments|Opaque|Global|Example|Proof)\b', c, re.M)] 
    for i, m in enumerate(hs):
        if m.group(1) not in ('Definition', 'Fixpoint'): continue
        end = hs[i + 1].start() if i + 1 < len(hs) else len(c)
        name = re.match(r"\w+\s+([\w']+)", c[m.start():]).group(1)
        k = c.find(':=', m.start(), end)
        if k > 0: out.append((name, k + 2, end))
    return s, c, out

est = {}
def cost(root, f):
    if f in est: return est[f]
    return os.path.getsize('%s/theories/%s.v' % (SRC, f)) / 2000.0

def coqc(root, f):
    t0 = time.time()
    try:
        r = subprocess.run('ulimit -v 7000000; exec coqc -time -Q theories Verif theories/%s.v' % f, shell=True, cwd=root, capture_output=True, timeout=FILE_TIMEOUT)
        out, err, rc = r.stdout.decode('utf-8', 'replace'), r.stderr.decode('utf-8', 'replace'), r.returncode
    except subprocess.TimeoutExpired as e:
        out, err, rc = (e.stdout or b'').decode('utf-8', 'replace'), 'timeout', 124
    if rc == 0: est[f] = time.time() - t0
    return out, err, rc

def where(root, f, out, err):
    path = '%s/theories/%s.v' % (root, f); s = open(path, encoding='utf-8').read()
    m = re.search(r'File "[^"]*", line (\d+), characters (\d+)-(\d+)', err)
    if m: pos = sum(len(x) + 1 for x in s.encode().split(b'\n')[:int(m.group(1)) - 1]) + int(m.group(2))
    else:
        cs = re.findall(r'^Chars (\d+) - (\d+) ', out, re.M); pos = int(cs[-1][1]) + 3 if cs else 0
    pos = len(s.encode()[:pos].decode('utf-8', 'ignore')); c = strip_comments(s)
    hs = [m for m in HEAD.finditer(c) if m.start() <= pos + 1]
    if not hs: return None, False
    m = hs[-1]
    p = re.compile(r'\bProof\b[^.]*\.(?=\s)').search(c, m.end()); e = re.compile(r'\b(Qed|Defined|Admitted)\.').search(c, p.end()) if p else None
    if p and e and p.start() <= pos and e.end() >= pos and e.group(1) != 'Admitted':
        open(path, 'w', encoding='utf-8').write(s[:p.start()] + 'Proof. Admitted.' + s[e.end():]); return m.group(1), True
    return m.group(1), False

def run(root, dep, up, f, name, s, a, b, new, expect=None):
    path = '%s/theories/%s.v' % (root, f)
    open(path, 'w').write(s[:a] + new + s[b:])
    todo = {f}
    while True:
        more = {g for g in files if g not in todo and dep.get(g, set()) & todo}
        if not more: break
        todo |= more
    for g in todo:
        try: os.remove('%s/theories/%s.vo' % (root, g))
        except FileNotFoundError: pass
    dead = {g for g in todo if SKIP and SKIP.match(g)}; pend = set(todo) - dead; done = set(); broken = []; failed = set()
    try:
        while pend:
            pend -= {g for g in pend if dep[g] & dead and not dead.add(g)}
            ready = [g for g in pend if (dep[g] & todo) <= done]
            if not ready: break
            g = min(ready, key=lambda g: cost(root, g)); pend.discard(g)
            for _ in range(40):
                out, err, rc = coqc(root, g)
                if rc == 0: done.add(g); break
                n, ok = where(root, g, out, err)
                if g == f and not ok: return {'status': 'invalid', 'err': err.strip()[-200:]}
                broken.append(g + '.' + str(n)); ps = closure(up, g + '.' + str(n))
                failed |= set(ps)
                if expect and not all(any(p.startswith(x) for p in failed) for x in expect): ps = []
                if ps: return {'status': 'caught', 'broken': broken, 'failed': sorted(failed), 'err': err.strip().replace('\n', ' ')[-160:]}
                if not ok: dead.add(g); break
        return {'status': 'SURVIVED', 'broken': broken, 'failed': sorted(failed)}
    finally:
        for g in todo:
            shutil.copy('%s/theories/%s.v' % (SRC, g), '%s/theories/%s.v' % (root, g))
            for x in ('.vo', '.glob'): shutil.copy2('%s/theories/%s%s' % (SRC, g, x), '%s/theories/%s%s' % (root, g, x))

def main():
    root = sys.argv[1]; js = sys.argv[2] == 'json'
    part, parts, seed, per = (0, 1, 0, 0) if js else map(int, sys.argv[2:6])
    os.makedirs(root + '/theories', exist_ok=True)
    for f in files:
        for x in ('.v', '.vo', '.glob'): shutil.copy2('%s/theories/%s%s' % (SRC, f, x), '%s/theories/%s%s' % (root, f, x))
    dep, up = deps(), users(); done = set(); jobs = []
    res = root + '/results.jsonl'
    if os.path.exists(res): done = {(r['file'], r['definition']) for r in map(json.loads, open(res))}
    if js:
        for mu in json.load(open(sys.argv[3])):
            if mu['id'] not in sys.argv[4:] or ('json', mu['id']) in done: continue
            e = mu['edits'][0] if 'edits' in mu else mu
            if len(mu.get('edits', [e])) > 1: print('several edits', mu['id']); continue
            s = open('%s/theories/%s.v' % (SRC, e['file'])).read(); a = -1
            for _ in range(e.get('nth', 0) + 1): a = s.find(e['old'], a + 1)
            if a < 0: print('no match', mu['id']); continue
            t0 = time.time(); r = run(root, dep, up, e['file'], mu['definition'], s, a, a + len(e['old']), e['new'], mu['expect'])
            r.setdefault('failed', []); r.setdefault('broken', []); r.update(file='json', definition=mu['id'], seconds=round(time.time() - t0))
            r['missing'] = [x for x in mu['expect'] if not any(p.startswith(x) for p in r['failed'])]
            open(res, 'a').write(json.dumps(r) + '\n'); print(r['status'], mu['id'], 'missing', r['missing'], r['broken'], '%ds' % r['seconds'], flush=True)
        return
    for f in sys.argv[6:]:
        s, c, ds = definitions(f)
        jobs += [(f, n, s, c, a, b) for n, a, b in ds]
    for k, (f, n, s, c, a, b) in enumerate(jobs):
        if k % parts != part or (f, n) in done: continue
        rnd = random.Random('%d %s %s' % (seed, f, n)); ms = mutants(c[a:b]); rnd.shuffle(ms); got = 0; tries = 0
        for x, y, new in ms:
            if got >= per or tries >= per + 6: break
            if c[a + x:a + y] != s[a + x:a + y]: continue
            tries += 1; t0 = time.time()
            r = run(root, dep, up, f, n, s, a + x, a + y, new)
            if r['status'] == 'invalid': continue
            got += 1; ln = s.count('\n', 0, a + x) + 1; ls = s.rfind('\n', 0, a + x) + 1; le = s.find('\n', a + y)
            old = s[ls:le].strip(); nw = (s[ls:a + x] + new + s[a + y:le]).strip()
            i = 0
            while i < min(len(old), len(nw)) and old[i] == nw[i]: i += 1
            r.update(file=f, definition=n, line=ln, old=old[max(0, i - 60):i + 60], new=nw[max(0, i - 60):i + 60], seconds=round(time.time() - t0))
            open(res, 'a').write(json.dumps(r) + '\n')
            print(r['status'], f, n, '%d: %r -> %r' % (ln, s[a + x:a + y], new), r['broken'], len(r['failed']), '%ds' % r['seconds'], flush=True)
        if got == 0: print('NONE', f, n, flush=True)
main()
