#!/usr/bin/env python3
"""Mutation test of the theorems.  Applies one edit to a model file in a scratch copy of rocq/, rebuilds, replaces
every proof that no longer goes through by Admitted and goes on, and reports the property theorems whose
Print Assumptions then lists one of those lemmas (they no longer prove).

usage: mutate.py SCRATCH MUTATIONS.json [ID...]     results are appended to SCRATCH/results.jsonl"""
import json, os, re, shutil, subprocess, sys, threading, queue, time
SRC = os.environ.get('SRC', '/verif/rocq')
FILE_TIMEOUT = int(os.environ.get('FILE_TIMEOUT', '400'))
WORKERS = int(os.environ.get('WORKERS', '2'))

def deps(root, files):
    out = subprocess.run(['coqdep', '-Q', 'theories', 'Verif'] + ['theories/%s.v' % f for f in files], cwd=root, capture_output=True, text=True).stdout
    d = {}
    for line in out.replace('\\\n', ' ').splitlines():
        m = re.match(r'theories/(\w+)\.vo\b[^:]*:(.*)', line)
        if m: d[m.group(1)] = set(re.findall(r'theories/(\w+)\.vo\b', m.group(2))) - {m.group(1)}
    return d

HEAD = re.compile(r'^\s*(?:Local\s+|Global\s+|#\[\w+\]\s*)?(?:Lemma|Theorem|Corollary|Fact|Remark|Example|Definition|Instance|Fixpoint)\s+([\w\']+)', re.M)
def strip_comments(s):
    out = []; d = 0; i = 0
    while i < len(s):
        if s.startswith('(*', i): d += 1; out.append('  '); i += 2; continue
        if s.startswith('*)', i) and d: d -= 1; out.append('  '); i += 2; continue
        out.append(s[i] if d == 0 or s[i] == '\n' else ' '); i += 1
    return ''.join(out)

def admit(path, pos):
    """replace the proof around byte offset pos by Admitted; returns the name or None"""
    s = open(path, encoding='utf-8').read()
    pos = len(s.encode()[:pos].decode('utf-8', 'ignore'))
    c = strip_comments(s)
    hs = [m for m in HEAD.finditer(c) if m.start() <= pos + 1]
    for m in reversed(hs):
        p = re.compile(r'\bProof\b[^.]*\.(?=\s)').search(c, m.end())
        if not p: continue
        e = re.compile(r'\b(Qed|Defined|Admitted)\.').search(c, p.end())
        if not e or e.end() < pos: continue
        if p.start() > pos: return None          # the statement itself fails
        if e.group(1) == 'Admitted': return None
        open(path, 'w', encoding='utf-8').write(s[:p.start()] + 'Proof. Admitted.' + ('\n' * 0) + s[e.end():])
        return m.group(1)
    return None

def compile_one(root, f, admitted, log):
    path = os.path.join(root, 'theories', f + '.v')
    for attempt in range(60):
        t0 = time.time()
        try:
            r = subprocess.run('ulimit -v 7000000; exec coqc -time -Q theories Verif theories/%s.v' % f, shell=True, cwd=root,
                               capture_output=True, timeout=FILE_TIMEOUT)
            out, err, rc = r.stdout.decode('utf-8', 'replace'), r.stderr.decode('utf-8', 'replace'), r.returncode
        except subprocess.TimeoutExpired as e:
            out, err, rc = (e.stdout or b'').decode('utf-8', 'replace'), 'timeout', 124
        if rc == 0: return out
        if 'inconsistent assumptions' in ' '.join(err.split()): (print('stale .vo files in %s: rebuild it first' % SRC, flush=True), os._exit(2))
        m = re.search(r'File "[^"]*", line (\d+), characters (\d+)-(\d+)', err)
        if m:
            b = open(path, 'rb').read().split(b'\n')
            pos = sum(len(x) + 1 for x in b[:int(m.group(1)) - 1]) + int(m.group(2))
        else:
            cs = re.findall(r'^Chars (\d+) - (\d+) ', out, re.M)
            pos = int(cs[-1][1]) + 3 if cs else 0
        name = admit(path, pos)
        log.append('%s: %s %s (%.0fs) %s' % (f, 'admitted' if name else 'GIVE UP', name, time.time() - t0, err.strip().replace('\n', ' ')[-160:]))
        if not name: return None
        admitted.append(f + '.' + name)
    return None

def run(root, mu):
    files = re.findall(r'theories/(\w+)\.v', open(SRC + '/_CoqProject').read())
    for f in files:   # restore
        s, d = '%s/theories/%s' % (SRC, f), '%s/theories/%s' % (root, f)
        if not os.path.exists(d + '.v') or open(s + '.v').read() != open(d + '.v').read():
            shutil.copy(s + '.v', d + '.v')
        for x in ('.vo', '.glob'):
            if os.path.exists(s + x): shutil.copy2(s + x, d + x)
    dep = deps(root, files)
    edits = mu['edits'] if 'edits' in mu else [mu]
    dirty = set()
    for e in edits:
        path = '%s/theories/%s.v' % (root, e['file'])
        s = open(path).read()
        if s.count(e['old']) < 1 or (s.count(e['old']) != 1 and 'nth' not in e):
            return {'id': mu['id'], 'error': 'old string occurs %d times in %s' % (s.count(e['old']), e['file'])}
        if 'nth' in e:
            parts = s.split(e['old']); k = e['nth']
            s = e['old'].join(parts[:k + 1]) + e['new'] + e['old'].join(parts[k + 1:])
        else: s = s.replace(e['old'], e['new'])
        open(path, 'w').write(s); dirty.add(e['file'])
    todo = set(dirty)
    while True:   # _CoqProject need not be sorted
        more = {f for f in files if f not in todo and dep.get(f, set()) & todo}
        if not more: break
        todo |= more
    for f in todo:
        try: os.remove('%s/theories/%s.vo' % (root, f))
        except FileNotFoundError: pass
    admitted, log, outs, dead = [], [], {}, set()
    lock = threading.Lock(); pending = [f for f in files if f in todo]; running = set(); done = set()
    def worker():
        while True:
            with lock:
                if not pending and not running: return
                job = None
                for f in pending:
                    d = dep.get(f, set()) & todo
                    if d & dead: job = (f, 'dead'); break
                    if d <= done: job = (f, 'go'); break
                if job:
                    pending.remove(job[0])
                    if job[1] == 'dead': dead.add(job[0]); continue
                    running.add(job[0])
            if not job: time.sleep(0.5); continue
            o = compile_one(root, job[0], admitted, log)
            with lock:
                running.discard(job[0])
                if o is None: dead.add(job[0])
                else: done.add(job[0]); outs[job[0]] = o
    ths = [threading.Thread(target=worker) for _ in range(WORKERS)]
    for t in ths: t.start()
    for t in ths: t.join()
    failed, survived = [], []
    adm = {a.split('.')[1] for a in admitted}
    for f in files:
        if not f.startswith('Prop'): continue
        src = strip_comments(open('%s/theories/%s.v' % (root, f)).read())
        names = re.findall(r'Print Assumptions (\w+)\.', src)
        if f in dead: failed += names; continue
        if f not in outs: survived += names; continue
        blocks = re.split(r'^(?=Closed under the global context|Axioms:)', re.sub(r'^Chars \d+.*\n', '', outs[f], flags=re.M), flags=re.M)[1:]
        assert len(blocks) == len(names), (f, len(blocks), len(names))
        for n, b in zip(names, blocks):
            (failed if b.startswith('Axioms') or n in adm else survived).append(n)
    return {'id': mu['id'], 'definition': edits[0]['file'] + ': ' + mu['definition'], 'edit': mu['edit'], 'claim': mu['claim'], 'expect': mu['expect'],
            'broken_proofs': admitted, 'failed': failed, 'dead': sorted(dead), 'log': log,
            'missing': [c for c in mu['expect'] if not any(n.startswith(c) for n in failed)]}

def main():
    root, mfile = sys.argv[1], sys.argv[2]
    os.makedirs(root + '/theories', exist_ok=True)
    ms = json.load(open(mfile)); ids = sys.argv[3:]
    for mu in ms:
        if ids and mu['id'] not in ids: continue
        t0 = time.time(); r = run(root, mu); r['seconds'] = round(time.time() - t0)
        with open(root + '/results.jsonl', 'a') as o: o.write(json.dumps(r) + '\n')
        print(r['id'], r.get('error') or ('failed %d, missing %s, dead %s, %ds' % (len(r['failed']), r['missing'], r['dead'], r['seconds'])), flush=True)
main()
