#!/usr/bin/env python3
"""Append the results of mutate.py to seeded/LOG.jsonl, one line per attempt, skipping ids already there and
results of broken runs.  With --auto the results are those of automut.py, whose edits are random.

usage: mutlog.py [--auto] RESULTS.jsonl [ID...]"""
import hashlib, json, os, sys
ROOT = os.path.dirname(os.path.dirname(os.path.abspath(__file__)))
LOG = os.path.join(ROOT, 'seeded/LOG.jsonl')
have = {json.loads(x)['id'] for x in open(LOG)} if os.path.exists(LOG) else set()
res = {}
auto = sys.argv[1] == '--auto'
if auto: del sys.argv[1]
for x in open(sys.argv[1]):
    r = json.loads(x)
    if auto:
        if r['status'] not in ('caught', 'SURVIVED'): continue
        i = 'auto-%s-%s' % (r['definition'], hashlib.sha1((r['file'] + r['old'] + r['new']).encode()).hexdigest()[:8])
        res[i] = {'definition': r['file'] + '.' + r['definition'], 'edit': 'replace %r by %r' % (r['old'], r['new']), 'claim': 'chosen at random',
            'expect': [], 'failed': r['failed'], 'broken_proofs': r['broken'], 'missing': [], 'tightened': r.get('tightened', [])}
        continue
    if 'error' in r or any('inconsistent assumptions' in y or 'makes incon' in y for y in r['log']): continue
    res[r['id']] = r
with open(LOG, 'a') as o:
    for i, r in res.items():
        if i in have or (sys.argv[2:] and i not in sys.argv[2:]): continue
        o.write(json.dumps({'id': i, 'definition': r['definition'], 'edit': r['edit'], 'claim': r['claim'], 'expected': r['expect'], 'failed': r['failed'],
            'broken_lemmas': r['broken_proofs'], 'expected_but_survived': r['missing'], 'tightened': r.get('tightened', [])}) + '\n')
        print(i, len(r['failed']), r['missing'])
