#!/usr/bin/env python3
"""Writes seeded/LOG.jsonl from the seeded edits and the results of mutate.py.
usage: mklog.py RESULTS.jsonl ...   (the last result of an id counts)"""
import glob, json, os, re, sys
D = os.path.join(os.path.dirname(os.path.abspath(__file__)), '..', 'seeded')
muts = []
for f in sorted(glob.glob(os.path.join(D, 'mutants*.json'))): muts += json.load(open(f))
log = os.path.join(D, 'LOG.jsonl')
res = {}
if os.path.exists(log):
    for l in open(log):
        r = json.loads(l)
        if r['id'].startswith('auto_'): continue
        res[r['id']] = {'theorems': r['theorems_failed'], 'lemmas': r['lemmas_failed']}
for f in sys.argv[1:]:
    for l in open(f):
        r = json.loads(l)
        if not r.get('error') and not r.get('trouble'): res[r['id']] = r
tight = json.load(open(os.path.join(D, 'tightened.json')))
out, open_ = [], []
for m in muts:
    i = m['id']
    if i not in res: open_.append(i); continue
    t = res[i]['theorems']
    cl = re.findall(r'C\d+', m['claim'])
    d = {'id': i, 'definition': '%s (%s)' % (m['definition'], m['file'] if 'file' in m else ', '.join(e['file'] for e in m['edits'])),
         'edit': m['edit'], 'claim': m['claim'], 'theorems_failed': t, 'lemmas_failed': res[i]['lemmas'],
         'theorems_tightened': tight.get(i, [])}
    if cl and not any(x.startswith(c + '_') for x in t for c in cl) and i not in tight: print('survived:', i, m['edit'], m['claim'])
    out.append(json.dumps(d))
# generated edits (automut.py), each with the first proof that fails, or why none does
for f in sorted(glob.glob(os.path.join(D, 'auto*.jsonl'))): out += open(f).read().split('\n')[:-1]
open(log, 'w').write('\n'.join(out) + '\n')
print(len(out), 'logged; without a result:', ' '.join(open_))
