#!/usr/bin/env python3
"""Append results of mutate.py to seeded/LOG.jsonl.

usage: seedlog.py MUTANTS.json OUT.jsonl ...

One line per mutant: the definition edited, the edit, the claim it breaks, the
theorems that failed, the theorems tightened because of it.  Mutants already in
the log are skipped.  VERDICTS holds the remarks about single mutants.
"""
import json, os, re, sys
here = os.path.dirname(os.path.abspath(__file__))
LOG = os.path.join(here, '..', 'seeded', 'LOG.jsonl')
VERDICTS = json.load(open(os.path.join(here, '..', 'seeded', 'remarks.json')))
OWN = re.compile(r'(^|\.)C\d\d_')
def verdict(r, hit, lost):
    """caught: a theorem or an example broke itself; otherwise only lemmas did, which does not show that a theorem is false."""
    if not lost: return 'SURVIVED'
    direct = r.get('examples') or any(OWN.search(x) for x in r.get('lemmas', []))
    if not direct: return 'proof lost through a lemma'
    return 'caught' if hit else 'caught by other theorems'
muts = {m['name']: m for m in json.load(open(sys.argv[1]))}
done = {json.loads(l)['mutant'] for l in open(LOG)} if os.path.exists(LOG) else set()
with open(LOG, 'a') as out:
    for f in sys.argv[2:]:
        for l in open(f):
            r = json.loads(l)
            n = r['name']
            if n in done or n not in muts: continue
            done.add(n)
            m, rem = muts[n], VERDICTS.get(n, {})
            lost = r.get('lost', [])
            own = re.findall(r'C\d\d', m['claim'])
            hit = [t for t in lost if t[:3] in own]
            rec = {'mutant': n, 'definition': m['file'] + '.v: ' + m['definition'],
                   'edit': {'old': m['old'], 'new': m['new']}, 'claim': m['claim'],
                   'failed': lost, 'failed_lemmas': r.get('lemmas', [])[:12], 'failed_examples': r.get('examples', [])[:12],
                   'verdict': rem.get('verdict', verdict(r, hit, lost)),
                   'tightened': rem.get('tightened', [])}
            if 'remark' in rem: rec['remark'] = rem['remark']
            out.write(json.dumps(rec, ensure_ascii=False) + '\n')
            if rec['verdict'] not in ('caught', 'proof lost through a lemma'): print(n, rec['verdict'], m['claim'], [t for t in lost][:6])
