#!/usr/bin/env python3
"""Append mutation results to seeded/LOG.jsonl.
usage: mutlog.py mutants.py results.jsonl
The harness edits one definition of the model in a scratch copy, rebuilds every
dependent file, admits each lemma whose proof no longer goes through, and lists
the property theorems whose Print Assumptions then show an admitted lemma."""
import json, sys, os, importlib.util
LOG = os.path.join(os.path.dirname(os.path.abspath(__file__)), '..', 'seeded', 'LOG.jsonl')
spec = importlib.util.spec_from_file_location('ms', sys.argv[1])
ms = importlib.util.module_from_spec(spec)
spec.loader.exec_module(ms)
have = {json.loads(l)['id'] for l in open(LOG)} if os.path.exists(LOG) else set()
res = {r['id']: r for r in map(json.loads, open(sys.argv[2]))}
out = open(LOG, 'a')
for m in ms.MUTANTS:
    r = res.get(m['id'])
    if r is None or m['id'] in have or r.get('error'):
        continue
    out.write(json.dumps({
        'id': m['id'], 'definition': m['defn'], 'edit': m['edit'], 'claim_broken': m['claim'],
        'theorems_failed': r['failed'] + ([str(r['fatal'][:2])] if r.get('fatal') else []),
        'lemmas_failed': r['admitted'], 'files_checked': r['checked'],
        'theorems_tightened': m.get('tightened', []), 'note': m.get('note', '')}) + '\n')
