"""Turns the results of tools/seed.py into seeded/LOG.jsonl.
usage: seedlog.py out.jsonl notes.json   (notes: key prefix -> {"tightened": [...], "note": "..."})"""
import json, sys, os
rows = [json.loads(l) for l in open(sys.argv[1])]
notes = json.load(open(sys.argv[2])) if len(sys.argv) > 2 else {}
root = os.path.join(os.path.dirname(os.path.abspath(__file__)), '..')
out = open(os.path.join(root, 'seeded', 'LOG.jsonl'), 'w')
for r in rows:
    if r.get('error', '') and 'old string' in r['error']:
        continue
    n = {}
    for k, v in notes.items():
        if r['key'].startswith(k): n = v
    failed = r.get('theorems_failed') or []
    entry = {'definition': r['definition'], 'edit': r['edit'], 'claim': r['claim'],
             'first_proofs_to_fail': r.get('first_failures') or [],
             'theorems_failed': failed[:15], 'n_theorems_no_longer_built': len(failed),
             'theorems_tightened': n.get('tightened', [])}
    if n.get('note'): entry['note'] = n['note']
    elif r.get('survived'): entry['note'] = 'survived'
    if r.get('error'):
        entry['note'] = n.get('note', 'the proof no longer finishes (stopped after 25 minutes)')
    out.write(json.dumps(entry) + '\n')
