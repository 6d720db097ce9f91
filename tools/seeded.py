#!/usr/bin/env python3
"""usage: seeded.py RESULT_DIR. Appends to seeded/LOG.jsonl the results (*.res, one per edited program) it does not hold yet.
TIGHTENED names, per attempt, the theorems added or strengthened because of it, and NOTES anything else worth saying."""
import sys, json, glob, os, re
root = os.path.dirname(os.path.dirname(os.path.abspath(__file__)))
log = root + '/seeded/LOG.jsonl'
extra = json.load(open(root + '/tools/seeded_notes.json'))
done = [json.loads(l) for l in open(log) if l.strip()]
have = {d['id'] for d in done}
key = lambda f: [int(x) if x.isdigit() else x for x in re.split(r'(\d+)', os.path.basename(f))]
for f in sorted(glob.glob(sys.argv[1] + '/*.res'), key=key):
    r = json.load(open(f))
    if r['id'] in have: continue
    done.append(dict(id=r['id'], definition=r['definition'], edit=r['edit'], claim=r['claim'], theorems_failed=r['failed'],
        theorems_tightened=[], first_failures=r['lemmas_admitted'], examples_failed=r['examples_failed'], note=''))
for d in done:
    e = extra.get(d['id'], {})
    d['theorems_tightened'] = e.get('tightened', d['theorems_tightened'])
    d['note'] = e.get('note', d['note'])
with open(log, 'w') as o:
    for d in done: o.write(json.dumps(d) + '\n')
print(len(done))
