#!/usr/bin/env python3
"""Fills the property table of DESIGN.md from properties.jsonl, MANIFEST.json and the Props files."""
import json, re, pathlib
root = pathlib.Path(__file__).resolve().parent.parent
props = [json.loads(l) for l in open(root / 'properties.jsonl')]
man = {c['property']: c for c in json.load(open(root / 'MANIFEST.json'))['claims']}
where = {}
for f in sorted((root / 'rocq/theories').glob('Props*.v')):
    for m in re.finditer(r'^Theorem (\w+)', f.read_text(), re.M):
        where[m.group(1)] = f.stem
rows = ['| id | property | status | theorems (file) |', '|---|---|---|---|']
for p in props:
    c = man.get(p['id'])
    if not c:
        rows.append(f"| {p['id']} | {p['title']} | open | |")
        continue
    files = sorted({where.get(t, '?') for t in c['theorems']})
    rows.append(f"| {p['id']} | {p['title']} | {c['status']} | {', '.join('`%s`' % t for t in c['theorems'])} ({', '.join('`%s.v`' % f for f in files)}) |")
d = (root / 'DESIGN.md').read_text()
d = re.sub(r'(<!-- table -->\n).*?(<!-- end table -->)', lambda m: m.group(1) + '\n'.join(rows) + '\n' + m.group(2), d, flags=re.S)
(root / 'DESIGN.md').write_text(d)
