#!/usr/bin/env python3
"""Regenerate MANIFEST.json from the theorem names in Properties*.v and notes.json."""
import glob, json, os, re
root = os.path.dirname(os.path.dirname(os.path.abspath(__file__)))
notes = json.load(open(os.path.join(root, 'tools', 'notes.json')))
names = {}
for f in sorted(glob.glob(os.path.join(root, 'rocq', 'theories', 'Properties*.v'))):
    for m in re.finditer(r'^Theorem (C\d\d+)(_\w+)', open(f).read(), re.M):
        names.setdefault(m.group(1), []).append(m.group(1) + m.group(2))
ids = [json.loads(l)['id'] for l in open(os.path.join(root, 'properties.jsonl')) if l.strip()]
claims = []
for i in ids:
    if i not in names and i not in notes:
        continue
    n = notes.get(i, {})
    status = n.get('status', 'proved' if i in names else 'not_applicable')
    claims.append({'property': i, 'status': status, 'theorems': names.get(i, []), 'note': n.get('note', '')})
unknown = set(names) - set(ids)
assert not unknown, unknown
with open(os.path.join(root, 'MANIFEST.json'), 'w') as o:
    o.write('{"claims": [\n' + ',\n'.join(' ' + json.dumps(c) for c in claims) + '\n]}\n')
print(len(claims), 'claims', sum(len(c['theorems']) for c in claims), 'theorems')
