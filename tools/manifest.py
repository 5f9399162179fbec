#!/usr/bin/env python3
"""Regenerate MANIFEST.json from the theorem names in rocq/theories and notes.json."""
import json, os, re
root = os.path.dirname(os.path.dirname(os.path.abspath(__file__)))
thms = {}
for line in open(os.path.join(root, 'rocq/_CoqProject')):
    line = line.strip()
    if not line.endswith('.v'):
        continue
    src = open(os.path.join(root, 'rocq', line)).read()
    for m in re.finditer(r'^\s*(?:Theorem|Corollary)\s+((C\d\d+)_\w+)', src, re.M):
        thms.setdefault(m.group(2), []).append(m.group(1))
notes = json.load(open(os.path.join(root, 'tools/notes.json')))
claims = []
for line in open(os.path.join(root, 'properties.jsonl')):
    pid = json.loads(line)['id']
    note = notes.get(pid, '')
    if pid in thms:
        status = 'partial' if any(t.endswith('_partial') for t in thms[pid]) else 'proved'
        claims.append({'property': pid, 'status': status, 'theorems': thms[pid], 'note': note})
    elif note:
        claims.append({'property': pid, 'status': 'not_applicable', 'theorems': [], 'note': note})
json.dump({'claims': claims}, open(os.path.join(root, 'MANIFEST.json'), 'w'), indent=1)
print(len(claims), 'claims', sum(len(c['theorems']) for c in claims), 'theorems')
