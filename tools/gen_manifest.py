#!/usr/bin/env python3
"""Writes MANIFEST.json from the theorem names found in rocq/theories/Props and the notes below."""
import json, re, glob, os
root = os.path.join(os.path.dirname(__file__), '..')
names = {}
for f in sorted(glob.glob(os.path.join(root, 'rocq/theories/Props/*.v'))):
    for m in re.finditer(r'^Theorem (C\d\d+)(\w*)', open(f).read(), re.M):
        names.setdefault(m.group(1), []).append(m.group(1) + m.group(2))
exec(open(os.path.join(root, 'tools/manifest_notes.py')).read())
claims = []
for l in open(os.path.join(root, 'properties.jsonl')):
    pid = json.loads(l)['id']
    th = names.get(pid, [])
    if not th and pid not in NOTES: continue
    st, note = NOTES.get(pid, ('proved', ''))
    claims.append({"property": pid, "status": st, "theorems": th, "note": note})
json.dump({"claims": claims}, open(os.path.join(root, 'MANIFEST.json'), 'w'), indent=1)
for c in claims: print(c['property'], c['status'], c['theorems'])
