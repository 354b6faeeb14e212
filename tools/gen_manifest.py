#!/usr/bin/env python3
"""Write MANIFEST.json from the theorem names in Properties*.v.

A property is listed once it has a theorem named after it. It is partial if one
of its theorems has the suffix _partial. Notes are kept here.
"""
import glob
import json
import os
import re

ROOT = os.path.dirname(os.path.dirname(os.path.abspath(__file__)))

NOTES = json.load(open(os.path.join(ROOT, 'tools', 'manifest_notes.json')))

theorems = {}
for path in sorted(glob.glob(os.path.join(ROOT, 'rocq', 'theories', 'Properties*.v'))):
    for name in re.findall(r'^Theorem (C\d\d_\w+)', open(path).read(), re.M):
        theorems.setdefault(name[:3], []).append(name)

claims = []
for pid in sorted(theorems):
    names = theorems[pid]
    status = 'partial' if any(n.endswith('_partial') for n in names) else 'proved'
    claims.append({'property': pid, 'status': status, 'theorems': names,
                   'note': NOTES.get(pid, '')})

with open(os.path.join(ROOT, 'MANIFEST.json'), 'w') as f:
    json.dump({'claims': claims}, f, indent=1)
    f.write('\n')
print(len(claims), 'claims')
