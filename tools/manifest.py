#!/usr/bin/env python3
"""Writes MANIFEST.json: collects the theorems named Cnn_... from the Props files (run from /verif)."""
import json, re, glob, collections
from notes import NOTES   # {id: (status, note)}
thms = collections.defaultdict(list)
for f in sorted(glob.glob('rocq/theories/*/Props*.v')):
    for m in re.finditer(r'^Theorem\s+((C\d+)_\w+)', open(f).read(), re.M):
        thms[m.group(2)].append(m.group(1))
claims = []
for line in open('properties.jsonl'):
    i = json.loads(line)['id']
    if thms[i]:
        st, note = NOTES.get(i, ('proved', ''))
        claims.append(dict(property=i, status=st, theorems=thms[i], note=note))
    elif i in NOTES:
        st, note = NOTES[i]
        claims.append(dict(property=i, status=st, theorems=[], note=note))
json.dump({'claims': claims}, open('MANIFEST.json', 'w'), indent=1)
print(len(claims), 'claims', sum(len(c['theorems']) for c in claims), 'theorems')
