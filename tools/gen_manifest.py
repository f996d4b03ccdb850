#!/usr/bin/env python3
"""Collects 'Theorem Cnn_*' from rocq/theories/Props*.v and writes MANIFEST.json.
Status: 'proved' unless listed in PARTIAL below; properties without theorems are left out."""
import re, glob, json, os
base = os.path.join(os.path.dirname(os.path.abspath(__file__)), '..')
thms = {}
for f in sorted(glob.glob(os.path.join(base, 'rocq/theories/Props*.v'))):
    for m in re.finditer(r'^Theorem (C(\d\d+)_\w+)', open(f).read(), re.M):
        thms.setdefault('C' + m.group(2), []).append(m.group(1))
notes = json.load(open(os.path.join(base, 'tools/notes.json')))
claims = []
for line in open(os.path.join(base, 'properties.jsonl')):
    p = json.loads(line)['id']
    if p in thms:
        n = notes.get(p, {})
        claims.append({"property": p, "status": n.get("status", "proved"), "theorems": thms[p], "note": n.get("note", "")})
    elif p in notes and notes[p].get("status") == "not_applicable":
        claims.append({"property": p, "status": "not_applicable", "theorems": [], "note": notes[p]["note"]})
json.dump({"claims": claims}, open(os.path.join(base, 'MANIFEST.json'), 'w'), indent=1)
print(len(claims), "claims", sum(len(c["theorems"]) for c in claims), "theorems")
missing = [json.loads(l)['id'] for l in open(os.path.join(base, 'properties.jsonl')) if json.loads(l)['id'] not in {c['property'] for c in claims}]
print("missing:", missing)
