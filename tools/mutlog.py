#!/usr/bin/env python3
"""mutlog.py results.jsonl...: writes /verif/seeded/LOG.jsonl from the results of the mutation runs
(tools/mutate.py) and the notes in tools/mutnotes.json about tightened theorems."""
import json, sys, os
here = os.path.dirname(os.path.abspath(__file__))
notes = json.load(open(os.path.join(here, 'mutnotes.json')))
out = []
for f in sys.argv[1:]:
    for l in open(f):
        d = json.loads(l)
        n = notes.get(d['id'], {})
        out.append({"id": d['id'], "definition": d['definition'], "edit": d['edit'], "claim": d['claim'],
                    "theorems_failed": [t.replace('C15_event_partial','C15_event') for t in d['failed']] + n.get('failed', []), "broken_lemmas": d['admitted'],
                    "theorems_tightened": n.get('tightened', []), "note": n.get('note', '')})
with open(os.path.join(here, '..', 'seeded', 'LOG.jsonl'), 'w') as g:
    for d in out:
        g.write(json.dumps(d) + '\n')
print(len(out), 'entries; not detected:', [d['id'] for d in out if not d['theorems_failed']])
