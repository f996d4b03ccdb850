#!/usr/bin/env python3
"""addnote.py Cnn status 'note': sets an entry of notes.json."""
import json, sys
n = json.load(open('notes.json'))
n[sys.argv[1]] = {"status": sys.argv[2], "note": sys.argv[3]}
json.dump(dict(sorted(n.items())), open('notes.json', 'w'), indent=0)
