#!/usr/bin/env python3
"""Generates rocq/theories/Messages.v from /repo/src/ngircd/messages.h (format strings only)."""
import re, os
out = ['(** Message formats, copied by tools/gen_messages.py from src/ngircd/messages.h. *)',
       'From Coq Require Import String.', 'Local Open Scope string_scope.', '']
for n, l in enumerate(open('/repo/src/ngircd/messages.h'), 1):
    m = re.match(r'#\s*define\s+(\w+)\s+"(.*)"\s*$', l)
    if m and 'ZIP' not in m.group(1) and '_IP_' not in m.group(1):
        s = m.group(2).replace('\\"', '"').replace('"', '""')
        out.append(f'Definition {m.group(1)} : string := "{s}".  (* messages.h:{n} *)')
open(os.path.join(os.path.dirname(os.path.abspath(__file__)), '../rocq/theories/Messages.v'), 'w').write("\n".join(out) + "\n")
