#!/usr/bin/env python3
"""Writes rocq/theories/Assumptions.v: Print Assumptions for every theorem of MANIFEST.json."""
import json, os, re
R = os.path.dirname(os.path.dirname(os.path.abspath(__file__)))
M = json.load(open(R + '/MANIFEST.json'))
mods = [m for m in re.findall(r'theories/((?:Props|Demo)\w+)\.v', open(R + '/rocq/_CoqProject').read())]
seen = []
for c in M['claims']:
    for t in c['theorems']:
        if t not in seen: seen.append(t)
with open(R + '/rocq/theories/Assumptions.v', 'w') as f:
    f.write('(** * Assumptions: what every theorem of MANIFEST.json rests on (generated by tools/assumptions.py). *)\n')
    f.write('From Verif Require Import %s.\n\n' % ' '.join(mods))
    f.write(''.join('Print Assumptions %s.\n' % t for t in seen))
