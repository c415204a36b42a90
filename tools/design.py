#!/usr/bin/env python3
"""Writes DESIGN.md: tools/design_head.md, then one section per property (from properties.jsonl,
MANIFEST.json, the comments above the theorems and the notes below), then tools/design_tail.md."""
import json, re, glob, os
R = os.path.dirname(os.path.dirname(os.path.abspath(__file__)))
M = {c['property']: c for c in json.load(open(R + '/MANIFEST.json'))['claims']}
P = [json.loads(l) for l in open(R + '/properties.jsonl')]
src = {}
for f in sorted(glob.glob(R + '/rocq/theories/*.v')):
    t = open(f).read()
    for m in re.finditer(r'^(?:Theorem|Lemma|Corollary)\s+(C\d\d_\w+)', t, re.M):
        pre, c = t[:m.start()].rstrip(), ''
        if pre.endswith('*)'):
            c = ' '.join(pre[pre.rindex('(**') + 3:-2].split()) if '(**' in pre else ''
            c = re.sub(r'^\*+ (C\d\d\b)?:?', '', c).strip()
        src[m.group(1)] = (os.path.basename(f), c)
NOTES = {}
exec(open(R + '/tools/design_notes.py').read())
out = [open(R + '/tools/design_head.md').read().rstrip(), '', '## Properties', '']
for p in P:
    i = p['id']; c = M[i]
    out.append('### %s %s (%s)' % (i, p['title'], c['status']))
    out.append('*Claim.* ' + p['statement'])
    if i in NOTES: out.append('\n*Model and proof.* ' + NOTES[i])
    if c.get('note'): out.append('\n*Limits.* ' + c['note'])
    out.append('')
    for th in c['theorems']:
        f, cm = src.get(th, ('?', ''))
        out.append('* `%s` (%s)%s' % (th, f, ': ' + cm if cm else ''))
    out.append('')
out.append(open(R + '/tools/design_tail.md').read().rstrip())
open(R + '/DESIGN.md', 'w').write('\n'.join(out) + '\n')
