#!/usr/bin/env python3
"""Regenerate the Print Assumptions tail of every Prop*.v and MANIFEST.json.

Theorem names start with the property id (C01_...); status and notes come from
tools/notes.json."""
import json, re, glob, os
root = os.path.dirname(os.path.dirname(os.path.abspath(__file__)))
thms = {}
for f in sorted(glob.glob(root + '/rocq/theories/Prop*.v')):
    s = open(f).read()
    s = re.sub(r'\n*(^Print Assumptions .*\n)+', '\n', s, flags=re.M).rstrip('\n') + '\n'
    names = re.findall(r'^Theorem (C\d\d\w*)', s, flags=re.M)
    s += '\n' + ''.join('Print Assumptions %s.\n' % n for n in names)
    if s != open(f).read():
        open(f, 'w').write(s)
    for n in names:
        thms.setdefault(n[:3], []).append(n)
notes = json.load(open(root + '/tools/notes.json'))
claims = []
for line in open(root + '/properties.jsonl'):
    pid = json.loads(line)['id']
    if pid in notes and pid in thms:
        claims.append({'property': pid, 'status': notes[pid][0], 'theorems': thms[pid], 'note': notes[pid][1]})
    elif pid in thms or pid in notes:
        print('warning: note/theorem mismatch for', pid)
json.dump({'claims': claims}, open(root + '/MANIFEST.json', 'w'), indent=1)
print(len(claims), 'claims', sum(len(c['theorems']) for c in claims), 'theorems')
