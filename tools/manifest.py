#!/usr/bin/env python3
"""Writes MANIFEST.json from the theorem names Cnn_* found in the *Props.v files and the notes below."""
import json, re, glob, os
root = os.path.dirname(os.path.dirname(os.path.abspath(__file__)))
notes = json.load(open(os.path.join(root, 'tools', 'notes.json')))
thms = {}
for f in sorted(glob.glob(root + '/rocq/theories/*/*Props*.v')):
    for m in re.finditer(r'^Theorem (C\d\d)(_\w+)', open(f).read(), re.M):
        thms.setdefault(m.group(1), []).append(m.group(1) + m.group(2))
claims = []
for line in open(root + '/properties.jsonl'):
    pid = json.loads(line)['id']
    t = thms.get(pid, [])
    n = notes.get(pid, {})
    status = n.get('status') or ('proved' if t else 'partial')
    if not t:
        status = n.get('status') if n.get('status') == 'not_applicable' else 'partial'
    claims.append({'property': pid, 'status': status, 'theorems': t,
                   'note': n.get('note', '' if t else 'not yet proved')})
json.dump({'claims': claims}, open(root + '/MANIFEST.json', 'w'), indent=1, ensure_ascii=False)
print({s: sum(1 for c in claims if c['status'] == s) for s in ('proved', 'partial', 'not_applicable')},
      [c['property'] for c in claims if not c['theorems']])
