#!/usr/bin/env python3
"""Print Assumptions of every theorem named in MANIFEST.json (run in a built checkout); lists those
that are not closed under the global context."""
import glob, json, os, re, subprocess, tempfile
root = os.path.dirname(os.path.dirname(os.path.abspath(__file__)))
rocq = os.path.join(root, 'rocq')
names = [t for c in json.load(open(os.path.join(root, 'MANIFEST.json')))['claims'] for t in c['theorems']]
mods = [f[len(rocq) + 1:] for f in sorted(glob.glob(rocq + '/theories/*/*Props*.v'))]
src = ''.join('From Verif Require %s.\n' % m[len('theories/'):-2].replace('/', '.') for m in mods)
where = {}
for m in mods:
    for n in re.findall(r'^Theorem (\w+)', open(os.path.join(rocq, m)).read(), re.M):
        where[n] = 'Verif.' + m[len('theories/'):-2].replace('/', '.')
for n in names:
    src += 'Print Assumptions %s.%s.\n' % (where[n], n)
with tempfile.TemporaryDirectory() as d:
    p = os.path.join(d, 'a.v')
    open(p, 'w').write(src)
    r = subprocess.run(['coqc', '-q', '-Q', 'theories', 'Verif', p], cwd=rocq, capture_output=True, text=True)
print(r.stderr, end='')
closed = r.stdout.count('Closed under the global context')
print(len(names), 'theorems,', closed, 'closed under the global context')
if closed != len(names): print(r.stdout)
