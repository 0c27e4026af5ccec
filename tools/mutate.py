#!/usr/bin/env python3
"""Mutation test of the theorems.

usage: mutate.py PRISTINE WORK mutations.json results.jsonl [id ...]

PRISTINE is a built copy of /verif/rocq, WORK a scratch copy of it.  For each mutation (an edit of one
definition of the model) the files that depend on it are recompiled.  A proof that no longer goes
through is replaced by Admitted and its name recorded; a failing [Check (test ..)] is removed and
recorded.  At the end a theorem counts as failed if its own proof failed or Print Assumptions shows
that it uses a proof that failed.

With MUTATE_QUICK=1 a mutation is given up as soon as a proof has failed that a theorem of one of the
properties it should break uses, directly or through other lemmas (found by following the references in
the .glob files of PRISTINE).  Several processes, each with its own WORK, can then share the mutations: a
file results.jsonl.ID marks an id as taken."""
import json, os, re, subprocess, sys
pristine, work, mfile, out = sys.argv[1:5]
only = set(sys.argv[5:])
SLOW = {'theories/Hash/HashKat.v', 'theories/Spake2/Spake2Kat.v', 'theories/Srp/SrpKat.v'}

def sh(cmd, **k):
    return subprocess.run(cmd, shell=True, capture_output=True, text=True, **k)

def deps():
    r = sh(f'cd {pristine} && coqdep -f _CoqProject 2>/dev/null')
    d = {}
    for line in r.stdout.splitlines():
        m = re.match(r'(\S+)\.vo[^:]*: (.*)', line)
        if m:
            d[m.group(1) + '.v'] = [x[:-1] for x in m.group(2).split() if x.endswith('.vo')]
    return d

D = deps()
def order(f):
    """files depending on f, in dependency order, f first"""
    aff = {f}
    changed = True
    while changed:
        changed = False
        for g, ds in D.items():
            if g not in aff and any(x in aff for x in ds):
                aff.add(g); changed = True
    done, res = set(), []
    def visit(g):
        if g in done: return
        done.add(g)
        for x in D.get(g, []):
            if x in aff: visit(x)
        res.append(g)
    for g in sorted(aff): visit(g)
    return [g for g in res if g not in SLOW]

QUICK = os.environ.get('MUTATE_QUICK')
LIMIT = 150 if QUICK else 300
def module(f):
    return 'Verif.' + f[len('theories/'):-2].replace('/', '.')
def references():
    """for every name of the development the names whose definition or proof refers to it"""
    users = {}
    for f in D:
        items = []
        for line in open(f'{pristine}/{f[:-2]}.glob', errors='replace'):
            m = re.match(r'(prf|thm|def|ind|rec|inst|ex|coe) (\d+):\d+ (\S+) (\S+)', line)
            if m: items.append((int(m.group(2)), 0, m.group(4)))
            m = re.match(r'R(\d+):\d+ (Verif\S*) (\S+) (\S+)', line)
            if m: items.append((int(m.group(1)), 1, (m.group(2), m.group(4))))
        cur = None
        for _, kind, x in sorted(items, key=lambda t: t[:2]):
            if kind == 0: cur = x
            elif cur: users.setdefault(x, set()).add((module(f), cur))
    return users
USERS = references() if QUICK else {}
def theorems_using(f, name):
    seen, todo = set(), [(module(f), name)]
    while todo:
        x = todo.pop()
        if x not in seen:
            seen.add(x)
            todo += USERS.get(x, ())
    return {n for _, n in seen if re.match(r'C\d\d_', n)}
def broken(m, failed):
    """the theorems that use a failed proof, if one of them is of a property that should break"""
    hit = set()
    for g, n, _ in failed: hit |= theorems_using(g, re.split(r'[: ]', n)[-1])
    return hit if any(t[:3] in m['breaks'] or not m['breaks'] for t in hit) else set()

HEAD = re.compile(r'^\s*(?:Local |Global )?(Theorem|Lemma|Example|Corollary|Fact|Remark|Definition|Fixpoint|Instance)\s+(\w+)')
def compile_file(f, failed, m0):
    p = f'{work}/{f}'
    for _ in range(200):
        if QUICK and broken(m0, failed): return False
        r = sh(f'cd {work} && timeout {LIMIT} coqc -time -q -Q theories Verif {f}')
        if r.returncode == 0: return True
        m = re.search(r'File "[^"]*", line (\d+), characters', r.stderr)
        if m:
            ln = int(m.group(1))
        elif r.returncode == 124:
            # a sentence that does not terminate: the one after the last completed one
            ends = re.findall(r'^Chars \d+ - (\d+) ', r.stdout, re.M)
            if not ends: failed.append((f, 'CRASH', 'timeout')); return False
            raw = open(p, 'rb').read()
            e = int(ends[-1])
            while raw[e:e + 1].isspace(): e += 1
            ln = raw[:e].count(b'\n') + 1
        else:
            failed.append((f, 'CRASH', r.stderr[-300:])); return False
        lines = open(p).read().split('\n')
        i = ln - 1
        if lines[i].lstrip().startswith('Check') or 'test ' in lines[i]:
            j = i
            while not lines[j].lstrip().startswith('Check'): j -= 1
            k = j
            while not lines[k].rstrip().endswith('.'): k += 1
            failed.append((f, f'test:{j+1}', lines[j].strip()))
            for q in range(j, k + 1): lines[q] = ''
            open(p, 'w').write('\n'.join(lines)); continue
        j = i
        while j >= 0 and not HEAD.match(lines[j]): j -= 1
        if j < 0:
            failed.append((f, f'line {ln}', r.stderr[-300:])); return False
        name = HEAD.match(lines[j]).group(2)
        text = '\n'.join(lines)
        off = sum(len(x) + 1 for x in lines[:j])
        pm = re.compile(r'\bProof\b[^.]*\.').search(text, off)
        qm = re.compile(r'\b(Qed|Defined)\.').search(text, off)
        nxt = next((q for q in range(j + 1, len(lines)) if HEAD.match(lines[q])), len(lines))
        noff = sum(len(x) + 1 for x in lines[:nxt])
        if not pm or not qm or pm.start() > noff or text[pm.end():qm.start()].strip() == 'admit':
            failed.append((f, f'definition {name}', r.stderr[-300:])); return False
        a, b = pm.start(), qm.end()
        if text[a:b] == 'Proof. Admitted.':
            failed.append((f, f'statement {name}', r.stderr[-300:])); return False
        err = re.search(r'Error:?\s*(.*)', r.stderr, re.S)
        # an error in the statement itself: drop the whole theorem
        poff = text.rfind('\n', 0, pm.start())
        eoff = sum(len(x) + 1 for x in lines[:i])
        pad = '\n' * text[a:b].count('\n')
        if eoff < pm.start() and lines[i].find('Proof') < 0:
            failed.append((f, 'statement:' + name, (err.group(1) if err else '')[:120]))
            text = text[:off] + '\n' * text[off:b].count('\n') + text[b:]
        else:
            failed.append((f, name, (err.group(1) if err else '')[:120]))
            text = text[:a] + 'Proof. Admitted.' + pad + text[b:]
        open(p, 'w').write(text)
    return False

def run(m):
    if not os.path.exists(work): sh(f'cp -a {pristine} {work}')
    sh(f'cp -a {pristine}/theories/. {work}/theories/')   # undo every earlier edit
    p = f"{work}/{m['file']}"
    s = open(p).read()
    n = s.count(m['old'])
    if n == 0 or (n > 1 and not m.get('nth')):
        return {'id': m['id'], 'error': f'pattern occurs {n} times'}
    if m.get('nth'):
        parts = s.split(m['old']); k = m['nth']
        s = m['old'].join(parts[:k]) + m['new'] + m['old'].join(parts[k:])
    else:
        s = s.replace(m['old'], m['new'])
    open(p, 'w').write(s)
    failed = []
    built = []
    for f in order(m['file']):
        if any(x in [b for b, ok in built if not ok] for x in D.get(f, [])):
            built.append((f, False)); continue
        built.append((f, compile_file(f, failed, m)))
        if QUICK and broken(m, failed):
            return {'id': m['id'], 'failed': failed, 'theorems_failed': sorted(broken(m, failed)), 'quick': True}
    notbuilt = [f for f, ok in built if not ok]
    # property theorems that use a failed proof
    direct = {n.split(':')[-1] for _, n, _ in failed}
    props = [f for f, ok in built if ok and 'Props' in f]
    uses = []
    if props:
        src = ''
        names = []
        for f in props:
            mod = 'Verif.' + f[len('theories/'):-2].replace('/', '.')
            src += f'Require {mod}.\n'
            for t in re.findall(r'^Theorem (C\d\d_?\w*)', open(f'{pristine}/{f}').read(), re.M):
                names.append((mod, t))
        body = src
        for mod, t in names:
            if any(n == 'statement:' + t for _, n, _ in failed): continue
            body += f'Check {mod}.{t}.\nPrint Assumptions {mod}.{t}.\n'
        open(f'{work}/theories/zz.v', 'w').write(body)
        r = sh(f'cd {work} && coqc -q -Q theories Verif theories/zz.v')
        cur = None
        for chunk in re.split(r'\n(?=(?:\w+\.)*C\d\d\w*\n?\s+:)', '\n' + r.stdout):
            mm = re.match(r'\n?(?:\w+\.)*(C\d\d\w*)\s', chunk)
            if mm and 'Axioms:' in chunk: uses.append(mm.group(1))
        if r.returncode: failed.append(('zz', 'assumption check', r.stderr[-200:]))
    allt = sorted({n for n in direct if re.match(r'C\d\d', n)} | set(uses))
    return {'id': m['id'], 'failed': failed, 'theorems_failed': allt, 'not_built': notbuilt}

for m in json.load(open(mfile)):
    if only and m['id'] not in only: continue
    if QUICK:
        try: os.close(os.open(f"{out}.{m['id']}", os.O_CREAT | os.O_EXCL))
        except FileExistsError: continue
    r = run(m)
    r['expect'] = m['breaks']
    hit = {t[:3] for t in r.get('theorems_failed', [])}
    r['survived'] = [c for c in m['breaks'] if c not in hit]
    with open(out, 'a') as f: f.write(json.dumps(r) + '\n')
    print(m['id'], 'ERROR ' + r['error'] if 'error' in r else '', 'SURVIVED ' + str(r['survived']) if r['survived'] else 'killed',
          r.get('theorems_failed'), 'NOTBUILT ' + str(r['not_built']) if r.get('not_built') else '',
          [n for _, n, _ in r.get('failed', []) if n.startswith(('test', 'definition', 'line', 'CRASH', 'statement'))], flush=True)
