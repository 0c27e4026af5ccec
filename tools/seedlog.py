#!/usr/bin/env python3
"""Collect the results of mutation runs and write seeded/LOG.jsonl.

    seedlog.py add NAME LIST.json RESULTS.out   copy a list and its results to seeded/
    seedlog.py                                  rewrite seeded/LOG.jsonl

seeded/lists/NAME.json has the edits, seeded/results/NAME.jsonl the theorems that failed,
seeded/tightened.json, by run and edit, the theorems added or strengthened because of it.
"""
import json, sys, os
S = os.path.join(os.path.dirname(os.path.abspath(__file__)), '..', 'seeded')

def add(name, lst, out):
    muts = {m['id']: m for m in json.load(open(lst))}
    keep, res = [], []
    for line in open(out):
        r = json.loads(line)
        if r.get('error') or r.get('not_built'):
            continue            # the edit did not apply, or the model did not typecheck
        keep.append(muts[r['id']])
        res.append({k: r[k] for k in ('id', 'theorems_failed', 'survived')})
    os.makedirs(f'{S}/lists', exist_ok=True)
    os.makedirs(f'{S}/results', exist_ok=True)
    json.dump(keep, open(f'{S}/lists/{name}.json', 'w'), indent=1, ensure_ascii=False)
    with open(f'{S}/results/{name}.jsonl', 'w') as f:
        for r in res:
            f.write(json.dumps(r) + '\n')

def main():
    order = json.load(open(f'{S}/order.json'))
    tight = json.load(open(f'{S}/tightened.json'))
    n = surv = 0
    with open(f'{S}/LOG.jsonl', 'w') as log:
        for name in order:
            muts = {m['id']: m for m in json.load(open(f'{S}/lists/{name}.json'))}
            for line in open(f'{S}/results/{name}.jsonl'):
                r = json.loads(line)
                m = muts[r['id']]
                n += 1
                t = tight.get(f"{name}/{r['id']}", [])
                if r['survived']:
                    surv += 1
                    if not t:
                        print('survived, nothing tightened:', name, r['id'], r['survived'])
                log.write(json.dumps({
                    'id': f"{name}/{r['id']}", 'definition': f"{m['file']}: {m['definition']}",
                    'edit': m['edit'], 'old': m['old'], 'new': m['new'],
                    'claim': m['claim'], 'breaks': m['breaks'],
                    'theorems_failed': r['theorems_failed'], 'survived': r['survived'],
                    'theorems_tightened': t}, ensure_ascii=False) + '\n')
    print(n, 'attempts,', surv, 'survived at first')

if len(sys.argv) > 1 and sys.argv[1] == 'add':
    add(*sys.argv[2:5])
else:
    main()
