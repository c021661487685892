#!/usr/bin/env python3
"""Write seeded/LOG.jsonl from the mutant lists in seeded/mutants and their
results (NAME.py.out, written by mutate.py next to the list)."""
import json, os, sys
D = '/verif/seeded/mutants'
exec(open(D + '/notes.py').read())
lines = []
for f in LISTS:
    ns = {}
    exec(open('%s/%s.py' % (D, f)).read(), ns)
    M = {m['name']: m for m in ns['MUTANTS']}
    def entry(d, tightened, remark):
        m = M[d['name']]
        e = dict(mutant='%s/%s' % (f, d['name']), definition='%s.%s' % (m['file'], m['definition']), edit=m['edit'],
                 claim=m['claim'], failed=d['failed'], tightened=tightened)
        if remark:
            e['remark'] = remark
        lines.append(e)
    for d in FIRST.get(f, []):
        if 'error' in d or d['name'] not in M:
            continue
        entry(d, TIGHT.get(d['name'], []), 'first attempt')
    first = {d['name'] for d in FIRST.get(f, [])}
    out = '%s/%s.py.out' % (D, f)
    for l in open(out):
        d = json.loads(l)
        if d.get('error') or d['name'] not in M:
            continue
        again = d['name'] in first
        entry(d, [] if again else TIGHT.get(d['name'], []),
              'after tightening' if again and d['name'] in TIGHT else REMARK.get(d['name'], ''))
with open('/verif/seeded/LOG.jsonl', 'w') as o:
    for e in lines:
        o.write(json.dumps(e) + '\n')
print(len(lines))
