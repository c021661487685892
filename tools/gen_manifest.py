#!/usr/bin/env python3
"""Build MANIFEST.json: theorem names are collected from rocq/theories/Prop*.v
(Theorem Cnn_...), status and note come from STATUS below."""
import glob, json, re, os
root = os.path.dirname(os.path.dirname(os.path.abspath(__file__)))
thms = {}
for f in sorted(glob.glob(root + '/rocq/theories/Prop*.v')):
    for name in re.findall(r'^Theorem\s+(C\d\d+_\w+)', open(f).read(), re.M):
        thms.setdefault(name.split('_')[0], []).append(name)
exec(open(root + '/tools/manifest_status.py').read())
claims = []
for line in open(root + '/properties.jsonl'):
    pid = json.loads(line)['id']
    if pid not in thms:
        continue
    status, note = STATUS[pid]
    claims.append(dict(property=pid, status=status, theorems=thms[pid], note=note))
missing = set(thms) - {c['property'] for c in claims}
assert not missing, missing
json.dump({'claims': claims}, open(root + '/MANIFEST.json', 'w'), indent=1)
print(len(claims), 'claims', sum(len(c['theorems']) for c in claims), 'theorems')
