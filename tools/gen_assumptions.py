#!/usr/bin/env python3
"""Compile the Prop files of a built tree and list what Print Assumptions says.
usage: gen_assumptions.py [built rocq directory]   (default /verif/rocq)"""
import glob, os, re, subprocess, sys
root = sys.argv[1] if len(sys.argv) > 1 else '/verif/rocq'
closed, rows, total = [], [], 0
for f in sorted(glob.glob(root + '/theories/Prop*.v')):
    src = open(f).read()
    names = re.findall(r'^Print Assumptions (\w+)\.', src, re.M)
    p = subprocess.run(['coqc', '-q', '-Q', 'theories', 'Verif', '-o', '/tmp/' + os.path.basename(f) + 'o',
                        'theories/' + os.path.basename(f)], cwd=root, capture_output=True, text=True)
    assert p.returncode == 0, p.stderr
    blocks = re.split(r'(?=Closed under the global context|Axioms:)', p.stdout)[1:]
    assert len(blocks) == len(names), (f, len(blocks), len(names))
    for n, b in zip(names, blocks):
        total += 1
        if b.startswith('Closed'): closed.append(n)
        else:
            ax = re.findall(r'^([A-Za-z][\w.\']*)\s*(?=:|$)', b[len('Axioms:'):].strip('\n'), re.M)
            rows.append((n, tuple(sorted(set(a for a in ax if a)))))
groups = {}
for n, ax in rows: groups.setdefault(ax, []).append(n)
print('%d theorems; %d are closed under the global context (no axioms at all).\n' % (total, len(closed)))
for ax, ns in groups.items():
    print('Axioms `%s`:\n' % '`, `'.join(ax))
    print(', '.join('`%s`' % n for n in ns) + '\n')
print('Closed under the global context:\n')
print(', '.join('`%s`' % n for n in closed))
