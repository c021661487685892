#!/usr/bin/env python3
"""Transcribe /repo/database/json/*.json (in directory order) into DataFiles.v: the
parts of each file that generators/database/database.go uses."""
import json, os
repo = '/repo/database/json'
out = os.path.dirname(os.path.dirname(os.path.abspath(__file__))) + '/rocq/theories/'
def q(s):
    return '"' + s.replace('"', '""') + '"'
def b(x): return 'true' if x else 'false'
names = []
with open(out + 'DataFiles.v', 'w', encoding='utf8', newline='') as f:
    f.write('(** Generated by tools/gen_files.py from /repo/database/json: for each file, in\n'
            '    the order of the directory, what generators/database/database.go uses of it.\n'
            '    Texts as decoded by encoding/json. *)\n'
            'From Verif Require Import ModelBase.\n'
            '(** database.go:76-86 [commandClass] *)\n'
            'Record jclass : Type := mkJC {\n'
            '  jc_id : string; jc_version : string; jc_nif : bool; jc_secure : bool; jc_nonsecure : bool }.\n'
            '(** database.go:17-42 [deviceData], 69-74 [endpoint]: the classes of each endpoint *)\n'
            'Record jfile : Type := mkJF {\n'
            '  j_label : string; j_manufacturer_name : string; j_manufacturer_id : string;\n'
            '  j_refs : list string; j_decription : string; j_endpoints : list (list jclass) }.\n'
            'Local Open Scope string_scope.\n')
    for i, n in enumerate(sorted(x for x in os.listdir(repo) if x.endswith('.json'))):
        d = json.load(open(repo + '/' + n, encoding='utf8'))
        eps = []
        for e in d['endpoints']:
            eps.append('[%s]' % '; '.join('mkJC %s %s %s %s %s' % (q(c['id']), q(c['version']), b(c['nif']), b(c['secure']),
                       b(c['nonsecure'])) for c in e.get('commandclasses') or []))
        f.write('Definition file%d := mkJF %s %s %s [%s] %s [%s].\n' % (i, q(d['label']), q(d['manufacturer_name']),
            q(d['manufacturer_id']), '; '.join(map(q, d['device_ref'])), q(d['decription']), '; '.join(eps)))
        names.append('file%d' % i)
    f.write('Definition files : list jfile := [%s].\n' % '; '.join(names))
print(len(names), 'files')
