#!/usr/bin/env python3
"""Transcribe the parameters of /repo/database/json/*.json (in directory order) and
those of /repo/database/devices.go (in the order of the cases) into DataParameters.v."""
import json, os, re
repo = '/repo/database'
out = os.path.dirname(os.path.dirname(os.path.abspath(__file__))) + '/rocq/theories/'
def q(s):
    return '"' + s.replace('"', '""') + '"'
def z(n):
    assert type(n) is int
    return str(n) if n >= 0 else '(%d)' % n
def unescape(s):
    return re.sub(r'\\(.)', lambda m: {'n': '\n', 'r': '\r', 't': '\t'}.get(m[1], m[1]), s)
S = r'"((?:[^"\\]|\\.)*)"'
src = open(repo + '/devices.go', encoding='utf8', newline='').read()
cases = re.findall(r'case "([^"]*)":\n\t\treturn (New\w*)\(\)', src)
fm = dict(re.findall(r'^func (New\w+)\(\) \*Device\{\n(.*?)^\}', src, re.S | re.M))
with open(out + 'DataParameters.v', 'w', encoding='utf8', newline='') as f:
    f.write('(** Generated by tools/gen_parameters.py: the parameters in the files of\n'
            '    /repo/database/json, in the order of the directory, and those of the devices in\n'
            '    /repo/database/devices.go, in the order of the cases. *)\n'
            'From Verif Require Import ModelBase.\n'
            '(** generators/database/database.go:95-113 [parameter], [option]; fields that the template does not\n'
            '    write are left out, except the default *)\n'
            'Record jparam : Type := mkJP {\n'
            '  jp_id : Z; jp_label : string; jp_size : Z; jp_default : Z; jp_min : Z; jp_max : Z;\n'
            '  jp_options : list (Z * string) }.\n'
            '(** devices.go:3-8 [Value] *)\n'
            'Record gvalue : Type := mkGV { gv_from : Z; gv_to : Z; gv_desc : string; gv_unit : string }.\n'
            '(** devices.go:9-18 [parameter] *)\n'
            'Record gparam : Type := mkGP {\n'
            '  gp_id : Z; gp_name : string; gp_type : string; gp_description : string; gp_size : Z; gp_default : string;\n'
            '  gp_values : list gvalue }.\n'
            'Local Open Scope string_scope.\nLocal Open Scope Z_scope.\n'
            '(** Composite literals with the fields that occur in devices.go. *)\n'
            'Local Definition V (from to : Z) (desc : string) := mkGV from to desc "".\n'
            'Local Definition P (id : Z) (name : string) (size : Z) (values : list gvalue) := mkGP id name "" "" size "" values.\n')
    names = []
    for i, n in enumerate(sorted(x for x in os.listdir(repo + '/json') if x.endswith('.json'))):
        d = json.load(open(repo + '/json/' + n, encoding='utf8'))
        ps = []
        for p in d.get('parameters') or []:
            ps.append('mkJP %s %s %s %s %s %s [%s]' % (z(p['id']), q(p['label']), z(p['size']), z(p['default']),
                z(p['value_min']), z(p['value_max']),
                '; '.join('(%s, %s)' % (z(o['value']), q(o['label'])) for o in p.get('options') or [])))
        f.write('Definition fpar%d : list jparam := [%s].\n' % (i, '; '.join(ps)))
        names.append('fpar%d' % i)
    f.write('Definition file_parameters : list (list jparam) := [%s].\n' % '; '.join(names))
    names = []
    total = vals = 0
    for i, (key, fn) in enumerate(cases):
        body = fm[fn]
        pm = re.search(r'Parameters: \[\]\*parameter\{(.*?)\n?\t\t\},\n\t\}\n', body, re.S)
        assert pm, fn
        ents = re.findall(r'&parameter\{(?:\n\t\t\t\tID: (-?\d+),)?\n\t\t\t\tName: ' + S + r',\n\t\t\t\tSize: (-?\d+),\n'
                          r'\t\t\t\tValues: \[\]Value\{(.*?)\n\t\t\t\t\},\n\t\t\t\},', pm[1] + '\n', re.S)
        assert len(ents) == pm[1].count('&parameter{'), (fn, len(ents))
        ps = []
        for pid, name, size, vs in ents:
            l = re.findall(r'Value\{\n\t\t\t\t\t\tFrom: (-?\d+),\n\t\t\t\t\t\tTo: (-?\d+),\n(?:\t\t\t\t\t\tDesc: ' + S + r',\n)?\t\t\t\t\t\},', vs)
            assert len(l) == vs.count('Value{'), (fn, vs)
            total += 1; vals += len(l)
            ps.append('P %s %s %s [%s]' % (z(int(pid or '0')), q(unescape(name)), z(int(size)),
                '; '.join('V %s %s %s' % (z(int(a)), z(int(b)), q(unescape(c))) for a, b, c in l)))
        f.write('Definition dpar%d : list gparam := [%s].\n' % (i, '; '.join(ps)))
        names.append('dpar%d' % i)
    f.write('Definition device_parameters : list (list gparam) := [%s].\n' % '; '.join(names))
print(total, 'parameters', vals, 'values')
assert total == src.count('&parameter{') and vals == len(re.findall(r'\tValue\{', src))
