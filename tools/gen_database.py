#!/usr/bin/env python3
"""Transcribe the data tables of /repo/database and the name tables into Coq
data files (DataDevices.v, DataMandatory.v).  Only literal data is produced
here; all functions over it are written by hand in ModelDatabase.v."""
import re, os
repo = '/repo'
out = os.path.dirname(os.path.dirname(os.path.abspath(__file__))) + '/rocq/theories/'

def unescape(s):
    return re.sub(r'\\(.)', lambda m: {'n': '\n', 'r': '\r', 't': '\t'}.get(m[1], m[1]), s)
def q(s):
    return '"' + s.replace('"', '""') + '"'
def byte(n):
    return 'x%02x' % n
def boolean(b):
    return 'true' if b else 'false'

# ---------------------------------------------------------------- devices
src = open(repo + '/database/devices.go', encoding='utf8', newline='').read()
cases = re.findall(r'case "([^"]*)":\n\t\treturn (New\w*)\(\)', src)
funcs = re.findall(r'^func (New\w+)\(\) \*Device\{\n(.*?)^\}', src, re.S | re.M)
fm = dict(funcs)
assert len(fm) == len(funcs) == len(cases)
S = r'"((?:[^"\\]|\\.)*)"'
lines, n = [], 0
with open(out + 'DataDevices.v', 'w', encoding='utf8', newline='') as f:
    f.write('(** Generated by tools/gen_database.py from /repo/database/devices.go: the\n'
            '    cases of the switch in [New] (lines 31 ff.), in order, each with the\n'
            '    device its constructor function returns (without Parameters, which no\n'
            '    code reads). *)\n'
            'From Verif Require Import ModelBase ModelNodes.\n'
            '(** devices.go:19-30 *)\n'
            'Record device : Type := mkDevice {\n'
            '  d_brand : string; d_product : string; d_description : string;\n'
            '  d_manufacturer : string; d_type : string; d_id : string;\n'
            '  d_classes : list cclass }.\n'
            'Local Open Scope string_scope.\n')
    names = []
    for i, (key, fn) in enumerate(cases):
        body = fm[fn]
        m = re.search(r'Brand: ' + S + r',\n\t\tProduct: ' + S + r',\n\t\tDescription: ' + S +
                      r',\n\n\t\tManufacturerID: ' + S + r',\n\t\tProductType: ' + S +
                      r',\n\t\tProductID: ' + S + r',\n', body)
        assert m, fn
        cc = re.search(r'CommandClasses: \[\]\*CommandClass\{(.*?)\n?\t\t\},\n\t\tParameters', body, re.S)
        assert cc, fn
        cls = []
        ents = re.findall(r'&CommandClass\{(.*?)\n\t\t\t\},', cc[1] + '\n', re.S)
        assert len(ents) == cc[1].count('&CommandClass')
        for e in ents:
            d = dict(re.findall(r'(\w+): ("(?:[^"\\]|\\.)*"|\w+),', e))
            assert set(d) <= {'ID', 'InNIF', 'Secure', 'NonSecure', 'Version'}
            cls.append('mkCC %s %s %s %s %s' % (byte(int(d.get('ID', '0'), 16)),
                boolean(d.get('InNIF') == 'true'), boolean(d.get('Secure') == 'true'),
                boolean(d.get('NonSecure') == 'true'), q(unescape(d.get('Version', '""')[1:-1]))))
        fields = ' '.join(q(unescape(m[j])) for j in range(1, 7))
        f.write('Definition dev%d := (%s, mkDevice %s [%s]).\n' % (i, q(key), fields, '; '.join(cls)))
        names.append('dev%d' % i)
    f.write('Definition devices : list (string * device) := [%s].\n' % '; '.join(names))

# ---------------------------------------------------------------- mandatory classes
consts = re.findall(r'^const (\w+) = (0x\w+)', open(repo + '/protocol/constants.go').read(), re.M)
go = open(repo + '/database/mandatory.go').read()
table = []
for m in re.finditer(r'Generic:\s+protocol\.(\w+),\s+Specific: protocol\.(\w+),\s+\}: \[\]\*CommandClass\{(.*?)\n\t\},', go, re.S):
    ids = re.findall(r'&CommandClass\{\s*ID: (0x\w+),\s*\}', m[3])
    assert len(ids) == m[3].count('&CommandClass') == m[3].count(':')
    table.append((m[1], m[2], [int(x, 16) for x in ids]))
assert len(table) == go.count('Definition{')
txt = open(repo + '/database/mandatory.txt', encoding='utf8', newline='').read()
assert '\r' not in txt and '\t' not in txt
tl = txt.split('\n')
if tl[-1] == '':
    tl.pop()
with open(out + 'DataMandatory.v', 'w', encoding='utf8', newline='') as f:
    f.write('(** Generated by tools/gen_database.py: literal contents of\n'
            '    /repo/protocol/constants.go, /repo/database/mandatory.go and the lines of\n'
            '    /repo/database/mandatory.txt. *)\n'
            'From Verif Require Import ModelBase.\nLocal Open Scope string_scope.\n')
    f.write('Definition protocol_constants : list (string * byte) :=\n  [%s].\n' %
            ';\n   '.join('(%s, %s)' % (q(a), byte(int(b, 16))) for a, b in consts))
    f.write('(** mandatory.go:7-1014: names of the generic and specific constants, class ids *)\n')
    f.write('Definition mandatory_go : list (string * string * list byte) :=\n  [%s].\n' %
            ';\n   '.join('(%s, %s, [%s])' % (q(a), q(b), '; '.join(byte(x) for x in c)) for a, b, c in table))
    f.write('Definition mandatory_txt : list string :=\n  [%s].\n' % ';\n   '.join(q(l) for l in tl))

# ---------------------------------------------------------------- names
def strings(path, typ):
    s = open(repo + path).read()
    m = re.search(r'func \(\w+ %s\) String\(\) string \{(.*?)^\}' % typ, s, re.S | re.M)
    return re.findall(r'case (\w+):\n\t\tstr = ' + S, m[1]), m[1]
def constants(path, first, last=None):
    s = open(repo + path).read()
    return re.findall(r'^\t(\w+)\s*(?:\w+\s*)?= (0x\w+)', s[:s.index('String() string')], re.M)
fn_s, fn_body = strings('/serialapi/types.go', 'ZWaveFunction') if os.path.exists(repo + '/serialapi/types.go') else ([], '')
cmd_s, cmd_body = strings('/commands/constants.go', 'ZWaveCommand')
fn_c = constants('/serialapi/types.go', '')
cmd_c = constants('/commands/constants.go', '')
fnmap = dict(fn_c); cmdmap = dict(cmd_c)
def code(x, mp):
    return int(x, 16) if x.startswith('0x') else int(mp[x], 16)
def pairs(l):
    return '[%s]' % ';\n   '.join('(%s, %s)' % (q(a), byte(b)) for a, b in l)
with open(out + 'DataNames.v', 'w') as f:
    f.write('(** Generated by tools/gen_database.py: the constants and the cases of the\n'
            '    String methods of /repo/serialapi/types.go:5-237 and\n'
            '    /repo/commands/constants.go:107-258, in source order. *)\n'
            'From Verif Require Import ModelBase.\nLocal Open Scope string_scope.\n')
    assert len(fn_s) == fn_body.count('case ') and len(cmd_s) == cmd_body.count('case ')
    f.write('Definition function_constants : list (string * byte) :=\n  %s.\n' % pairs([(a, int(b, 16)) for a, b in fn_c]))
    f.write('Definition function_cases : list (string * byte) :=\n  %s.\n' % pairs([(b, code(a, fnmap)) for a, b in fn_s]))
    f.write('Definition command_constants : list (string * byte) :=\n  %s.\n' % pairs([(a, int(b, 16)) for a, b in cmd_c]))
    f.write('Definition command_cases : list (string * byte) :=\n  %s.\n' % pairs([(b, code(a, cmdmap)) for a, b in cmd_s]))
if __name__ == '__main__':
    print(len(cases), 'devices', len(table), 'definitions', len(consts), 'constants',
          len(fn_s), len(fn_c), len(cmd_s), len(cmd_c))
