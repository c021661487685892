#!/usr/bin/env python3
"""Mutation testing of the theorems.

usage: mutate.py MUTANTS.py [name ...]

MUTANTS.py defines MUTANTS: a list of dicts with
  name        short name
  file        theory file to edit (without .v)
  definition  name of the edited definition
  old, new    the edit, as text (old must occur exactly once unless count=n)
  edit        the edit in words
  claim       property id and what is false of the edited model
  expect      theorems that should fail
  targets     Prop files to check

A built copy of rocq/ is expected in /tmp/mut/base.  The edited model is
rebuilt in a scratch copy.  A lemma whose proof fails is admitted and the build
goes on; a property theorem has failed if it is, or depends on, an admitted
lemma."""
import json, os, re, shutil, subprocess, sys, time
BASE = '/tmp/mut/base'
LIMIT = int(os.environ.get('MUT_LIMIT', '240'))
HEAD = re.compile(r'^\s*(?:Local\s+|Global\s+|#\[[^\]]*\]\s*)?(Lemma|Theorem|Example|Corollary|Fact|Remark|Instance)\s+([\w\']+)', re.M)

def deps():
    out = subprocess.run('coqdep -Q theories Verif theories/*.v', shell=True, cwd=BASE, capture_output=True, text=True).stdout
    d = {}
    for line in out.splitlines():
        m = re.match(r'theories/(\w+)\.vo .*?: (.*)', line)
        if m:
            d[m.group(1)] = [x for x in re.findall(r'theories/(\w+)\.vo\b', m.group(2))]
    return d

def order():
    return re.findall(r'theories/(\w+)\.v', open(BASE + '/_CoqProject').read())

def sentences_end(src, start):
    """position after the Qed./Defined. ending the proof that starts at start"""
    m = re.compile(r'\b(Qed|Defined|Admitted)\s*\.').search(src, start)
    return m

def admit_at(src, pos):
    """admit the lemma around byte position pos; returns (src, name) or None"""
    last = None
    for m in HEAD.finditer(src):
        if m.start() > pos: break
        last = m
    if last is None: return None
    pr = re.compile(r'\bProof\b').search(src, last.end())
    if pr is None: return None
    end = sentences_end(src, pr.end())
    if end is None or end.end() < pos - 2: return None
    if pos < pr.start(): return None          # the statement itself is wrong
    if end.group(1) == 'Admitted': return None
    return src[:pr.start()] + 'Admitted.' + src[end.end():], last.group(2)

def compile(work, f):
    t = time.time()
    try:
        p = subprocess.run(['coqc', '-time', '-q', '-Q', 'theories', 'Verif', 'theories/%s.v' % f], cwd=work,
                           capture_output=True, timeout=LIMIT)
        out = p.stdout.decode('latin1'); err = p.stderr.decode('latin1'); ok = p.returncode == 0
    except subprocess.TimeoutExpired as e:
        out = (e.stdout or b'').decode('latin1'); err = 'TIMEOUT'; ok = False
    return ok, out, err, time.time() - t

def line_pos(src, line, col):
    lines = src.split('\n')
    return sum(len(l) + 1 for l in lines[:line - 1]) + col

def run(mut, D, O, log):
    work = '/tmp/mut/w_' + mut['name']
    shutil.rmtree(work, ignore_errors=True)
    shutil.copytree(BASE, work)
    path = '%s/theories/%s.v' % (work, mut['file'])
    src = open(path, encoding='latin1').read()
    old = mut['old'].encode().decode('latin1'); new = mut['new'].encode().decode('latin1')
    n = src.count(old)
    if n != mut.get('count', 1):
        return dict(error='old text occurs %d times' % n)
    open(path, 'w', encoding='latin1').write(src.replace(old, new))
    need = set()
    def close(f):
        if f in need: return
        need.add(f)
        for g in D.get(f, []): close(g)
    for t in mut['targets']: close(t)
    dirty = {mut['file']}
    for f in O:
        if f in need and any(g in dirty for g in D.get(f, [])): dirty.add(f)
    admitted, failed, examples = [], [], []
    for f in O:
        if f not in dirty or (f not in need and f != mut['file']): continue
        p = '%s/theories/%s.v' % (work, f)
        while True:
            ok, out, err, t = compile(work, f)
            if ok: break
            src = open(p, encoding='latin1').read()
            m = re.findall(r'^File "[^"]*", line (\d+), characters (\d+)-\d+:\nError', err, re.M)
            if m: pos = line_pos(src, int(m[-1][0]), int(m[-1][1]))
            else:
                c = re.findall(r'^Chars \d+ - (\d+) ', out, re.M)
                pos = (int(c[-1]) if c else 0) + 2
            r = admit_at(src, pos)
            if r is None:
                tail = err.strip()[-300:]
                shutil.rmtree(work, ignore_errors=True)
                return dict(error='%s: cannot go on: %s' % (f, tail), admitted=admitted)
            open(p, 'w', encoding='latin1').write(r[0])
            admitted.append(f + '.' + r[1] + (' (timeout)' if 'TIMEOUT' in err else ''))
        if f.startswith('Prop'):
            src = open(p, encoding='latin1').read()
            names = re.findall(r'^Print Assumptions (\w+)\.', src, re.M)
            blocks = re.split(r'(?=Closed under the global context|Axioms:)', re.sub(r'^Chars .*\n', '', out, flags=re.M))[1:]
            adm = {a.split('.')[1].split(' ')[0] for a in admitted}
            for nm, b in zip(names, blocks):
                used = set(re.findall(r'^(?:\w+\.)*([\w\']+)\s*:', b, re.M)) | set(re.findall(r'^(?:\w+\.)*([\w\']+)$', b, re.M))
                if nm in adm or used & adm: failed.append(nm)
            ex = [a for a in admitted if a.startswith(f + '.') and a.split('.')[1].split(' ')[0] not in names]
            examples += [a.split('.')[1] for a in ex]
            if len(names) != len(blocks): examples.append('BLOCKS %d %d' % (len(names), len(blocks)))
    shutil.rmtree(work, ignore_errors=True)
    return dict(failed=failed, admitted=admitted, examples=examples)

def main():
    ns = {}
    exec(open(sys.argv[1]).read(), ns)
    D, O = deps(), order()
    want = sys.argv[2:]
    for mut in ns['MUTANTS']:
        if want and mut['name'] not in want: continue
        t = time.time()
        r = run(mut, D, O, None)
        r['name'] = mut['name']; r['secs'] = round(time.time() - t)
        if 'failed' in r:
            r['missing'] = [e for e in mut['expect'] if e not in r['failed']]
        open(sys.argv[1] + '.out', 'a').write(json.dumps(r) + '\n')
        print(json.dumps(r), flush=True)
main()
