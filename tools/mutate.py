#!/usr/bin/env python3
"""Apply a seeded bug to a scratch copy of the development and rebuild it.

usage: mutate.py MUTANTS.json   (a list of {"definition", "file", "old", "new", "claim"})

Only the Prop files with theorems of the properties named in the claim are rebuilt; with
MUTALL=1 in the environment all are.

For each entry one JSON line is printed and appended to seeded/LOG.jsonl.

A proof that no longer checks is replaced by [Admitted] in the scratch copy and the build
goes on, so that the end of the build does not hide anything:
  broken     the lemmas and theorems whose proof no longer checks
  failed     the property theorems that are among them or depend on one of them,
             according to Print Assumptions
  scope      the Prop files rebuilt; theorems of other files are not looked at
  unchecked  the property theorems in or behind a file that could not be repaired this way
             (an error outside a proof); nothing is known about them
An entry with no broken proof and nothing unchecked has the note SURVIVED.
A broken proof script does not by itself mean that the statement became false.
"""
import json, os, re, shutil, subprocess, sys
SRC = os.environ.get('MUTSRC', '/verif/rocq')
WORK = os.environ.get('MUTDIR', '/tmp/mutant')
LOG = os.environ.get('MUTLOG', '/verif/seeded/LOG.jsonl')
LIMIT = int(os.environ.get('MUTLIMIT', '240'))      # seconds for one file

HEAD = re.compile(r'^[ \t]*(?:Local |Global |#\[\w+\] )?(Lemma|Theorem|Example|Corollary|Fact|Remark|Definition|Fixpoint|Instance)\s+(\w+)', re.M)
END = re.compile(r'\b(Qed|Defined)\.')

def theorems(path):
    return re.findall(r'^Theorem\s+(\w+)', open(path).read(), re.M)

def deps(f, seen=None):
    """transitive dependencies of a theory file"""
    seen = set() if seen is None else seen
    if f in seen: return seen
    seen.add(f)
    for line in re.findall(r'From Verif Require (?:Import|Export) ([\w\s]+)\.', open(f'{WORK}/theories/{f}.v').read()):
        for g in line.split(): deps(g, seen)
    return seen

def scope(m):
    """the Prop files with theorems of the properties in the claim"""
    ids = re.findall(r'\bC\d\d', m['claim'])
    props = sorted(f[:-2] for f in os.listdir(f'{WORK}/theories') if f.startswith('Prop_') and f.endswith('.v'))
    if os.environ.get('MUTALL') or not ids: return props
    return [f for f in props if any(t[:3] in ids for t in theorems(f'{WORK}/theories/{f}.v'))]

def make(props):
    r = subprocess.run(['make', '-k', '-j3', f'COQC=timeout {LIMIT} coqc'] + [f'theories/{f}.vo' for f in props], cwd=WORK, capture_output=True, text=True)
    out = r.stdout + r.stderr
    errors = {}
    for f, l in re.findall(r'File "\./theories/(\w+)\.v", line (\d+), characters [\d-]+:\s*\n(?:Error|.*\n?Error)', out):
        errors.setdefault(f, int(l))
    for f in re.findall(r'theories/(\w+)\.vo\] Error 124', out):      # time limit: find the sentence
        t = subprocess.run(['timeout', str(LIMIT), 'coqc', '-q', '-time', '-Q', 'theories', 'Verif', f'theories/{f}.v'],
                           cwd=WORK, capture_output=True, text=True).stdout
        p = [int(x) for x in re.findall(r'^Chars \d+ - (\d+)', t, re.M)]
        raw = open(f'{WORK}/theories/{f}.v', 'rb').read()
        errors.setdefault(f, raw[:(p[-1] if p else 0) + 2].count(b'\n') + 1)
    return r.returncode, errors

def admit(f, line):
    """replace the proof that contains the line by Admitted; its name, or None"""
    p = f'{WORK}/theories/{f}.v'
    s = open(p).read()
    pos = sum(len(x) for x in s.splitlines(True)[:line - 1])
    eol = s.find('\n', pos)
    heads = [m for m in HEAD.finditer(s) if m.start() <= eol]
    if not heads: return None
    h = heads[-1]
    m = re.compile(r'\bProof\b[^.]*\.').search(s, h.start())
    nxt = HEAD.search(s, h.end())
    if not m or (nxt and m.start() > nxt.start()): return None
    if s[:m.start()].count('\n') + 1 > line: return None       # error in the statement
    e = END.search(s, m.end())
    if not e: return None
    open(p, 'w').write(s[:m.start()] + 'Admitted.' + '\n' * s[m.start():e.end()].count('\n') + s[e.end():])
    return f'{f}.v: {h.group(2)}'

def assumptions(names, files, admitted):
    """the theorems among names that depend on something admitted"""
    src = 'From Verif Require ' + ' '.join(sorted(files)) + '.\n'
    src += ''.join(f'Print Assumptions {f}.{t}.\n' for f, t in names)
    open(f'{WORK}/Query.v', 'w').write(src)
    out = subprocess.run(['coqc', '-q', '-Q', 'theories', 'Verif', 'Query.v'], cwd=WORK, capture_output=True, text=True)
    if out.returncode: raise SystemExit('query failed: ' + out.stderr[:500])
    res = re.split(r'^(?=Closed under the global context|Axioms:)', out.stdout, flags=re.M)[1:]
    assert len(res) == len(names), (len(res), len(names))
    used = lambda r: {x.split('.')[-1] for x in re.findall(r'^([\w.]+)\s*(?::|$)', r, re.M)}
    return [t for (f, t), r in zip(names, res) if r.startswith('Axioms') and used(r) & admitted]

def run(m):
    shutil.rmtree(WORK, ignore_errors=True); subprocess.run(['cp', '-a', SRC, WORK], check=True)
    p = f'{WORK}/theories/{m["file"]}'
    s = open(p).read()
    if s.count(m['old']) != 1:
        print('SKIP', m['definition'], 'occurrences:', s.count(m['old']), flush=True); return
    open(p, 'w').write(s.replace(m['old'], m['new']))
    props = scope(m)
    broken, stuck = [], {}
    for _ in range(60):
        code, errors = make(props)
        new = {f: l for f, l in errors.items() if f not in stuck}
        if code == 0 or not new: break
        for f, l in new.items():
            b = admit(f, l)
            if b: broken.append(b)
            else: stuck[f] = l
    fine = [f for f in props if os.path.exists(f'{WORK}/theories/{f}.vo') and not deps(f) & set(stuck)]
    hit = {b.split('.')[0] for b in broken}
    touched = [f for f in fine if deps(f) & hit]
    names = [(f, t) for f in touched for t in theorems(f'{WORK}/theories/{f}.v')]
    bad = assumptions(names, touched, {b.split()[-1] for b in broken}) if names else []
    rec = {'definition': m['definition'], 'file': m['file'], 'edit': f'{m["old"]}  =>  {m["new"]}', 'claim': m['claim'],
           'scope': props, 'failed': bad, 'broken': broken,
           'unchecked': [t for f in props if f not in fine for t in theorems(f'{WORK}/theories/{f}.v')],
           'tightened': m.get('tightened', [])}
    if stuck: rec['stuck'] = [f'{f}.v:{l}' for f, l in stuck.items()]
    if not bad and not rec['unchecked']: rec['note'] = m.get('note', 'SURVIVED')
    print(json.dumps(rec), flush=True)
    with open(LOG, 'a') as f: f.write(json.dumps(rec) + '\n')

for m in json.load(open(sys.argv[1])): run(m)
