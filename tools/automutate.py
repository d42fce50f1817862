#!/usr/bin/env python3
"""Seeded bugs made by rule: change one token of a model definition, rebuild, see what breaks.

usage: automutate.py list FILE.json [N]     write up to N mutants per definition of theories/M_*.v
       automutate.py run FILE.json          build each and log; FILE.json may also hold edits written
                                            by hand: {"definition", "file", "old", "new", "claim"},
                                            with further edits in "also"

The build of a mutant stops at the first error.
  broken    the proofs that no longer check (the first ones met)
  failed    the property theorems that use one of them, by the references in the .glob files
            of the unchanged development (a lower bound)
  cases     the examples that no longer check, and lemmas no property theorem uses; they are taken
            out and the build goes on
An edit that does not type-check in the model is skipped.  An edit after which everything in
scope builds has the note SURVIVED.

Environment: MUTSRC (a built development), MUTDIR (scratch), MUTLOG, MUTLIMIT (seconds for one
file), MUTTARGETS (names of Prop files, default all).
"""
import json, os, random, re, shutil, subprocess, sys
SRC = os.environ.get('MUTSRC', '/verif/rocq')
WORK = os.environ.get('MUTDIR', '/tmp/automut')
LOG = os.environ.get('MUTLOG', '/verif/seeded/LOG.jsonl')
LIMIT = int(os.environ.get('MUTLIMIT', '240'))
T = lambda f: f'{WORK}/theories/{f}.v'
DEF = re.compile(r'^[ \t]*(?:Definition|Fixpoint)\s+(\w+)', re.M)
HEAD = re.compile(r'^[ \t]*(?:Local |Global |#\[\w+\] )?(Lemma|Theorem|Example|Corollary|Fact|Remark|Definition|Fixpoint|Instance)\s+(\w+)', re.M)

# ---- rules: (pattern, replacement) on the body of a definition
RULES = [
    (r'\bif ((?:(?!\bthen\b|\bif\b).)+?) then', r'if negb (\1) then'),
    (r'&&', '||'), (r'\|\|', '&&'),
    (r'\bnegb \(', r'('), (r'\btrue\b', 'false'), (r'\bfalse\b', 'true'),
    (r'<\?', '<=?'), (r'<=\?', '<?'), (r'\bfst\b', 'snd'), (r'\bsnd\b', 'fst'),
    (r'\b(\w+) \+\+ (\w+)\b', r'\2 ++ \1'), (r'\bS (\w+)\b', r'\1'),
    (r'\bskipn\b', 'firstn'), (r'\bfirstn\b', 'skipn'), (r'\brev\b', ''), (r'\bto_lower\b', 'to_upper'), (r'\bto_upper\b', 'to_lower'),
    (r'\bleqb\b', 'lltb'), (r'\bN\.eqb\b', 'N.leb'), (r'=\?', '<=?'), (r'\bNone\b', 'Some []'), (r'\bisnil\b', 'negb @@ isnil'),
    (r'\b(\d+)\b', lambda m: str(int(m[1]) + 1)),
    (r'B "([^"]+)"', lambda m: 'B "%s"' % (m[1][:-1] if len(m[1]) > 1 else 'Q')),
    (r'\bSome \((\w+), (\w+)\)', r'Some (\2, \1)'), (r'\[(\w+)\]', r'[\1; \1]'), (r'\bfilter\b \(', 'filter (fun z => negb (', ),
]
def sibling(name, names):
    """another name with the same prefix before the first underscore"""
    if '_' not in name: return None
    pre = name.split('_')[0] + '_'
    l = [n for n in names if n.startswith(pre) and n != name]
    return random.choice(l) if l else None

def strip_comments(s):
    """positions of comments"""
    out, depth, start, i = [], 0, 0, 0
    while i < len(s) - 1:
        if s[i:i+2] == '(*':
            if depth == 0: start = i
            depth += 1; i += 2; continue
        if s[i:i+2] == '*)':
            depth -= 1; i += 2
            if depth == 0: out.append((start, i))
            continue
        i += 1
    return out

def bodies(s):
    heads = list(DEF.finditer(s))
    for h, n in zip(heads, heads[1:] + [None]):
        e = s.find('.\n', h.end())
        if e < 0: continue
        a = s.find(':=', h.end())
        if a < 0 or a > e: continue
        yield h.group(1), a + 2, e

def mutants(n):
    random.seed(7)
    out = []
    for f in sorted(os.listdir(f'{SRC}/theories')):
        if not re.match(r'M_\w+\.v$', f): continue
        s = open(f'{SRC}/theories/{f}').read()
        com = strip_comments(s)
        names = sorted(set(re.findall(r'\b[a-z]+_\w+\b', s)))
        for name, a, e in bodies(s):
            if name in ('shipped',): continue
            inside = lambda p: any(x <= p < y for x, y in com)
            cand = []
            for pat, rep in RULES:
                for m in re.finditer(pat, s[a:e]):
                    if inside(a + m.start()): continue
                    new = m.expand(rep) if isinstance(rep, str) else rep(m)
                    new = new.replace('negb @@ isnil', 'negb_isnil')
                    cand.append((a + m.start(), a + m.end(), new))
            for m in re.finditer(r'\b[a-z]+_\w+\b', s[a:e]):
                if inside(a + m.start()): continue
                g = sibling(m[0], names)
                if g: cand.append((a + m.start(), a + m.end(), g))
            random.shuffle(cand)
            out.append({'definition': name, 'file': f, 'edits': [[x, y, s[x:y], new] for x, y, new in cand[:n * 6]], 'want': n})
    return out

# ---- what uses what, from the .glob files
def graph():
    uses, thms = {}, {}
    for f in os.listdir(f'{SRC}/theories'):
        if not f.endswith('.glob'): continue
        mod = f[:-5]; items = []
        for l in open(f'{SRC}/theories/{f}'):
            m = re.match(r'(prf|def|thm|ax|inst|lem|prop|fix|rec|ind|constr|proj) (\d+):\d+ (\S+) (\S+)', l)
            if m: items.append((int(m[2]), 0, (mod, m[4]))); continue
            m = re.match(r'R(\d+):\d+ Verif\.(\w+) (\S+) (\S+) (\w+)', l)
            if m and m[5] != 'lib': items.append((int(m[1]), 1, (m[2], m[4])))
        cur = None
        for _, k, x in sorted(items):
            if k == 0: cur = x; uses.setdefault(cur, set())
            elif cur: uses[cur].add(x)
        if mod.startswith('Prop_'):
            thms[mod] = re.findall(r'^Theorem\s+(\w+)', open(f'{SRC}/theories/{mod}.v').read(), re.M)
    return uses, thms

def users(uses, thms):
    """lemma -> property theorems that use it"""
    res = {}
    for mod, ts in thms.items():
        for t in ts:
            seen, todo = set(), [(mod, t)]
            while todo:
                x = todo.pop()
                if x in seen: continue
                seen.add(x); todo.extend(uses.get(x, ()))
            for x in seen: res.setdefault(x, set()).add(t)
    return res

def build(targets):
    r = subprocess.run(['make', '-j2', f'COQC=timeout {LIMIT} coqc'] + targets, cwd=WORK, capture_output=True, text=True)
    out = r.stdout + r.stderr
    errs = {}
    for f, l in re.findall(r'File "\./theories/(\w+)\.v", line (\d+), characters [\d-]+:\s*\n(?:Error|.*\n?Error)', out): errs.setdefault(f, int(l))
    for f in re.findall(r'theories/(\w+)\.vo\] Error 124', out): errs.setdefault(f, 0)
    return r.returncode, errs

def head_at(f, line):
    s = open(T(f)).read()
    if line == 0: return None
    pos = sum(len(x) for x in s.splitlines(True)[:line - 1]); eol = s.find('\n', pos)
    hs = [m for m in HEAD.finditer(s) if m.start() <= eol]
    return hs[-1].group(2) if hs else None

def remove_example(f, name):
    s = open(T(f)).read()
    t = re.sub(r'^Example %s\b.*?^(?:.*\s)?Qed\.$' % re.escape(name), '', s, count=1, flags=re.M | re.S)
    if t == s: return False
    open(T(f), 'w').write(t); return True

def admit(f, name):
    """a broken lemma that no property theorem uses is assumed, and the build goes on"""
    s = open(T(f)).read()
    m = re.search(r'^[ \t]*(?:Lemma|Corollary|Fact|Remark|Theorem)\s+%s\b' % re.escape(name), s, re.M)
    if not m: return False
    a = s.find('Proof', m.end()); e = s.find('Qed.', m.end())
    if a < 0 or e < a: return False
    open(T(f), 'w').write(s[:a] + 'Admitted.' + s[e + 4:]); return True

def run(path):
    by = users(*graph())
    targets = [f'theories/{t}.vo' for t in os.environ.get('MUTTARGETS', '').split()]
    done = set()
    if os.path.exists(LOG):
        for l in open(LOG):
            d = json.loads(l); done.add((d['file'], d['definition']))
    for m in json.load(open(path)):
        if 'old' in m:       # written by hand
            s = open(f'{SRC}/theories/{m["file"]}').read()
            k = s.count(m['old'])
            if k != 1: print('SKIPPED', k, m['definition'], m['old'], flush=True); continue
            x = s.index(m['old']); m['edits'] = [[x, x + len(m['old']), m['old'], m['new']]]; m['want'] = 1
        elif (m['file'], m['definition']) in done: continue
        got = 0
        for x, y, old, new in m['edits']:
            if got == m['want']: break
            shutil.rmtree(WORK, ignore_errors=True); subprocess.run(['cp', '-a', SRC, WORK], check=True)
            p = f'{WORK}/theories/{m["file"]}'; s = open(p).read()
            assert s[x:y] == old
            n = new.replace('negb_isnil', '(fun l => negb (isnil l))')
            open(p, 'w').write(s[:x] + n + s[y:])
            for e in m.get('also', []):     # the same mistake elsewhere, e.g. in the reader and the writer
                q = f'{WORK}/theories/{e["file"]}'; z = open(q).read()
                assert z.count(e['old']) == 1, e
                open(q, 'w').write(z.replace(e['old'], e['new']))
            # does it type-check at all?
            if subprocess.run(['timeout', '60', 'coqc', '-q', '-Q', 'theories', 'Verif', f'theories/{m["file"]}'], cwd=WORK, capture_output=True).returncode:
                if 'old' in m: print('NOT TYPED', m['definition'], m['new'], flush=True)
                continue
            got += 1
            code, errs = build(targets)
            cut = []          # concrete cases that fail are taken out: do the theorems notice?
            while code and errs and len(cut) < 30:
                ex = [(f, head_at(f, l)) for f, l in errs.items()]
                if not all(h and (remove_example(f, h) or not by.get((f, h)) and admit(f, h)) for f, h in ex): break
                cut += [f'{f}.v: {h}' for f, h in ex]
                code, errs = build(targets)
            ctx = s[max(s.rfind('\n', 0, x) + 1, x - 60):min(s.find('\n', y), y + 60)]
            ctx2 = s[max(s.rfind('\n', 0, x) + 1, x - 60):x] + n + s[y:min(s.find('\n', y), y + 60)]
            broken = [(f, head_at(f, l)) for f, l in errs.items()]
            failed = sorted(set().union(*[by.get(b, set()) for b in broken])) if broken else []
            rec = {'definition': m['definition'], 'file': m['file'], 'edit': f'{ctx}  =>  {ctx2}',
                   'claim': m.get('claim') or 'made by rule: the behaviour of ' + m['definition'],
                   'failed': failed, 'broken': [f'{f}.v: {h}' for f, h in broken], 'tightened': []}
            if m.get('also'): rec['edit'] += ''.join(f'; {e["old"]}  =>  {e["new"]}' for e in m['also'])
            if cut: rec['cases'] = cut
            if code == 0: rec['note'] = 'SURVIVED' if not cut else 'only concrete cases fail'
            print(json.dumps(rec), flush=True)
            with open(LOG, 'a') as g: g.write(json.dumps(rec) + '\n')

if sys.argv[1] == 'list': json.dump(mutants(int(sys.argv[3]) if len(sys.argv) > 3 else 1), open(sys.argv[2], 'w'))
else: run(sys.argv[2])
