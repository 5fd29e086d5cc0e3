#!/usr/bin/env python3
"""Try wrong programs against the theorems.

usage: mutate.py mutants.json log.jsonl
mutants.json: list of {"definition", "file", "old", "new", "claim"}; the edit is made in
a scratch copy of /verif/rocq.  Every lemma whose proof breaks is admitted there, and the
property theorems that then rest on an admitted lemma (Print Assumptions), or whose own
proof breaks, are the ones that "failed".  The files of the claim are built first; the
others only if its theorems all survive.
"""
import concurrent.futures as cf
import json, os, re, shutil, subprocess, sys, threading

SRC = os.environ.get('MUTSRC', '/verif/rocq')
DST = os.environ.get("MUTDIR", "/tmp/mut")
JOBS = int(os.environ.get("MUTJOBS", "3"))
LIMIT = 240     # seconds for one file

def deps():
    files = sorted(f for f in os.listdir(DST + '/theories') if f.endswith('.v'))
    out = subprocess.run(['coqdep', '-Q', 'theories', 'Verif'] + ['theories/' + f for f in files],
                         cwd=DST, capture_output=True, text=True).stdout
    d = {}
    for line in out.splitlines():
        if ':' not in line: continue
        l, r = line.split(':', 1)
        m = re.search(r'theories/(\w+)\.vo\b', l)
        if m: d[m.group(1)] = [x for x in re.findall(r'theories/(\w+)\.vo\b', r)]
    order = []
    def visit(x):
        if x in order: return
        for y in d[x]: visit(y)
        order.append(x)
    for x in sorted(d): visit(x)
    return d, order

STMT = re.compile(r'^\s*(Lemma|Theorem|Example|Corollary|Fact|Instance|Global Instance)\s+(\w+)', re.M)

def admit_at(path, line):
    """replace the proof of the lemma containing `line` by Admitted; return its name"""
    s = open(path).read()
    pos = sum(len(x) + 1 for x in s.split('\n')[:line - 1])
    ms = [m for m in STMT.finditer(s) if m.start(1) <= pos + len(s.split('\n')[line - 1])]
    if not ms: return None
    m = ms[-1]
    e = re.compile(r'\b(Qed|Defined)\.').search(s, m.end())
    p = re.compile(r'\bProof\b[^.]*\.').search(s, m.end())
    if not e or not p or p.start() > e.start(): return None
    s = s[:p.start()] + 'Admitted.' + '\n' * s[p.start():e.end()].count('\n') + s[e.end():]
    open(path, 'w').write(s)
    return m.group(2)

HEAD = re.compile(r'^\s*(?:Local\s+|Global\s+)?(?:Definition|Fixpoint|CoFixpoint|Function|Record|Inductive|with|Let|Lemma|Theorem|Example|Notation|Section|End)\s+"?(\w+)', re.M)

def extent(s, name):
    """where the text of a definition begins and ends"""
    ms = list(HEAD.finditer(s))
    for m, n in zip(ms, ms[1:] + [None]):
        if m.group(1) == name: return m.start(), n.start() if n else len(s)
    return None

def sync():
    subprocess.run(['rsync', '-a', '--delete', SRC + '/', DST + '/'], check=False) if shutil.which('rsync') else None
    if not shutil.which('rsync'):
        shutil.rmtree(DST, ignore_errors=True)
        subprocess.run(['cp', '-a', SRC, DST], check=True)

def target(claim, d):
    """the files that the theorems of the claim need"""
    root = os.path.join(os.path.dirname(os.path.abspath(__file__)), '..')
    names = [t for c in json.load(open(root + '/MANIFEST.json'))['claims'] if c['property'] in re.findall(r'C\d+', claim) for t in c['theorems']]
    goal = set()
    def visit(f):
        if f in goal: return
        goal.add(f)
        for x in d[f]: visit(x)
    for f in d:
        if f.startswith('Prop') and set(names) & set(re.findall(r'^Theorem (\w+)', open(f'{DST}/theories/{f}.v').read(), re.M)): visit(f)
    return goal

def failures(outs, broken):
    """the theorems whose Print Assumptions lists a broken lemma"""
    failed = []
    for f in outs:
        if f.startswith('Prop'):
            src = open(f'{DST}/theories/{f}.v').read()
            names = re.findall(r'^Print Assumptions (\w+)\.', src, re.M)
            chunks = re.split(r'^(?:Axioms:|Closed under the global context)\s*$', outs[f], flags=re.M)[1:]
            for n, c in zip(names, chunks):
                if any(re.search(r'\b' + re.escape(b) + r'\b', c) for b in broken): failed.append(n)
    return failed

def run(mut):
    sync()
    d, order = deps()
    path = f'{DST}/theories/{mut["file"]}.v'
    s = open(path).read()
    span = extent(s, mut['definition'])
    if span is None: return {'error': 'definition not found'}
    body = s[span[0]:span[1]]
    if mut['old'] not in body: return {'error': 'pattern not found in the definition'}
    s = s[:span[0]] + body.replace(mut['old'], mut['new'], 1) + s[span[1]:]
    open(path, 'w').write(s)
    broken, errors = [], []
    todo, dirty = [], {mut['file']}
    for f in order:
        if f in dirty or set(d[f]) & dirty:
            dirty.add(f)
            todo.append(f)
    done = set(order) - dirty

    def build(f):
        for _ in range(60):
            try:
                r = subprocess.run(['coqc', '-Q', 'theories', 'Verif', f'theories/{f}.v'], cwd=DST,
                                   capture_output=True, text=True, timeout=LIMIT)
            except subprocess.TimeoutExpired:
                # a proof that does not end any more is broken; find where by compiling verbosely
                name = stuck(f)
                if name is None: return f'timeout in {f}', None
                broken.append(name)
                continue
            if r.returncode == 0: return None, r.stdout
            m = re.search(r'line (\d+), characters', r.stderr)
            name = admit_at(f'{DST}/theories/{f}.v', int(m.group(1))) if m else None
            if name is None: return f'{f}: ' + r.stderr[-300:], None
            broken.append(name)
        return f'{f}: too many', None

    goal = target(mut['claim'], d)
    todo.sort(key=lambda f: f not in goal)
    outs = {}
    with cf.ThreadPoolExecutor(JOBS) as ex:
        running = {}
        while (todo and not errors) or running:
            if not set(todo) & goal and not any(f in goal for f in running.values()) and failures(outs, broken): todo = []
            first = bool(set(todo) & goal) or any(f in goal for f in running.values())
            for f in [f for f in todo if set(d[f]) <= done and (f in goal or not first)]:
                if errors or len(running) >= JOBS: break
                todo.remove(f)
                running[ex.submit(build, f)] = f
            if not running: break
            fin, _ = cf.wait(running, return_when=cf.FIRST_COMPLETED)
            for x in fin:
                f = running.pop(x)
                err, out = x.result()
                if err: errors.append(err)
                else:
                    done.add(f)
                    outs[f] = out
    failed = failures(outs, broken)
    r = {'broken': broken, 'failed': failed}
    if errors: r['error'] = '; '.join(errors)
    return r

def stuck(f):
    """the proof coqc does not get through: the sentence after the last one timed"""
    p = subprocess.Popen(['coqc', '-time', '-Q', 'theories', 'Verif', f'theories/{f}.v'], cwd=DST,
                         stdout=subprocess.PIPE, stderr=subprocess.DEVNULL, text=True)
    last = 0
    t = threading.Timer(LIMIT, p.kill)
    t.start()
    for line in p.stdout:
        m = re.match(r'Chars (\d+) - (\d+) ', line)
        if m: last = int(m.group(2))
    t.cancel()
    p.wait()
    s = open(f'{DST}/theories/{f}.v', encoding='utf-8').read()
    line = s.encode()[:last].decode().count('\n') + 1
    # the next sentence may start on the following line
    rest = s.encode()[last:].decode()
    line += len(rest) - len(rest.lstrip()) and rest[:len(rest) - len(rest.lstrip())].count('\n')
    return admit_at(f'{DST}/theories/{f}.v', line)

if __name__ == '__main__':
    muts = json.load(open(sys.argv[1]))
    for mut in muts:
        r = run(mut)
        rec = {'definition': mut['definition'], 'edit': mut.get('edit') or f"{mut['old']} -> {mut['new']}",
               'claim': mut['claim'], 'theorems_failed': sorted(set(r.get('failed', []))),
               'broken_lemmas': r.get('broken', []), 'theorems_tightened': []}
        if 'error' in r: rec['error'] = r['error']
        open(sys.argv[2], 'a').write(json.dumps(rec) + '\n')
        print(json.dumps(rec)[:600], flush=True)
