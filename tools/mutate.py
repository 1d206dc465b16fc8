#!/usr/bin/env python3
"""Mutation testing of the theorems.

usage: mutate.py SCRATCH [NAME...]

Applies each mutant of tools/mutants.py to a copy of rocq/ in SCRATCH, checks every file that
depends on it (`coqc -vos`, `coqc -vok`: the proofs of each file are checked against the
statements of the others) and collects all proofs that fail.  A failing proof is replaced by Admitted in the scratch copy so
that the rest of its file is checked too.  Prints one JSON line for each mutant: the lemmas whose
own proof fails and the property theorems that rest on one of them.  With FOCUS=1 only the files
below the theorems of the claim are checked.
"""
import json, os, re, subprocess, sys
from concurrent.futures import FIRST_COMPLETED, ThreadPoolExecutor, wait
HERE = os.path.dirname(os.path.abspath(__file__))
ROCQ = os.path.join(HERE, '..', 'rocq')
sys.path.insert(0, HERE)
from mutants import MUTANTS

DECL = re.compile(r'^\s*(?:#\[[^\]]*\]\s*)?(?:Local\s+|Global\s+)?(Lemma|Theorem|Example|Corollary|Fact|Instance|Definition|Fixpoint|Remark)\s+([\w\']+)')

def sh(cmd, cwd):
    return subprocess.run(cmd, shell=True, cwd=cwd, stdout=subprocess.PIPE, stderr=subprocess.STDOUT, text=True).stdout

def prepare(scratch):
    base = os.path.join(scratch, 'base')
    if os.path.exists(os.path.join(base, 'ready')):
        return base
    os.makedirs(base, exist_ok=True)
    os.makedirs(base + '/theories')
    sh(f'cp {ROCQ}/_CoqProject {base}/; cp {ROCQ}/theories/*.v {base}/theories/', '/')
    sh('coq_makefile -f _CoqProject -o Makefile', base)
    out = sh('make -j4 2>&1', base)
    if 'Error' in out:
        print(out[-3000:]); sys.exit(1)
    open(os.path.join(base, 'ready'), 'w').close()
    return base

def uses(base):
    """name -> set of names it refers to, from the .glob files"""
    g = {}
    d = os.path.join(base, 'theories')
    for f in sorted(os.listdir(d)):
        if not f.endswith('.glob'):
            continue
        lib = 'Verif.' + f[:-5]
        decls, refs = [], []
        for l in open(os.path.join(d, f)):
            m = re.match(r'^(prf|def|ind|rec|inst|constr|scheme|proj|thm) (\d+):\d+ (\S+) (\S+)', l)
            if m:
                decls.append((int(m.group(2)), m.group(4)))
                continue
            m = re.match(r'^R(\d+):\d+ (Verif\.\S+) (\S+) (\S+) (\S+)', l)
            if m:
                refs.append((int(m.group(1)), (m.group(2), m.group(4))))
        decls.sort()
        for pos, r in refs:
            cur = None
            for p, n in decls:
                if p <= pos: cur = n
                else: break
            if cur:
                g.setdefault((lib, cur), set()).add(r)
    return g

def enclosing(path, line):
    """(name, first line, end line) of the proof around the line"""
    ls = open(path).read().split('\n')
    i = min(line, len(ls)) - 1
    while i >= 0 and not DECL.match(ls[i]):
        i -= 1
    if i < 0:
        return None
    j = i
    while j < len(ls) and not re.search(r'\b(Qed|Defined|Admitted)\.\s*$', ls[j]):
        j += 1
    return DECL.match(ls[i]).group(2), i, j

def admit(path, i, j):
    ls = open(path).read().split('\n')
    text = '\n'.join(ls[i:j + 1])
    k = text.find('Proof.')
    if k < 0:
        return False
    new = text[:k] + 'Proof. Admitted.'
    new += '\n' * (text.count('\n') - new.count('\n'))
    ls[i:j + 1] = new.split('\n')
    open(path, 'w').write('\n'.join(ls))
    return True

def dependencies(base):
    """file -> files it needs, all without suffix"""
    deps = {}
    for l in sh('coqdep -f _CoqProject', base).split('\n'):
        m = re.match(r'^theories/(\w+)\.vo .*?: theories/\w+\.v(.*)', l)
        if m:
            deps[m.group(1)] = set(re.findall(r'theories/(\w+)\.vo\b', m.group(2)))
    return deps

class Checker:
    """Checks the files of a scratch copy one by one, admitting what fails."""
    def __init__(self, work):
        self.work, self.failed, self.odd = work, [], []

    def check(self, f, mode):
        path = os.path.join(self.work, 'theories', f + '.v')
        for _ in range(80):
            out = sh(f'timeout 900 coqc -{mode} -time -q -Q theories Verif theories/{f}.v 2>&1; echo STATUS $?', self.work)
            status = int(out.rsplit('STATUS', 1)[1])
            if status == 0:
                return True
            m = re.search(r'File "[^"]*", line (\d+), characters [\d-]+:\nError', out)
            if m:
                line = int(m.group(1))
            elif status == 124:
                last = re.findall(r'^Chars \d+ - (\d+)', out, re.M)
                line = open(path).read()[:int(last[-1]) if last else 0].count('\n') + 2
            else:
                self.odd.append(f'{f}: {out[-300:]}')
                return False
            e = enclosing(path, line)
            if mode == 'vos' and (e is None or line > e[2] + 1):
                # reported at the end of a section: look for the proof itself
                out = sh(f'timeout 900 coqc -vok -q -Q theories Verif theories/{f}.v 2>&1', self.work)
                m = re.search(r'File "[^"]*", line (\d+), characters [\d-]+:\nError', out)
                if m:
                    e = enclosing(path, int(m.group(1)))
            if e is None or (f, e[0]) in self.failed or not admit(path, e[1], e[2]):
                self.odd.append(f'{f}:{line}')
                return False
            self.failed.append((f, e[0]))
        return False

def needed(claim, base, deps):
    """the files with the theorems of the claim and all they depend on"""
    props = re.findall(r'C\d\d+', claim)
    need = set()
    for f in deps:
        if f.startswith('Props'):
            t = open(os.path.join(base, 'theories', f + '.v')).read()
            if any(re.search(r'^Theorem ' + p + '_', t, re.M) for p in props):
                need.add(f)
    todo = list(need)
    while todo:
        for d in deps[todo.pop()] - need:
            need.add(d); todo.append(d)
    return need

def run(mut, base, scratch, graph, deps, jobs=int(os.environ.get('JOBS', '4'))):
    work = os.path.join(scratch, 'work')
    sh(f'rm -rf {work}; cp -a {base} {work}', '/')
    for (fname, old, new) in mut['edits']:
        p = os.path.join(work, 'theories', fname)
        s = open(p).read()
        if s.count(old) != 1:
            return {'error': f'{fname}: pattern occurs {s.count(old)} times'}
        open(p, 'w').write(s.replace(old, new))
    affected = {fname[:-2] for fname, _, _ in mut['edits']}
    changed = True
    while changed:
        more = {f for f, ds in deps.items() if ds & affected} - affected
        affected |= more
        changed = bool(more)
    if os.environ.get('FOCUS'):
        affected &= needed(mut['claim'], base, deps)
    for f in affected:
        sh(f'rm -f {f}.vo {f}.vos {f}.vok {f}.glob', os.path.join(work, 'theories'))
    c = Checker(work)
    done, lost, running = set(), set(), {}
    with ThreadPoolExecutor(jobs) as pool:
        # the statements, in the order of the dependencies
        todo = set(affected)
        while todo or running:
            for f in sorted(todo):
                if not (deps[f] & affected) - done - lost:
                    todo.discard(f)
                    if deps[f] & lost:
                        lost.add(f)
                    else:
                        running[pool.submit(c.check, f, 'vos')] = f
            if not running:
                if any(not (deps[f] & affected) - done - lost for f in todo):
                    continue
                break
            finished, _ = wait(running, return_when=FIRST_COMPLETED)
            for x in finished:
                f = running.pop(x)
                (done if x.result() else lost).add(f)
        # the proofs
        list(pool.map(lambda f: c.check(f, 'vok'), sorted(done)))
    failed = sorted(c.failed)
    bad = {('Verif.' + f, n) for f, n in failed}
    changed = True
    while changed:
        changed = False
        for k, rs in graph.items():
            if k not in bad and rs & bad:
                bad.add(k); changed = True
    props = sorted(n for lib, n in bad if lib.startswith('Verif.Props') and re.match(r'C\d\d+_', n))
    res = {'failed': [f'{f}.{n}' for f, n in failed], 'property_theorems': props}
    if c.odd: res['odd'] = c.odd
    if lost: res['lost'] = sorted(lost)
    return res

def main():
    scratch = sys.argv[1]
    names = sys.argv[2:]
    base = prepare(scratch)
    graph = uses(base)
    deps = dependencies(base)
    for m in MUTANTS:
        if names and m['name'] not in names:
            continue
        r = run(m, base, scratch, graph, deps)
        print(json.dumps({'name': m['name'], 'definition': m['definition'], 'edit': m['edit'],
                          'claim': m['claim'], **r}), flush=True)

if __name__ == '__main__':
    main()
