#!/usr/bin/env python3
"""For which claims is a mutant a counterexample?

usage: claims.py SCRATCH [NAME...]

A proof that fails does not show that its statement has become false.  witness.py looks at the mutants of the tracer;
this looks at the others.  tools/checks.txt computes two kinds of results:
"T Cxx": a boolean instance of the claim, true for the unedited model: false is a counterexample;
"V Cxx": a result the claim fixes for this input: a result that differs from that of the unedited model is one.
Only the model and the files with specifications are compiled (`coqc -vos`).  Prints one JSON line for each mutant.
"""
import json, os, re, sys
HERE = os.path.dirname(os.path.abspath(__file__))
sys.path.insert(0, HERE)
from mutants import MUTANTS
from mutate import Checker, dependencies, sh
ROCQ = os.path.join(HERE, '..', 'rocq')

def order(need, deps):
    done = []
    while len(done) < len(need):
        done += [f for f in sorted(need) if f not in done and not (deps[f] & need) - set(done)]
    return done

def results(work, rest=False):
    out = sh('timeout 900 coqc -vos -q -Q theories Verif Checks.v 2>&1', work)
    m = re.search(r'^Error', out, re.M)
    if m and not rest:
        return None, out[max(0, m.start() - 200):][:600]
    return re.findall(r'^     = \("([TV]) ([C\d ]+)"%string, ((?s:.*?))\)\n     : ', out, re.M), None

def main():
    scratch, names = sys.argv[1], sys.argv[2:]
    base = os.path.join(scratch, 'base')
    deps = dependencies(ROCQ)
    text = open(os.path.join(HERE, 'checks.txt')).read()
    need = set(re.search(r'Require Import ((?s:.*?))\.\n', text).group(1).split())
    todo = list(need)
    while todo:
        for d in deps[todo.pop()] - need:
            need.add(d); todo.append(d)
    files = order(need, deps)
    sh(f'rm -rf {base}; mkdir -p {base}/theories', '/')
    for f in files:
        sh(f'cp {ROCQ}/theories/{f}.v {base}/theories/', '/')
    open(os.path.join(base, 'Checks.v'), 'w').write(text)
    for f in files:
        out = sh(f'coqc -vos -q -Q theories Verif theories/{f}.v 2>&1', base)
        assert 'Error' not in out, out
    good, err = results(base)
    assert good, err
    assert all(v == 'true' for k, _, v in good if k == 'T')
    for m in MUTANTS:
        if (names and m['name'] not in names) or not all(e[0][:-2] in need for e in m['edits']):
            continue
        work = os.path.join(scratch, 'work')
        sh(f'rm -rf {work}; cp -a {base} {work}', '/')
        affected, bad = set(), None
        for fname, old, new in m['edits']:
            p = os.path.join(work, 'theories', fname)
            s = open(p).read()
            if s.count(old) != 1:
                bad = f'{fname}: pattern occurs {s.count(old)} times'
                break
            open(p, 'w').write(s.replace(old, new))
            affected.add(fname[:-2])
        c = Checker(work)
        for f in files:
            if not bad and (f in affected or deps[f] & affected):
                affected.add(f)
                if not c.check(f, 'vos'):
                    bad = f'{f} cannot be compiled: {c.odd}'
        res, err = (None, bad) if bad else results(work, True)
        d = {'name': m['name'], 'claim': m['claim']}
        if res is None or len(res) < len(good) - 1 or [r[:2] for r in res] != [r[:2] for r in good][:len(res)]:
            d['error'] = err or f'{len(good) - len(res)} results missing'
        else:
            false = set()
            for g, r in zip(good, res):
                if g[2] != r[2]:
                    false |= set(g[1].split())
            d['falsified'] = sorted(false)
        print(json.dumps(d), flush=True)

if __name__ == '__main__':
    main()
