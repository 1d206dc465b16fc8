#!/usr/bin/env python3
"""Looks for parts of the model that no theorem depends on.

usage: automut.py BASE SCRATCH OUT [FILE...]     (BASE: made by mutate.py)

Makes small edits of every definition of the model mechanically (a negation dropped, a boundary moved, a literal
shortened, a field exchanged for another, ...), at most CAP of a kind for each definition, and checks the files that
depend on it until a proof fails on which a property theorem rests; first those whose lemmas mention the definition or
one that uses it, at most LIMIT of them (0: all).  An edit with no such proof survives: probably no property notices
it.  Writes a JSON line for each.
"""
import json, os, re, subprocess, sys
from concurrent.futures import ThreadPoolExecutor
HERE = os.path.dirname(os.path.abspath(__file__))
sys.path.insert(0, HERE)
from mutate import DECL, admit, dependencies, enclosing, sh, uses

FILES = ['Tracer', 'Aggregator', 'MdLex', 'MdParser', 'MonoParser', 'RustParser', 'Location', 'Paths', 'Tags', 'GnuErr', 'MdFmt',
         'Formatters', 'Serialize', 'SerdeJson', 'Controller', 'Config', 'Cli', 'Api', 'Show', 'Utf8', 'Unicode', 'Models', 'Regex']
SWAPS = [('req_covers', 'req_depends'), ('rel_upper', 'rel_lower'), ('cov_upper', 'cov_lower'), ('tr_covered', 'tr_uncovered'), ('fst', 'snd'),
         ('Upwards', 'Downwards'), ('true', 'false'), ('&&', '||'), ('<=?', '<?'), ('forallb', 'existsb'), ('Success', 'ErrorsDetected'),
         ('art_ignore_derived', 'art_reference_with_title'), ('req_location', 'ref_location'), ('firstn', 'skipn'), ('QParse', 'QTrace'),
         ('Covers', 'Depends'), ('is_upper_ascii', 'is_lower_ascii'), ('xid_start', 'xid_continue'), ('Star', 'Plus'), ('trim_start', 'trim_end'), ('hd', 'last')]

def sentences(text):
    """(start, end) of the sentences, and a copy of the text with comments and strings blanked"""
    plain, depth, i, string = list(text), 0, 0, False
    while i < len(text):
        if string:
            if text[i] == '"': string = False
            elif plain[i] != '\n': plain[i] = '_'
        elif text.startswith('(*', i): depth += 1; plain[i] = plain[i + 1] = ' '; i += 1
        elif depth and text.startswith('*)', i): depth -= 1; plain[i] = plain[i + 1] = ' '; i += 1
        elif depth:
            if plain[i] != '\n': plain[i] = ' '
        elif text[i] == '"': string = True
        i += 1
    plain = ''.join(plain)
    ends = [m.end() for m in re.finditer(r'\.(?=\s|$)', plain)]
    return list(zip([0] + ends, ends)), plain

def edits(text):
    out = []
    spans, plain = sentences(text)
    for a, b in spans:
        s = plain[a:b]
        m = re.match(r'\s*(?:#\[[^\]]*\]\s*)?(?:Definition|Fixpoint)\s+([\w\']+)', s)
        if not m or 'sample' in m.group(1):
            continue
        name, body = m.group(1), a + (s.index(':=') if ':=' in s else len(s))
        def add(i, j, new, what):
            if i >= body:
                out.append((name, i, j, new, what))
        for x, y in SWAPS:
            for p, q in ((x, y), (y, x)):
                pat = r'\b%s\b' % p if p[0].isalpha() else r'(?<![<=|&])' + re.escape(p) + r'(?![=|&])'
                for k in re.finditer(pat, s):
                    add(a + k.start(), a + k.end(), q, f'{p} becomes {q}')
        for k in re.finditer(r'\bnegb (?=\()', s):
            add(a + k.start(), a + k.end(), '', 'negation dropped')
        for k in re.finditer(r'\bif (?!negb)((?:(?!\bif\b|\bthen\b).)+?) then', s, re.S):
            add(a + k.start(1), a + k.end(1), f'negb ({text[a + k.start(1):a + k.end(1)]})', 'condition negated')
        for k in re.finditer(r'(?<![\w.%"])(\d+)(?![\w"])', s):
            add(a + k.start(1), a + k.end(1), str(int(k.group(1)) + 1), 'number increased')
        for k in re.finditer(r'"(_+)"', s):
            add(a + k.start(1), a + k.end(1), text[a + k.start(1):a + k.end(1) - 1], 'literal shortened')
        for k in re.finditer(r'\[NL\]', s):
            add(a + k.start(), a + k.end(), '[]', 'line end dropped')
        for k in re.finditer(r'\brev (?=\(|\w)', s):
            add(a + k.start(), a + k.end(), '(fun l => l) ', 'order reversed')
        for k in re.finditer(r'\b(sort_by|sort_errors|trim|trim_start|trim_end|escape|dedup)\b(?! *:)', s):
            arity = ' _' if k.group(1) == 'sort_by' else ''
            add(a + k.start(), a + k.end(), '(fun _ l => l)' if arity else '(fun l => l)', f'{k.group(1)} dropped')
        for k in re.finditer(r'=\?', s):
            if plain[a + k.start() - 1] not in '<':
                add(a + k.start(), a + k.end(), '<=?', '=? becomes <=?')
        for k in re.finditer(r'\bSome (\w+)(?= *(?:\)|\||,|\n))', s):
            add(a + k.start(), a + k.end(), 'None', 'Some becomes None')
        # a part of a concatenation dropped
        for k in re.finditer(r'(?<=\+\+ )(L ___|\w+ \w+|\w+|L "_*")(?= \+\+)', s):
            add(a + k.start(), a + k.end(), '[]', f'{text[a + k.start():a + k.end()]} dropped')
    return out

class Run:
    def __init__(self, base, scratch):
        self.base, self.scratch, self.checked = base, scratch, {}
        self.deps = dependencies(base)
        graph = uses(base)
        back = {}
        for k, rs in graph.items():
            for r in rs:
                back.setdefault(r, set()).add(k)
        good = {k for k in graph if k[0].startswith('Verif.Props') and re.match(r'C\d\d+_', k[1]) and 'example' not in k[1]}
        self.supports, todo = set(good), list(good)
        while todo:
            for r in graph.get(todo.pop(), ()):
                if r not in self.supports:
                    self.supports.add(r); todo.append(r)
        self.graph, self.back = graph, back
        self.order = []
        while len(self.order) < len(self.deps):
            self.order += [f for f in sorted(self.deps) if f not in self.order and not self.deps[f] - set(self.order)]

    def files(self, f, name, affected):
        """the files to be compiled, in order"""
        if (f, name) not in self.checked:
            defs, todo, count = {('Verif.' + f, name)}, [('Verif.' + f, name)], {}
            while todo:
                x = todo.pop()
                for y in self.back.get(x, ()):
                    g = y[0][6:]
                    if g in FILES or y[0] == 'Verif.' + f:
                        if y not in defs:
                            defs.add(y); todo.append(y)
                    if y in self.supports:
                        count[g] = count.get(g, 0) + (3 if x == ('Verif.' + f, name) else 1)
            best = sorted((g for g in count if g in affected), key=lambda g: -count[g])
            limit = int(os.environ.get('LIMIT', '8'))
            self.checked[f, name] = set(best[:limit] if limit else affected) | {f}
        need, todo = set(), list(self.checked[f, name])
        while todo:
            g = todo.pop()
            if g in affected and g not in need:
                need.add(g); todo += self.deps[g]
        return [g for g in self.order if g in need]

    def one(self, n, f, text, e):
        name, i, j, new, what = e
        work = os.path.join(self.scratch, f'w{n}')
        sh(f'rm -rf {work}; cp -al {self.base} {work}', '/')
        th = os.path.join(work, 'theories')
        def write(g, t):
            os.remove(os.path.join(th, g + '.v'))
            open(os.path.join(th, g + '.v'), 'w').write(t)
        write(f, text[:i] + new + text[j:])
        res = {'file': f, 'definition': name, 'line': text.count('\n', 0, i) + 1, 'edit': what, 'at': ' '.join(text[max(0, i - 30):j + 30].split())}
        affected, only = {f}, []
        for g in self.order:
            if self.deps[g] & affected:
                affected.add(g)
        todo = self.files(f, name, affected)
        try:
            for g in todo:
                sh(f'rm -f {g}.vo {g}.vos {g}.vok {g}.glob', th)
                write(g, open(os.path.join(th, g + '.v')).read())
                for mode in ('vos', 'vok') if g in self.checked[f, name] else ('vos',):
                    for _ in range(30):
                        out = sh(f'timeout 400 coqc -{mode} -q -Q theories Verif theories/{g}.v 2>&1; echo STATUS $?', work)
                        if out.rstrip().endswith('STATUS 0'):
                            break
                        m = re.search(r'File "[^"]*", line (\d+), characters [\d-]+:\nError', out)
                        if not m:
                            return {**res, 'killed': f'{g}: {out[-80:]}'}
                        x = enclosing(os.path.join(th, g + '.v'), int(m.group(1)))
                        if x is None or (g == f and x[0] == name):
                            return {**res, 'invalid': out[m.start():][:200]}
                        if ('Verif.' + g, x[0]) in self.supports:
                            return {**res, 'killed': f'{g}.{x[0]}'}
                        only.append(f'{g}.{x[0]}')
                        p = os.path.join(th, g + '.v')
                        if not admit(p, x[1], x[2]):
                            return {**res, 'killed': f'{g}.{x[0]} (no proof)'}
            return {**res, 'survived': True, 'only': only}
        finally:
            sh(f'rm -rf {work}', '/')

def main():
    base, scratch, out = sys.argv[1:4]
    os.makedirs(scratch, exist_ok=True)
    r = Run(base, scratch)
    done = set()
    if os.path.exists(out):
        done = {(d['file'], d['definition'], d['line'], d['edit'], d['at']) for d in map(json.loads, open(out))}
    jobs = []
    for f in sys.argv[4:] or FILES:
        text = open(os.path.join(base, 'theories', f + '.v')).read()
        seen = {}
        for e in edits(text):
            seen[e[0], e[4]] = seen.get((e[0], e[4]), 0) + 1
            if seen[e[0], e[4]] > int(os.environ.get('CAP', '2')):
                continue
            key = (f, e[0], text.count('\n', 0, e[1]) + 1, e[4], ' '.join(text[max(0, e[1] - 30):e[2] + 30].split()))
            if key not in done:
                jobs.append((f, text, e))
    print(len(jobs), flush=True)
    if os.environ.get('COUNT'):
        return
    with ThreadPoolExecutor(int(os.environ.get('JOBS', '4'))) as pool, open(out, 'a') as o:
        for d in pool.map(lambda x: r.one(x[0], *x[1]), enumerate(jobs)):
            o.write(json.dumps(d) + '\n'); o.flush()

if __name__ == '__main__':
    main()
