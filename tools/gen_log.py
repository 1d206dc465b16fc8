#!/usr/bin/env python3
"""Collects the outputs of mutate.py, witness.py and claims.py (files given as arguments, later ones win) in seeded/LOG.jsonl.

theorems_failed: theorems that rest on a proof that fails (the statement may still be true);
witness: the parts of the result of tracing that were computed to be different;
claims_false: the claims for which a counterexample was computed."""
import json, os, re, sys
H = os.path.dirname(os.path.abspath(__file__))
LOG = os.path.join(H, '..', 'seeded', 'LOG.jsonl')
# Theorems that proved although the edit made their claim false, and were made stronger afterwards.
TIGHTENED = {
    'F03': ['C43_json'], 'F04': ['C43_json'], 'F07': ['C43_json'],
    'F08': ['C44_places'], 'F09': ['C44_phrases'], 'F10': ['C44_notes', 'C44_phrases'], 'F11': ['C44_notes', 'C44_phrases'],
}
try:
    from tightened import MORE
    TIGHTENED.update(MORE)
except ImportError:
    pass
lines, witness, computed = {}, {}, {}
if os.path.exists(LOG):
    for l in open(LOG):
        if l.strip():
            d = json.loads(l); lines[d['name']] = d
for a in sys.argv[1:]:
    for l in open(a):
        d = json.loads(l)
        if 'parts' in d:
            witness[d['name']] = d
            continue
        if 'error' in d:
            continue
        if 'falsified' in d:
            computed[d['name']] = d['falsified']
            continue
        lines[d['name']] = {'name': d['name'], 'definition': d['definition'], 'edit': d['edit'], 'claim': d['claim'],
            'theorems_failed': [t for t in d['property_theorems'] if not t.endswith('_example')],
            'proofs_broken': d['failed'],
            'tightened': TIGHTENED.get(d['name'], [])}
# The words come from mutants.py, also for lines written earlier.
sys.path.insert(0, H)
from mutants import MUTANTS
WORDS = {x['name']: x for x in MUTANTS}
for n, d in lines.items():
    if n in WORDS:
        for k in ('definition', 'edit', 'claim'):
            d[k] = WORDS[n][k]
for n, w in witness.items():
    if n in lines:
        lines[n]['witness'] = w['parts']
        lines[n]['claims_false'] = w['claims_false']
for n, cs in computed.items():
    # checks.txt computes more than the claim fixes: only the claim of the mutant counts
    mine = [c for c in re.findall(r'C\d\d+', lines[n]['claim']) if c in cs] if n in lines else []
    if mine:
        lines[n]['claims_false'] = sorted(set(lines[n].get('claims_false', []) + mine))
with open(LOG, 'w') as f:
    for n in sorted(lines, key=lambda n: (re.match(r'\D+', n).group(), n)):
        lines[n]['tightened'] = TIGHTENED.get(n, lines[n].get('tightened', []))
        f.write(json.dumps(lines[n], ensure_ascii=False) + '\n')
for d in lines.values():
    if not any(t.startswith(d['claim']) for t in d['theorems_failed']):
        print('NOT CAUGHT BY ITS CLAIM:', d['name'], d['claim'], d['edit'], d['theorems_failed'])
