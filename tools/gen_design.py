#!/usr/bin/env python3
"""DESIGN.md from its parts, properties.jsonl and MANIFEST.json."""
import json, os, re
H = os.path.dirname(os.path.abspath(__file__)); V = os.path.join(H, '..')
props = [json.loads(l) for l in open(V + '/properties.jsonl')]
claims = {c['property']: c for c in json.load(open(V + '/MANIFEST.json'))['claims']}
where = {}
for f in sorted(os.listdir(V + '/rocq/theories')):
    if f.startswith('Props') and f.endswith('.v'):
        for n in re.findall(r'^Theorem (\w+)', open(V + '/rocq/theories/' + f).read(), re.M):
            where[n] = f
out = open(H + '/design_head.md').read()
out += '## Per property: what is proved and how\n\n'
out += 'The statements are in `properties.jsonl`; the exact formal statements are the theorems named here.\n\n'
out += open(H + '/design_how.md').read() + '\n'
for p in props:
    c = claims[p['id']]
    fs = sorted({where[t] for t in c['theorems']})
    out += f"* **{p['id']} {p['title']}** ({c['status']}; {', '.join(fs)}): " + ', '.join(f'`{t}`' for t in c['theorems']) + f". {c['note']}\n"
out += '\n' + open(H + '/design_findings.md').read()
open(V + '/DESIGN.md', 'w').write(out)
