#!/usr/bin/env python3
"""Generate MANIFEST.json from properties.jsonl, the Properties*.v files and notes.json."""
import json, re, glob, os
root = os.path.join(os.path.dirname(__file__), '..')
props = [json.loads(l) for l in open(os.path.join(root, 'properties.jsonl')) if l.strip()]
notes = json.load(open(os.path.join(root, 'tools', 'notes.json')))
thms = {}
for f in sorted(glob.glob(os.path.join(root, 'rocq/theories/Properties*.v'))):
    for m in re.findall(r'^Theorem ((C\d+)_\w+)', open(f).read(), re.M):
        thms.setdefault(m[1], []).append(m[0])
claims = []
for p in props:
    i = p['id']; t = thms.get(i, [])
    bad = any(x.endswith('_partial') or x.endswith('_refuted') for x in t)
    st = 'partial' if (bad or not t) else 'proved'
    n = notes.get(i, '')
    claims.append({'property': i, 'status': st, 'theorems': t,
                   'note': n if t else (n or 'not yet proved')})
    if not t: print('no theorem for', i)
open(os.path.join(root, 'MANIFEST.json'), 'w').write(json.dumps({'claims': claims}, indent=1) + '\n')
