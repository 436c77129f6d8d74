#!/usr/bin/env python3
"""Rebuilds MANIFEST.json: theorem names are collected from theories/Props
(every theorem is named <property>_...), status and notes from tools/status.json."""
import json, os, re, glob
R = os.path.join(os.path.dirname(os.path.abspath(__file__)), '..')
status = json.load(open(os.path.join(R, 'tools', 'status.json')))
props = [json.loads(l)['id'] for l in open(os.path.join(R, 'properties.jsonl')) if l.strip()]
th = {p: [] for p in props}
for f in sorted(glob.glob(os.path.join(R, 'rocq/theories/Props/*.v'))):
    for m in re.finditer(r'^Theorem ((C\d+)_\w+)', open(f).read(), re.M):
        th[m.group(2)].append(m.group(1))
claims = []
for p in props:
    st, note = status.get(p, [None, ''])
    if not th[p] and st != 'not_applicable':
        continue
    if st is None:
        st = 'partial' if any('_partial' in t for t in th[p]) else 'proved'
    claims.append({'property': p, 'status': st, 'theorems': th[p], 'note': note})
with open(os.path.join(R, 'MANIFEST.json'), 'w') as o:
    o.write('{"claims": [\n' + ',\n'.join(' ' + json.dumps(c) for c in claims) + '\n]}\n')
for c in claims:
    print(c['property'], c['status'], len(c['theorems']))
print('missing', [p for p in props if not th[p]])
