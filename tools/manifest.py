#!/usr/bin/env python3
"""Write MANIFEST.json.  Usage: python3 tools/manifest.py > MANIFEST.json

Collects the theorems of rocq/theories/P*.v named Cnn_... and adds status and notes."""
import glob, json, os, re
ROOT = os.path.dirname(os.path.dirname(os.path.abspath(__file__)))
thms = {}
for f in sorted(glob.glob(ROOT + '/rocq/theories/P[0-9]*_*.v')):
    for m in re.finditer(r'^Theorem (C\d\d+)_(\w+)', open(f).read(), re.M):
        thms.setdefault(m.group(1), []).append(m.group(1) + '_' + m.group(2))
notes = json.load(open(ROOT + '/tools/notes.json'))
claims = []
for l in open(ROOT + '/properties.jsonl'):
    pid = json.loads(l)['id']
    n = notes.get(pid, {})
    ts = thms.get(pid, [])
    status = n.get('status') or ('proved' if ts else 'partial')
    if not ts and not n.get('status'):
        continue
    if all(t.endswith('_partial') for t in ts) and not n.get('status'):
        status = 'partial'
    claims.append({'property': pid, 'status': status, 'theorems': ts, 'note': n.get('note', '')})
print(json.dumps({'claims': claims}, indent=1))
