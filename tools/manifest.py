#!/usr/bin/env python3
"""Regenerate MANIFEST.json from the theorem names in rocq/theories/Properties*.v.

Each theorem Cnn_xxx belongs to property Cnn.  A property is "proved" when none of
its theorems carries the suffix _partial or _refuted and "partial" otherwise.
Notes come from tools/notes.json.
"""
import glob, json, re, os
root = os.path.dirname(os.path.dirname(os.path.abspath(__file__)))
thms = {}
for f in sorted(glob.glob(root + '/rocq/theories/Properties*.v')):
    for m in re.finditer(r'^Theorem ((C\d+)_\w+)', open(f).read(), re.M):
        thms.setdefault(m.group(2), []).append(m.group(1))
notes = json.load(open(root + '/tools/notes.json'))
claims = []
for line in open(root + '/properties.jsonl'):
    pid = json.loads(line)['id']
    ts = thms.pop(pid, [])
    if not ts:
        status = notes.get(pid, {}).get('status', 'partial')
        note = notes.get(pid, {}).get('note', 'not yet formalised')
    else:
        status = 'partial' if any(t.endswith(('_partial', '_refuted')) for t in ts) else 'proved'
        note = notes.get(pid, {}).get('note', '')
    claims.append({'property': pid, 'status': status, 'theorems': ts, 'note': note})
assert not thms, thms
json.dump({'claims': claims}, open(root + '/MANIFEST.json', 'w'), indent=1)
print({s: sum(c['status'] == s for c in claims) for s in ('proved', 'partial', 'not_applicable')})
