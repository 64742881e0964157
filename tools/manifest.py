#!/usr/bin/env python3
"""Regenerate MANIFEST.json from the theorem names in Properties*.v and notes.json."""
import glob, json, os, re
root = os.path.dirname(os.path.dirname(os.path.abspath(__file__)))
props = [json.loads(l) for l in open(root + '/properties.jsonl') if l.strip()]
notes = json.load(open(root + '/tools/notes.json'))
thms = {}
for f in sorted(glob.glob(root + '/rocq/theories/Properties*.v')):
    for m in re.finditer(r'^\s*(?:Theorem|Lemma|Corollary)\s+(C\d+)(_\w+)', open(f).read(), re.M):
        thms.setdefault(m.group(1), []).append(m.group(1) + m.group(2))
claims = []
for p in props:
    i = p['id']
    n = notes.get(i, {})
    t = thms.get(i, [])
    st = n.get('status')
    if st is None:
        st = 'not_applicable' if not t else (
            'partial' if any(x.endswith(('_partial', '_refuted')) for x in t) else 'proved')
    note = n.get('note', '' if t else 'not modelled yet')
    claims.append(dict(property=i, status=st, theorems=t, note=note))
json.dump({'claims': claims}, open(root + '/MANIFEST.json', 'w'), indent=1)
from collections import Counter
print(Counter(c['status'] for c in claims), sum(len(c['theorems']) for c in claims))
