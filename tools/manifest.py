#!/usr/bin/env python3
"""Regenerates MANIFEST.json: theorems are collected by their Cnn_ prefix, notes from tools/notes.json."""
import re, json, glob, os
here = os.path.dirname(os.path.abspath(__file__)); root = os.path.dirname(here)
notes = json.load(open(os.path.join(here, 'notes.json')))
ids = [json.loads(l)['id'] for l in open(os.path.join(root, 'properties.jsonl')) if l.strip()]
order = [l.strip() for l in open(os.path.join(root, 'rocq/_CoqProject')) if l.strip().endswith('.v')]
th = {i: [] for i in ids}
for f in order:
    for m in re.finditer(r'^\s*(?:Theorem|Corollary|Lemma)\s+((?:C\d+_)+[A-Za-z0-9_]+)', open(os.path.join(root, 'rocq', f)).read(), re.M):
        for c in re.findall(r'C\d+(?=_)', re.match(r'(?:C\d+_)+', m.group(1)).group(0)):
            if c in th: th[c].append(m.group(1))
claims = []
for i in ids:
    if not th[i]:
        if i in notes and notes[i].startswith('NA:'):
            claims.append(dict(property=i, status='not_applicable', theorems=[], note=notes[i][3:].strip()))
        continue
    part = any(t.endswith('_partial') or t.endswith('_refuted') for t in th[i])
    claims.append(dict(property=i, status='partial' if part else 'proved', theorems=th[i], note=notes.get(i, '')))
with open(os.path.join(root, 'MANIFEST.json'), 'w') as f:
    f.write('{"claims": [\n' + ',\n'.join(json.dumps(c) for c in claims) + '\n]}\n')
print({s: sum(c['status'] == s for c in claims) for s in ('proved', 'partial', 'not_applicable')}, 'missing', [i for i in ids if i not in [c['property'] for c in claims]])
