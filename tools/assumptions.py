"""Append the assumptions of every theorem of MANIFEST.json to DESIGN.md (section 5).
Run after building rocq/ in place."""
import json, os, re, subprocess, tempfile
root = os.path.dirname(os.path.dirname(os.path.abspath(__file__)))
M = json.load(open(root + '/MANIFEST.json'))
files = [l.strip() for l in open(root + '/rocq/_CoqProject') if l.strip().endswith('.v')]
where = {}
for f in files:
    for m in re.finditer(r'^\s*(?:Theorem|Lemma|Corollary)\s+(C\d+_\w+)', open(root + '/rocq/' + f).read(), re.M):
        where[m.group(1)] = os.path.basename(f)[:-2]
names = [t for c in M['claims'] for t in c['theorems']]
s = ''.join(f'From Verif Require {os.path.basename(f)[:-2]}.\n' for f in files)
for n in names:
    s += f'Goal True. idtac "@@ {n}". exact I. Qed.\nPrint Assumptions {where[n]}.{n}.\n'
with tempfile.TemporaryDirectory() as d:
    open(d + '/As.v', 'w').write(s)
    o = subprocess.run(['coqc', '-Q', root + '/rocq/theories', 'Verif', d + '/As.v'], capture_output=True, text=True)
assert o.returncode == 0, o.stderr
res, cur = {}, None
for l in o.stdout.splitlines():
    if l.startswith('@@ '):
        cur = l[3:]
        res[cur] = set()
        continue
    m = re.match(r'^([A-Za-z_][\w.]*)', l)
    if m and cur and not l.startswith(('Axioms', 'Closed')):
        res[cur].add(m.group(1).split('.')[-1])
assert set(res) == set(names)
groups = {}
for n, a in res.items():
    groups.setdefault(tuple(sorted(a)), []).append(n)
out = '## 5. Assumptions of each theorem (generated by tools/assumptions.py)\n\n'
for a, l in sorted(groups.items()):
    out += ('**No axioms** (closed under the global context): ' if not a else '**' + ', '.join(a) + '**: ') + ', '.join(f'`{n}`' for n in sorted(l)) + '.\n\n'
p = root + '/DESIGN.md'
t = open(p).read()
i = t.find('## 5. Assumptions')
open(p, 'w').write((t if i < 0 else t[:i]) + out.rstrip() + '\n')
print({k: len(v) for k, v in groups.items()})
