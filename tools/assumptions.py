#!/usr/bin/env python3
"""Writes ASSUMPTIONS.md: what Print Assumptions says of every theorem named in MANIFEST.json.
Run after the build, from anywhere."""
import json, os, re, subprocess, tempfile
root = os.path.dirname(os.path.dirname(os.path.abspath(__file__)))
th = os.path.join(root, 'rocq', 'theories')
where = {}
for f in sorted(os.listdir(th)):
    if f.endswith('.v'):
        for m in re.finditer(r'^\s*(?:Theorem|Lemma|Corollary|Example|Definition)\s+(\w+)', open(os.path.join(th, f)).read(), re.M):
            where.setdefault(m.group(1), []).append(f[:-2])
claims = json.load(open(os.path.join(root, 'MANIFEST.json')))['claims']
names = []
for c in claims:
    for t in c['theorems']:
        if t not in names:
            names.append(t)
out = ['# Print Assumptions of every theorem in MANIFEST.json', '', '| theorem | file | assumptions |', '|---|---|---|']
mods = {}
for n in names:
    fs = [f for f in where[n] if f.endswith(('Theorems', 'Total')) or True]
    mods.setdefault(fs[-1], []).append(n)
ans = {}
for f, ns in mods.items():
    src = 'From Verif Require Import %s.\n' % f + ''.join('Print Assumptions %s.%s.\n' % (f, n) for n in ns)
    d = tempfile.mkdtemp(); p = os.path.join(d, 'A.v'); open(p, 'w').write(src)
    r = subprocess.run(['coqc', '-Q', th, 'Verif', p], capture_output=True, text=True)
    assert r.returncode == 0, (f, r.stderr)
    lines = [l for l in r.stdout.split('\n') if l.strip()]
    assert len(lines) == len(ns) and all(l == 'Closed under the global context' for l in lines), (f, r.stdout)
    for n in ns:
        ans[n] = (f, 'none (closed under the global context)')
for n in names:
    out.append('| %s | %s.v | %s |' % (n, *ans[n]))
open(os.path.join(root, 'ASSUMPTIONS.md'), 'w').write('\n'.join(out) + '\n')
