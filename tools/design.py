#!/usr/bin/env python3
"""DESIGN.md from design_head.md, coverage.json, MANIFEST.json and Print Assumptions.
Needs a built tree (VERIF/rocq/theories/*.vo)."""
import glob, json, os, re, subprocess, tempfile
V = os.path.dirname(os.path.dirname(os.path.abspath(__file__)))
T = V + '/rocq/theories'
claims = json.load(open(V + '/MANIFEST.json'))['claims']
props = {}
for l in open(V + '/properties.jsonl'):
    p = json.loads(l); props[p['id']] = p
src = {}
for f in glob.glob(T + '/*Props.v'):
    for t in re.findall(r'^\s*Theorem (\w+)', open(f).read(), re.M):
        src[t] = os.path.basename(f)[:-2]
names = [t for c in claims for t in c['theorems']]
d = tempfile.mkdtemp()
s = ''.join('Require Verif.%s.\n' % m for m in sorted(set(src.values())))
s += ''.join('Redirect "%s/%s" Print Assumptions Verif.%s.%s.\n' % (d, n, src[n], n) for n in names)
open(d + '/q.v', 'w').write(s)
subprocess.run(['coqc', '-Q', T, 'Verif', d + '/q.v'], check=True, capture_output=True)
ax = {}
for n in names:
    t = open('%s/%s.out' % (d, n)).read()
    a = () if 'Closed' in t else tuple(sorted(x for x in re.findall(r'^([\w.]+)(?:\s*:|$)', t, re.M) if x != 'Axioms'))
    ax.setdefault(a, []).append(n)
head = open(V + '/tools/design_head.md').read()
cov = json.load(open(V + '/tools/coverage.json'))
head = head.replace('@COVERAGE@', '\n'.join('| %s |' % ' | '.join(r) for r in cov))
o = [head, '## Status and findings per property\n',
     '| id | property | status | note |', '|----|----------|--------|------|']
for c in claims:
    o.append('| %s | %s | %s | %s |' % (c['property'], props[c['property']]['title'], c['status'], c['note'].replace('|', '/')))
o += ['', 'Theorems per property, and their files:\n']
for c in claims:
    fs = sorted({src[t] for t in c['theorems']})
    o.append('* %s (%s): %s' % (c['property'], ', '.join(f + '.v' for f in fs), ', '.join(c['theorems'])))
o += ['', '## Axioms (what Print Assumptions lists)\n']
for a, l in sorted(ax.items(), key=lambda x: len(x[0])):
    if not a:
        o.append('* Closed under the global context (no axioms): the %d theorems of MANIFEST.json not named below.' % len(l))
    else:
        o.append('* %s: %s.' % (', '.join('`%s`' % x for x in a), ', '.join(l)))
o.append('\nAll of these are axioms of the Coq standard library (classical reals and function extensionality).')
open(V + '/DESIGN.md', 'w').write('\n'.join(o) + '\n')
