#!/usr/bin/env python3
"""Print, for every theorem of MANIFEST.json, the axioms Print Assumptions lists (needs a build)."""
import json, re, subprocess, sys, collections, glob, os
here = os.path.dirname(os.path.abspath(__file__))
th = os.path.join(here, '..', 'rocq', 'theories')
names = [t for c in json.load(open(os.path.join(here, '..', 'MANIFEST.json')))['claims'] for t in c['theorems']]
where = {}
for f in glob.glob(th + '/*.v'):
    for m in re.finditer(r'^(?:Theorem|Lemma|Example|Corollary)\s+(\w+)', open(f).read(), re.M):
        where.setdefault(m.group(1), os.path.basename(f)[:-2])
mods = sorted({where[n.split('.')[-1]] for n in names})
src = ''.join('Require Verif.%s.\n' % m for m in mods)
for n in names:
    n = n.split('.')[-1]
    src += 'Check 0.\nPrint Assumptions Verif.%s.%s.\n' % (where[n], n)
open('/tmp/assumptions_check.v', 'w').write(src)
out = subprocess.run(['coqc', '-Q', th, 'Verif', '/tmp/assumptions_check.v'], capture_output=True, text=True)
assert out.returncode == 0, out.stderr
parts = out.stdout.split('0\n     : nat\n')[1:]
assert len(parts) == len(names), (len(parts), len(names))
use = collections.defaultdict(list)
for n, p in zip(names, parts):
    if 'Closed under' not in p:
        for a in re.findall(r'^([A-Za-z_][\w.]*)\s*(?::|$)', p, re.M):
            if a != 'Axioms': use[a].append(n)
for a in sorted(use): print(a, len(use[a]))
print(sorted({n for l in use.values() for n in l}))
