#!/usr/bin/env python3
"""Regenerate the assumptions section of DESIGN.md (between the markers) from
Print Assumptions of every theorem named in MANIFEST.json. Needs a built tree."""
import json, os, re, subprocess, tempfile
root = os.path.dirname(os.path.dirname(os.path.abspath(__file__)))
rocq = os.path.join(root, 'rocq')
files = [l.strip() for l in open(os.path.join(rocq, '_CoqProject')) if l.strip().endswith('.v')]
where = {}
for f in files:
    for n in re.findall(r'^\s*(?:Theorem|Corollary)\s+(C\d\d+_\w+)', open(os.path.join(rocq, f)).read(), re.M):
        where[n] = os.path.basename(f)[:-2]
claims = json.load(open(os.path.join(root, 'MANIFEST.json')))['claims']
names = [t.split('.')[-1] for c in claims for t in c['theorems']]
body = 'From Coq Require Import String.\nOpen Scope string_scope.\n'
for m in sorted(set(where[n] for n in names)):
    body += 'Require Verif.%s.\n' % m
for n in names:
    body += 'Check "@@%s".\nPrint Assumptions Verif.%s.%s.\n' % (n, where[n], n)
d = tempfile.mkdtemp()
open(d + '/A.v', 'w').write(body)
out = subprocess.run('coqc -Q %s/theories Verif A.v' % rocq, shell=True, cwd=d, capture_output=True, text=True)
assert out.returncode == 0, out.stderr
deps, cur = {}, None
for l in out.stdout.split('\n'):
    m = re.search(r'"@@(\w+)"', l)
    if m:
        cur = m.group(1); deps[cur] = []; continue
    m = re.match(r'([A-Za-z_][\w\.\']*)( :|$)', l)
    if m and cur and m.group(1) not in ('Axioms', 'Closed'):
        deps[cur].append(m.group(1).split('.')[-1])
groups = {}
for n in names:
    groups.setdefault(tuple(sorted(deps[n])), []).append(n)
text = ''
for g, l in sorted(groups.items(), key=lambda x: len(x[0])):
    text += '* %s (%d theorems): %s\n' % (', '.join('`%s`' % a for a in g) if g else '*closed under the global context*', len(l), ', '.join(l))
p = os.path.join(root, 'DESIGN.md')
s = open(p).read()
a, b = '<!-- assumptions -->\n', '<!-- end assumptions -->'
i, j = s.index(a) + len(a), s.index(b)
open(p, 'w').write(s[:i] + text + s[j:])
print({g: len(l) for g, l in groups.items()})
