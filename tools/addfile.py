"""addfile.py File... : list files in _CoqProject and (re)write their Print Assumptions tail."""
import re, sys, os
root = os.path.join(os.path.dirname(__file__), '..', 'rocq')
proj = os.path.join(root, '_CoqProject')
for f in sys.argv[1:]:
    p = os.path.join(root, 'theories', f + '.v')
    s = open(p).read()
    s = re.sub(r'^Print Assumptions .*\n', '', s, flags=re.M).rstrip('\n') + '\n'
    t = re.findall(r'^Theorem (C\d\d\w+)', s, re.M)
    if t:
        s += '\n' + ''.join(f'Print Assumptions {x}.\n' for x in t)
    open(p, 'w').write(s)
    q = open(proj).read().rstrip('\n')
    if f'theories/{f}.v' not in q.split('\n'):
        open(proj, 'w').write(q + f'\ntheories/{f}.v\n')
