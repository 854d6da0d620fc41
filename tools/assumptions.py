#!/usr/bin/env python3
"""Write ASSUMPTIONS.md from the output of Print Assumptions of all property files."""
import glob, os, re, subprocess, tempfile
root = os.path.dirname(os.path.dirname(os.path.abspath(__file__)))
th = os.path.join(root, 'rocq', 'theories')
groups = {}
n = 0
for f in sorted(glob.glob(th + '/*Props*.v')):
    names = re.findall(r'^Print Assumptions (\w+)\.', open(f).read(), re.M)
    with tempfile.TemporaryDirectory() as tmp:
        out = os.path.join(tmp, os.path.basename(f) + 'o')
        r = subprocess.run(['coqc', '-Q', 'theories', 'Verif', '-o', out, f],
                           cwd=os.path.join(root, 'rocq'), capture_output=True, text=True)
    assert r.returncode == 0, (f, r.stderr)
    blocks = re.split(r'^(?=Axioms:|Closed under the global context)', r.stdout, flags=re.M)[1:]
    assert len(blocks) == len(names), (f, len(blocks), len(names))
    for name, b in zip(names, blocks):
        if b.startswith('Closed'):
            ax = ()
        else:
            ax = tuple(sorted(set(re.findall(r'^([A-Za-z_][\w.]*)(?: :|\s*$)', b[8:], re.M))))
        groups.setdefault(ax, []).append(name)
        n += 1
with open(os.path.join(root, 'ASSUMPTIONS.md'), 'w') as o:
    o.write('# Axioms used by the property theorems\n\n')
    o.write('Output of `Print Assumptions` for all %d property theorems, written by '
            '`tools/assumptions.py`.\nAll axioms are declared in the standard library of Coq 8.16; '
            'the development declares none.\n' % n)
    for ax in sorted(groups, key=len):
        o.write('\n## %s\n\n' % (', '.join('`%s`' % a for a in ax) or 'No axioms'))
        for name in sorted(groups[ax]):
            o.write('- %s\n' % name)
print(n, [(len(a), len(g)) for a, g in groups.items()])
