#!/usr/bin/env python3
"""Write what Print Assumptions says for each property theorem into DESIGN.md
(between the markers).  Needs the compiled files; recompiles only Properties*.v."""
import glob, os, re, subprocess
root = os.path.dirname(os.path.dirname(os.path.abspath(__file__)))
th = os.path.join(root, 'rocq', 'theories')
short = {'ClassicalDedekindReals.sig_forall_dec': 'S', 'ClassicalDedekindReals.sig_not_dec': 'N',
         'FunctionalExtensionality.functional_extensionality_dep': 'F', 'Classical_Prop.classic': 'C'}
rows = []
for f in sorted(glob.glob(th + '/Properties*.v')):
    names = re.findall(r'^Print Assumptions (\w+)\.', open(f).read(), re.M)
    out = subprocess.run(['coqc', '-Q', th, 'Verif', '-o', '/tmp/' + os.path.basename(f) + 'o', f],
                         capture_output=True, text=True).stdout
    blocks = re.split(r'^(?=Axioms:|Closed under)', out, flags=re.M)
    blocks = [b for b in blocks if b.startswith(('Axioms', 'Closed'))]
    assert len(blocks) == len(names), (f, len(blocks), len(names))
    for n, b in zip(names, blocks):
        ax = re.findall(r'^([A-Za-z_][\w.]*\w)(?= :|\n)', b, re.M)
        ax = [a for a in ax if a not in ('Axioms', 'Closed')]
        for a in ax: assert a in short, a
        rows.append((n, ''.join(short[a] for a in short if a in ax) or '-'))
groups = {}
for n, a in rows: groups.setdefault(a, []).append(n)
txt = ''.join('\n`%s` (%d theorems): %s.\n' % (a, len(ns), ', '.join(ns)) for a, ns in sorted(groups.items()))
p = os.path.join(root, 'DESIGN.md'); s = open(p).read()
i, j = s.index('<!-- assumptions -->'), s.index('<!-- end -->')
open(p, 'w').write(s[:i] + '<!-- assumptions -->\n' + txt + '\n' + s[j:])
print({a: len(ns) for a, ns in groups.items()})
