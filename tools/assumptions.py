#!/usr/bin/env python3
"""Writes ASSUMPTIONS.md: what Print Assumptions lists for every property theorem (recompiles theories/Prop_*.v)."""
import re, glob, subprocess, os
root = os.path.dirname(os.path.dirname(os.path.abspath(__file__)))
th = root + '/rocq/theories'
rows = []
for f in sorted(glob.glob(th + '/Prop_*.v')):
    out = subprocess.run(['coqc', '-Q', '.', 'Verif', os.path.basename(f)], cwd=th, capture_output=True, text=True).stdout
    blocks = [b for b in re.split(r'(?=^Closed under|^Axioms:)', out, flags=re.M) if b.strip()]
    names = re.findall(r'Print Assumptions (\w+)', open(f).read())
    assert len(names) == len(blocks), f
    for n, b in zip(names, blocks):
        ax = sorted({a.split('.')[-1] for a in re.findall(r'^([\w.]+)\s*(?::|$)', b, re.M)} - {'Axioms'})
        rows.append((n, os.path.basename(f), ax))
rows.sort()
with open(root + '/ASSUMPTIONS.md', 'w') as o:
    o.write('# Print Assumptions, theorem by theorem (generated by tools/assumptions.py)\n\n')
    o.write('"none" = "Closed under the global context". All names are axioms of the Coq standard library: `classic` (Coq.Logic.Classical_Prop), '
            '`functional_extensionality_dep` (Coq.Logic.FunctionalExtensionality), `sig_forall_dec` and `sig_not_dec` (Coq.Reals.ClassicalDedekindReals).\n\n')
    o.write('| theorem | file | axioms |\n|---|---|---|\n')
    for n, f, ax in rows:
        o.write('| %s | %s | %s |\n' % (n, f, ', '.join(ax) or 'none'))
print(len(rows), 'theorems', sum(1 for r in rows if not r[2]), 'without axioms')
