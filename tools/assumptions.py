#!/usr/bin/env python3
"""Write ASSUMPTIONS.md: what Print Assumptions lists for every theorem of the Prop_*.v files.
Run after a build: every Prop_*.v is checked again in a scratch directory and its output read."""
import glob, os, re, subprocess, tempfile, collections
here = os.path.dirname(os.path.abspath(__file__))
th = os.path.join(here, '..', 'rocq', 'theories')
sets = collections.OrderedDict()
for f in sorted(glob.glob(th + '/Prop_*.v')):
    names = re.findall(r'^\s*Print Assumptions (\w+)\.', open(f).read(), re.M)
    with tempfile.TemporaryDirectory() as t:
        o = os.path.join(t, 'out.vo')
        r = subprocess.run(['coqc', '-Q', th, 'Verif', '-o', os.path.join(t, os.path.basename(f) + 'o'), f], capture_output=True, text=True)
    assert r.returncode == 0, r.stderr
    blocks = re.split(r'^(?=Axioms:|Closed under the global context)', r.stdout, flags=re.M)[1:]
    assert len(blocks) == len(names), (f, len(blocks), len(names))
    for n, b in zip(names, blocks):
        ax = tuple(sorted(set(re.findall(r'^([A-Z][\w.]*\.\w+|[a-z]\w*)\s*(?::|$)', b[7:], re.M)))) if b.startswith('Axioms') else ()
        sets.setdefault(ax, []).append(n)
out = open(os.path.join(here, '..', 'ASSUMPTIONS.md'), 'w')
out.write('# What Print Assumptions lists\n\nWritten by tools/assumptions.py from the output of the `Prop_*.v` files.\n')
for ax, ns in sorted(sets.items(), key=lambda x: len(x[0])):
    out.write('\n## ' + ('Closed under the global context' if not ax else '%d axioms' % len(ax)) + '\n\n')
    for a in ax: out.write('* `%s`\n' % a)
    if ax: out.write('\n')
    out.write('Theorems: ' + ', '.join('`%s`' % n for n in ns) + '.\n')
print(sum(len(n) for n in sets.values()), 'theorems', len(sets), 'sets')
