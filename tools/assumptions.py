"""Group the theorems of Properties/*.v by what Print Assumptions lists for
them (run after a build); rewrites the last section of DESIGN.md with the result."""
import glob, os, re, subprocess, tempfile
ROOT = os.path.join(os.path.dirname(os.path.abspath(__file__)), '..', 'rocq')
TMP = tempfile.mkdtemp()
groups = {}
for f in sorted(glob.glob(ROOT + '/theories/Properties/*.v')):
    names = re.findall(r'^Print Assumptions (\w+)\.', open(f).read(), re.M)
    out = subprocess.run(['coqc', '-Q', 'theories', 'Verif', '-o', os.path.join(TMP, os.path.basename(f) + 'o'), os.path.relpath(f, ROOT)],
                         cwd=ROOT, capture_output=True, text=True).stdout
    blocks = re.split(r'^(?=Closed under the global context|Axioms:)', out, flags=re.M)[1:]
    assert len(blocks) == len(names), (f, len(blocks), len(names))
    for n, b in zip(names, blocks):
        ax = tuple(sorted(re.findall(r'^([\w.]+) :|^([\w.]+)\s*$', b.split('Axioms:')[-1], re.M))) if b.startswith('Axioms') else ()
        ax = tuple(sorted(x or y for x, y in ax))
        groups.setdefault(ax, []).append(n)
lines = []
for ax, ns in sorted(groups.items(), key=lambda kv: len(kv[0])):
    lines.append('* ' + ('no axioms' if not ax else ', '.join('`%s`' % a for a in ax))
                 + ' (%d theorems): ' % len(ns) + ', '.join(ns) + '.')
D = os.path.join(ROOT, '..', 'DESIGN.md')
MARK = '<!-- generated: python3 tools/assumptions.py -->'
text = open(D).read().split(MARK)[0] + MARK + '\n\n' + '\n'.join(lines) + '\n'
open(D, 'w').write(text)
