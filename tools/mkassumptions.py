#!/usr/bin/env python3
"""Fill section 5 of DESIGN.md with what Print Assumptions reports.

Compiles every Properties*.v of the built tree again and reads the output;
theorems are grouped by the set of axioms they depend on."""
import os, re, subprocess, sys
ROOT = os.path.dirname(os.path.dirname(os.path.abspath(__file__)))
TH = ROOT + '/rocq/theories'
groups, names = {}, {}
for f in sorted(os.listdir(TH)):
    if not re.match(r'Properties\w+\.v$', f):
        continue
    out = subprocess.run(['coqc', '-Q', 'theories', 'Verif', 'theories/' + f], cwd=ROOT + '/rocq',
                         capture_output=True, text=True).stdout
    thms = re.findall(r'Print Assumptions (\w+)\.', open(TH + '/' + f).read())
    blocks = re.split(r'(?m)^(?=Axioms:|Closed under the global context)', out)[1:]
    assert len(blocks) == len(thms), (f, len(blocks), len(thms))
    for t, b in zip(thms, blocks):
        ax = tuple(sorted(set(re.findall(r'(?m)^([A-Za-z_][\w.]*)\s*(?=:)', b)) - {'Axioms'}))
        groups.setdefault(ax, []).append(t)
text = '## 5. Assumptions per theorem\n\n'
text += ('What `Print Assumptions` prints under each theorem of the `Properties*.v` files, grouped by the set of\n'
         'axioms; all of them are axioms of the Coq standard library. Generated by `tools/mkassumptions.py`.\n\n')
for ax, ts in sorted(groups.items(), key=lambda g: (len(g[0]), g[0])):
    text += '* ' + ('**no axioms (closed under the global context)**' if not ax
                    else ', '.join('`%s`' % a for a in ax)) + ' — '
    text += ', '.join(sorted(ts)) + '.\n'
p = ROOT + '/DESIGN.md'
s = open(p).read()
i = s.index('## 5. Assumptions per theorem')
j = s.find('\n## 6', i)
s = s[:i] + text + (s[j:] if j > 0 else '')
open(p, 'w').write(s)
print(sum(map(len, groups.values())), 'theorems', len(groups), 'groups')
