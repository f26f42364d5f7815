#!/usr/bin/env python3
"""Generate rocq/theories/PropertiesX.v from rocq/theories/ClaimsX.v.

In a Claims file a lemma preceded by a comment starting with `@prop NAME:` is a
property theorem, one preceded by `@ex NAME:` is the concrete instance shown
beside it.  The generated file contains only the statements, each closed by
`exact`, with Print Assumptions under every theorem.
"""
import re, sys, glob, os
base = os.path.join(os.path.dirname(__file__), '..', 'rocq', 'theories')
tag = re.compile(r'\(\*\* @(prop|ex) (\w+):(.*?)\*\)\s*Lemma (\w+)\s*:(.*?)\nProof\.', re.S)
for f in sorted(glob.glob(os.path.join(base, 'Claims*.v'))):
    name = os.path.basename(f)[len('Claims'):-2]
    src = open(f).read()
    header = src[:src.index('(* @end-header *)')]
    hdr = header[header.index('From Coq'):]
    out = ['(** * Property theorems: %s' % name, '',
           '    Statements only; every proof is [exact] of a lemma in Claims%s.v.' % name,
           '    Generated by tools/mkprops.py. *)', '', hdr.rstrip(),
           'From Verif Require Import Claims%s.' % name, '']
    n = 0
    for kind, nm, doc, lem, stmt in tag.findall(src):
        stmt = stmt.rstrip()
        assert stmt.endswith('.'), (nm, stmt[-40:])
        out.append('(** %s:%s*)' % (nm, doc))
        kw = 'Theorem' if kind == 'prop' else 'Example'
        out.append('%s %s :%s' % (kw, nm, stmt))
        out.append('Proof. exact %s. Qed.' % lem)
        if kind == 'prop':
            n += 1
            out.append('Print Assumptions %s.' % nm)
        out.append('')
    txt = '\n'.join(out)
    p = os.path.join(base, 'Properties%s.v' % name)
    if not os.path.exists(p) or open(p).read() != txt:
        open(p, 'w').write(txt)
    print(name, n)
    if src.count('@prop') + src.count('@ex') != len(tag.findall(src)):
        print('  WARNING: unparsed tags in', f)
