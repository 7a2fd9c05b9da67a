#!/usr/bin/env python3
"""Write Properties.v: Print Assumptions for every theorem named after a property.
Usage: genprops.py THEORIES"""
import re, sys, os
d = sys.argv[1]
mods = [l.strip()[len('theories/'):-2] for l in open(os.path.join(d, '..', '_CoqProject')) if re.match(r'theories/C_\w+\.v', l.strip())]
out = ["(** The theorems proved about the properties of properties.jsonl, and what they rest on: one Print Assumptions",
       "    for all of them together, so that what they share is traversed once. Generated by tools/genprops.py. *)",
       "From Verif Require Import %s." % ' '.join(mods)]
thms = []
for m in mods:
    names = re.findall(r'^Theorem (C\d\d_\w+)', open(os.path.join(d, m + '.v')).read(), re.M)
    if names:
        out.append('\n(** %s.v *)' % m)
        out.append('Definition props_%s := (%s).' % (m, ',\n  '.join(['tt'] + ['@' + n for n in names])))
        thms.append('props_' + m)
out.append('\nDefinition all_theorems := (%s).' % ', '.join(['tt'] + thms))
out.append('Print Assumptions all_theorems.')
open(os.path.join(d, 'Properties.v'), 'w').write('\n'.join(out) + '\n')
