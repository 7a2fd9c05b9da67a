#!/usr/bin/env python3
"""Writes LocaleTab.v: the table of lib/localecharset/locale_table.h and the switch of windows_getcp.h."""
import re, sys
repo, out = sys.argv[1], sys.argv[2]
p = repo + '/lib/localecharset/'
rows = []
for n, l in enumerate(open(p + 'locale_table.h'), 1):
    m = re.match(r'\s*\{"([^"]+)",\s*"([^"]+)"\}', l)
    if m:
        rows.append((n, m.group(1), m.group(2)))
cases, pend, default = [], [], None
for n, l in enumerate(open(p + 'windows_getcp.h'), 1):
    l = re.sub(r'//.*', '', l)
    m = re.search(r'case\s+(\d+)\s*:', l)
    if m:
        pend.append((n, m.group(1)))
    if re.search(r'default\s*:', l):
        pend.append((n, None))
    m = re.search(r'return\s+"([^"]*)"', l)
    if m:
        for k, c in pend:
            if c is None:
                default = m.group(1)
            else:
                cases.append((c, m.group(1)))
        pend = []
with open(out + '/LocaleTab.v', 'w') as f:
    f.write('''(** Generated by tools/genlocale.py from lib/localecharset/locale_table.h and lib/localecharset/windows_getcp.h. *)
From Coq Require Import ZArith List String.
Import ListNotations.
Open Scope Z_scope.
Local Open Scope string_scope.

(** locale_table.h:%d-%d locale_table[] (the FreeBSD branch): the members locale and canonical. *)
Definition locale_table : list (string * string) := [
''' % (rows[0][0], rows[-1][0]))
    f.write(';\n'.join('  ("%s", "%s")' % (a, b) for _, a, b in rows))
    f.write('''].

(** windows_getcp.h:42-341 the cases of the switch and the strings they return. *)
Definition windows_cases : list (Z * string) := [
''')
    f.write(';\n'.join('  (%s, "%s")' % c for c in cases))
    f.write('].\n(** windows_getcp.h:342-343 the default case. *)\nDefinition windows_default : string := "%s".\n' % default)
