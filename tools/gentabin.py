#!/usr/bin/env python3
"""Write TabIn_sb.v and TabIn_cjk.v: size and range of every constant table, and for Summary16 tables the
   extent of the charset entries they select."""
import re, os
T = os.path.join(os.path.dirname(__file__), '..', 'rocq', 'theories')
def tables(f):
    t = open('%s/%s.v' % (T, f)).read()
    for m in re.finditer(r'^Definition (\w+) : tab := mk \[(.*?)\]\]\.', t, re.S | re.M):
        yield m.group(1), [int(x) for x in re.findall(r'-?\d+', m.group(2).split('(*')[0])]
    if f == 'Tab_cnsinv':
        v = []
        for k in (1, 2, 3):
            v += [int(x) for x in re.findall(r'\d+', open('%s/Tab_cnsinv%d.v' % (T, k)).read().split(':= [')[1])]
        yield 'cns11643_inv_2charset', v
def emit(out, mods, head):
    tabs = {}
    for f in mods:
        for n, v in tables(f): tabs[n] = v
    o = ['(** GENERATED by tools/gentabin.py; do not edit.', '    %s *)' % head,
         'From Coq Require Import ZArith List Bool.', 'From Verif Require Import Base Reflect EncLib TabLib.',
         'From Verif Require Import %s.' % ' '.join(mods), 'Import ListNotations.', 'Open Scope Z_scope.', '']
    ti, si, ci = [], [], []
    for n, v in tabs.items():
        m = re.match(r'(\w+)_uni2indx_page\w+$', n)
        cs = None
        if m: cs = [c for c in (m.group(1) + '_2charset', m.group(1) + '_inv_2charset') if c in tabs][0]
        if n == 'jisx0213_from_ucs_level2_2indx': cs = 'jisx0213_from_ucs_level2_data'
        if cs:
            L = len(tabs[cs])
            if cs == 'cns11643_inv_2charset': L //= 3
            o += ['Lemma si_%s : sumin %s %d %d.' % (n, n, len(v) // 2, L), 'Proof. apply sumin_chk. vm_cast_no_check (eq_refl true). Qed.']
            si.append(n)
            continue
        lo, hi = min(v), max(v)
        o += ['Lemma ti_%s : tabin %s %d (%d) %d.' % (n, n, len(v), lo, hi), 'Proof. apply tabin_chk. vm_cast_no_check (eq_refl true). Qed.']
        ti.append(n)
        if n.endswith('_2charset') and max(v) >= 256:
            b = [x >> 8 for x in v] + [x & 255 for x in v]
            o += ['Lemma cs_%s : tchk %s %d (csok (inr %d %d)) = true.' % (n, n, len(v), min(b), max(b)), 'Proof. vm_cast_no_check (eq_refl true). Qed.']
            ci.append(n)
    for nm, l in (('ti', ti), ('si', si), ('cs', ci)):
        if l: o += ['', 'Ltac %s_of t := lazymatch t with' % nm] + ['  | %s => constr:(%s_%s)' % (n, nm, n) for n in l] + ['  end.']
    open('%s/%s.v' % (T, out), 'w').write('\n'.join(o) + '\n')
    print(out, len(ti), len(si), len(ci))
emit('TabIn_sb', ['Conv_uni', 'Conv_sb', 'Conv_ebcdic'], 'Sizes and ranges of the tables of the single-byte encodings.')
emit('TabIn_cjk', ['Conv_iso2022', 'Conv_cjk', 'Tab_big5', 'Tab_cns', 'Tab_cnsinv', 'Tab_gb', 'Tab_jis', 'Tab_ks'], 'Sizes and ranges of the tables of the multi-byte encodings.')
