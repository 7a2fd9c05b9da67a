"""Write Indexes.v, Encodings.v and AliasTab.v from lib/encodings.h.snippet and lib/generated/aliases.h."""
import re, os, sys
from c2coq import Tr
from gen import write
REPO = '/repo/lib/'
def strip(s):
    s = re.sub(r'/\*.*?\*/', lambda m: '\n' * m.group(0).count('\n'), s, flags=re.S)
    return re.sub(r'//[^\n]*', '', s)
def parse():
    src = strip(open(REPO + 'encodings.h.snippet').read())
    encs = []; cps = []; idx = []
    for m in re.finditer(r'DEFENCODING\(\((.*?)\),\s*(\w+),\s*(\w+),\s*\{(\w+),\s*(\w+)\},\s*\{(\w+),\s*(\w+)\}\)|DEFCODEPAGE\((\d+),\s*(\w+)\)|DEFINDEX\((\w+),\s*(\w+)\)', src, re.S):
        line = src[:m.start()].count('\n') + 1; line2 = src[:m.end()].count('\n') + 1
        if m.group(1) is not None:
            encs.append(([''.join(re.findall(r'"([^"]*)"', x)) for x in re.findall(r'"[^"]*"(?:\s*"[^"]*")*', m.group(1))],  # adjacent literals are joined
                 m.group(2), m.group(3), m.group(4), m.group(5), m.group(6), m.group(7), line, line2))
        elif m.group(8): cps.append((int(m.group(8)), m.group(9), line))
        else: idx.append((m.group(10), m.group(11), line))
    assert len(re.findall(r'^DEFENCODING', src, re.M)) == len(encs), (len(encs))
    assert len(re.findall(r'^DEFCODEPAGE', src, re.M)) == len(cps)
    assert len(re.findall(r'^DEFINDEX', src, re.M)) == len(idx)
    return encs, cps, idx
HDR = '(** GENERATED by tools/gennames.py; do not edit.\n    %s *)\n'
def main():
    encs, cps, idx = parse()
    tr = Tr()
    t = HDR % 'lib/encoding_indexes.h:28-40: the anonymous enum of encoding indexes, in the order of lib/encodings.h.snippet.'
    t += 'From Coq Require Import ZArith.\nOpen Scope Z_scope.\n\n'
    for i, e in enumerate(encs): t += '(* lib/encodings.h.snippet:%d *)\nDefinition ei_%s : Z := %d.\n' % (e[7], e[1], i)
    t += '(* lib/encoding_indexes.h:34 *)\nDefinition ei_end : Z := %d.\n' % len(encs)
    write('Indexes', t)
    mods = 'Base Indexes Loop Conv_uni Conv_sb Conv_ebcdic Conv_set_ja Conv_set_zh Conv_set_ko Conv_cjk Conv_iso2022'
    t = HDR % 'lib/all_encodings.h:35-37 all_encodings[].'
    t += 'From Coq Require Import ZArith List Bool String.\nFrom Verif Require Import %s.\nImport ListNotations.\nOpen Scope Z_scope.\n\n' % mods
    t += '(** Converters that do not touch the descriptor, as functions that return it unchanged. *)\n'
    t += 'Definition mb0 (f : list Z -> nat -> res (Z * option Z)) (s : list Z) (n : nat) (ist ibo : Z) : res (Z * option Z * Z * Z) :=\n  bind (f s n) (fun \'(r, w) => Ok (r, w, ist, ibo)).\n'
    t += 'Definition wc0 (f : Z -> nat -> res (Z * wlog)) (wc : Z) (n : nat) (ost : Z) : res (Z * wlog * Z) :=\n  bind (f wc n) (fun \'(r, l) => Ok (r, l, ost)).\n\n'
    def rs_(n):   # object-like macros such as cp943_mbtowc -> cp932_mbtowc
        while n != 'NULL' and n in tr.pp.macros: n = tr.pp.macros[n][1][0].t
        return n
    for names, x, ix, mb, fl, wc, rs, l1, l2 in encs:
        mb, fl, wc, rs = rs_(mb), rs_(fl), rs_(wc), rs_(rs)
        m = mb if tr.usesconv(mb) else '(mb0 %s)' % mb
        w = wc if tr.usesconv(wc) else '(wc0 %s)' % wc
        f = 'None' if fl == 'NULL' else '(Some %s)' % fl
        r = 'None' if rs == 'NULL' else '(Some %s)' % rs
        t += '(* lib/encodings.h.snippet:%d-%d *)\nDefinition enc_%s : funcs := mkFuncs %s %s %s %s.\n' % (l1, l2, x, m, f, w, r)
    t += '\n(* lib/all_encodings.h:35-37 *)\nDefinition all_encodings : list funcs := [\n  %s].\n' % ';\n  '.join('enc_' + e[1] for e in encs)
    write('Encodings', t)
    # aliases.h
    src = open(REPO + 'generated/aliases.h').read()
    L = src.split('\n')
    def find(p, start=0):
        for i in range(start, len(L)):
            if re.search(p, L[i]): return i
    a0 = find(r'asso_values\[\] ='); a1 = find(r'};', a0)
    asso = [int(x) for x in re.findall(r'\d+', '\n'.join(L[a0+1:a1]))]
    fields = re.findall(r'char stringpool_str(\d+)\[sizeof\("([^"]*)"\)\]', src)
    c0 = find(r'stringpool_contents ='); c1 = find(r'};', c0)
    contents = re.findall(r'"([^"]*)"', '\n'.join(L[c0+1:c1]))
    assert [f[1] for f in fields] == contents
    pool = {int(k): s for k, s in fields}
    b0 = find(r'struct alias aliases\[\] ='); b1 = find(r'};', b0)
    body = '\n'.join(l for l in L[b0+1:b1] if not l.startswith('#line'))
    ents = []
    for m in re.finditer(r'\{-1\}|\{\(int\)\(size_t\)&\(\(struct stringpool_t \*\)0\)->stringpool_str(\d+),\s*(\w+)\}', body):
        if m.group(1) is None: ents.append(None)
        else: ents.append((pool[int(m.group(1))], m.group(2), int(m.group(1))))
    print(len(asso), len(fields), len(ents), sum(e is not None for e in ents))
    for k, e in enumerate(ents):
        if e: assert e[2] == k
    t = HDR % 'lib/generated/aliases.h: tables of the perfect hash function.'
    t += 'From Coq Require Import ZArith List String.\nFrom Verif Require Import Base Indexes.\nImport ListNotations.\nOpen Scope Z_scope.\n\n'
    t += '(* lib/generated/aliases.h:35-39 *)\n'
    for n in ('TOTAL_KEYWORDS', 'MIN_WORD_LENGTH', 'MAX_WORD_LENGTH', 'MIN_HASH_VALUE', 'MAX_HASH_VALUE'):
        t += 'Definition %s : Z := %s.\n' % (n, re.search(r'#define %s (\d+)' % n, src).group(1))
    t += '(* lib/generated/aliases.h:%d-%d *)\nDefinition asso_values : tab := mk [\n %s].\n' % (a0+1, a1+1, ';\n '.join('[' + ';'.join(map(str, asso[i:i+16])) + ']' for i in range(0, len(asso), 16)))
    t += '(* lib/generated/aliases.h:%d-%d aliases[] and :%d-%d stringpool_contents: the slots with name >= 0, as\n   (slot, string at that stringpool offset, encoding index); all other slots hold {-1}. *)\n' % (b0+1, b1+1, c0+1, c1+1)
    t += 'Definition alias_slots : list (Z * string * Z) := [\n %s].\n' % ';\n '.join('(%d, "%s"%%string, %s)' % (k, e[0], e[1]) for k, e in enumerate(ents) if e)
    t += 'Definition alias_slot_count : Z := %d.\n' % len(ents)
    write('AliasTab', t)
    # public constants
    def consts(path, pre):
        out = []
        for i, l in enumerate(open(REPO + 'generated/' + path)):
            m = re.match(r'\s*(\w+) = (\w+),', l)
            if m:
                n, v = m.group(1), m.group(2)
                assert n.startswith(pre)
                out.append('("%s"%%string, %s)' % (n[len(pre):], 'inl %s' % v if v.isdigit() else 'inr "%s"%%string' % v[len(pre):]))
        return out
    t = HDR % 'The public encoding constants of the C and C++ headers, and what lib/encodings.h.snippet declares for them.'
    t += 'From Coq Require Import ZArith List String.\nFrom Verif Require Import Base Indexes Loop Encodings.\nImport ListNotations.\nOpen Scope Z_scope.\n\n'
    t += '(* lib/generated/indexes.h.shippet:1-214, without the prefix ENCODING_; inl = a number, inr = another constant *)\n'
    t += 'Definition public_c : list (string * (Z + string)) := [\n  %s].\n' % ';\n  '.join(consts('indexes.h.shippet', 'ENCODING_'))
    t += '(* lib/generated/indexes.hpp.shippet:1-217 enum class Encodings *)\n'
    t += 'Definition public_cpp : list (string * (Z + string)) := [\n  %s].\n' % ';\n  '.join(consts('indexes.hpp.shippet', ''))
    t += '(* lib/encodings.h.snippet: DEFENCODING entries: constant name, encoding index, functions *)\n'
    t += 'Definition declared : list (string * Z * funcs) := [\n  %s].\n' % ';\n  '.join('("%s"%%string, ei_%s, enc_%s)' % (e[2], e[1], e[1]) for e in encs)
    t += '(* lib/encodings.h.snippet: DEFINDEX entries *)\n'
    t += 'Definition declared_aliases : list (string * string) := [\n  %s].\n' % ';\n  '.join('("%s"%%string, "%s"%%string)' % (a, b) for a, b, _ in idx)
    t += '\n(* lib/encodings.h.snippet: the names declared for each encoding (adjacent string literals joined, as in C) *)\nDefinition declared_names : list (Z * list string) := [\n  %s].\n' % ';\n  '.join('(ei_%s, [%s]%%string)' % (e[1], '; '.join('"%s"' % n for n in e[0])) for e in encs)
    t += '\n(* lib/encodings.h.snippet: DEFCODEPAGE entries (lib/codepage_to_ei.h:16-18) *)\nDefinition declared_codepages : list (Z * Z) := [\n  %s].\n' % ';\n  '.join('(%d, ei_%s)' % (c[0], c[1]) for c in cps)
    write('PubIdx', t)
if __name__ == '__main__': main()
