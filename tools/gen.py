"""Write the generated Coq modules (tables and converter functions) into rocq/theories."""
import os, sys, re
from c2coq import *
OUT = os.path.join(os.path.dirname(os.path.abspath(__file__)), '..', 'rocq', 'theories')
TABGROUP = [
 ('Tab_cns', 'cns11643_1 cns11643_2 cns11643_3 cns11643_4a cns11643_4b cns11643_5 cns11643_6 cns11643_7 cns11643_15'.split()),
 ('Tab_cnsinv1', None), ('Tab_cnsinv2', None), ('Tab_cnsinv3', None), ('Tab_cnsinv', None),
 ('Tab_big5', 'big5 cp950 cp950ext big5_2003 hkscs1999 hkscs2001 hkscs2004 hkscs2008'.split()),
 ('Tab_jis', 'jisx0208 jisx0212 jisx0213 cp932ext cp50221_0208_ext cp50221_0212_ext'.split()),
 ('Tab_gb', 'gb2312 isoir165ext cp936ext gbkext1 gbkext2 gbkext_inv gb18030ext gb18030uni gb18030_2005 gb18030_2022'.split()),
 ('Tab_ks', 'ksc5601 johab_hangul uhc_1 uhc_2'.split()),
]
CONVGROUP = [
 ('Conv_uni', 'ascii utf8 ucs2 ucs2be ucs2le ucs2internal ucs2swapped ucs4 ucs4be ucs4le ucs4internal ucs4swapped utf16 utf16be utf16le utf32 utf32be utf32le utf7 c99 java flushwc'.split()),
 ('Conv_sb', None),   # every 8-bit set that is not ebcdic
 ('Conv_ebcdic', None),
 ('Conv_set_ja', 'jisx0201 jisx0208 jisx0212 jisx0213 cp932ext cp50221_0208_ext cp50221_0212_ext iso646_jp'.split()),
 ('Conv_set_zh', 'iso646_cn gb2312 isoir165ext isoir165 cp936ext gbkext1 gbkext2 gbkext_inv gbk gb18030ext gb18030uni big5 cp950ext big5_2003 hkscs1999 hkscs2001 hkscs2004 hkscs2008 cns11643_1 cns11643_2 cns11643_3 cns11643_4 cns11643_5 cns11643_6 cns11643_7 cns11643_15 cns11643_inv'.split()),
 ('Conv_set_ko', 'johab_hangul ksc5601 uhc_1 uhc_2'.split()),
 ('Conv_cjk', 'euc_jp sjis cp932 euc_jisx0213 shift_jisx0213 dec_kanji euc_cn ces_gbk cp936 gb18030_2005 gb18030_2022 euc_tw ces_big5 cp950 big5hkscs1999 big5hkscs2001 big5hkscs2004 big5hkscs2008 dec_hanyu euc_kr cp949 johab'.split()),
 ('Conv_iso2022', 'hz iso2022_jp iso2022_jp1 iso2022_jp2 iso2022_jp3 iso2022_jpms iso2022_cn iso2022_cnext iso2022_kr'.split()),
]
def base(f): return os.path.basename(f)[:-2]
def header(name, what, deps):
    return ('(** GENERATED by tools/gen.py from /repo/lib/converters; do not edit.\n    %s *)\n' % what +
            'From Coq Require Import ZArith List Bool.\nFrom Verif Require Import %s.\nImport ListNotations.\nOpen Scope Z_scope.\n\n' % ' '.join(['Base'] + deps))
def table(t):
    vals = t['vals']
    rows = [vals[i:i+16] for i in range(0, len(vals), 16)]
    ext = '' if t['struct'] is None and t['stride'] == 1 else ' (flattened, %d fields per entry)' % t['stride']
    body = ';\n '.join('[' + ';'.join(('(%d)' % v if v < 0 else '%d' % v) for v in r) + ']' for r in rows)
    return '(* lib/%s:%d-%d %s%s *)\nDefinition %s : tab := mk [\n %s].\n\n' % (t['file'], t['l1'], t['l2'], t['name'], ext, t['name'], body)
def write(name, text):
    p = os.path.join(OUT, name + '.v')
    if os.path.exists(p) and open(p).read() == text: return
    open(p, 'w').write(text); print('wrote', name, len(text))
def main():
    tr = Tr()
    tr.pruned = set()
    cg = {}
    for nm, l in CONVGROUP:
        for b in l or []: cg[b] = nm
    used_files = {}
    tabfile = {}
    for nm, l in TABGROUP:
        for b in l or []: tabfile[b] = nm
    txt = {nm: '' for nm, _ in TABGROUP}
    inv = [t for t in tr.tabs.values() if base(t['file']) == 'cns11643_inv']
    small = {}
    for t in inv:
        if len(t['vals']) < 30000: txt['Tab_cnsinv'] += table(t); continue
        rows = [t['vals'][i:i+16] for i in range(0, len(t['vals']), 16)]; k = (len(rows) + 2) // 3
        for i in range(3):
            body = ';\n '.join('[' + ';'.join('%d' % v for v in r) + ']' for r in rows[i*k:(i+1)*k])
            txt['Tab_cnsinv%d' % (i+1)] += '(* lib/%s:%d-%d %s, part %d of 3 *)\nDefinition %s_part%d : list (list Z) := [\n %s].\n\n' % (t['file'], t['l1'], t['l2'], t['name'], i+1, t['name'], i+1, body)
        txt['Tab_cnsinv'] += '(* lib/%s:%d-%d %s *)\nDefinition %s : tab := mk (%s).\n\n' % (t['file'], t['l1'], t['l2'], t['name'], t['name'], ' ++ '.join('%s_part%d' % (t['name'], i+1) for i in range(3)))
    for t in tr.tabs.values():
        b = base(t['file'])
        if b == 'cns11643_inv': continue
        if b in tabfile: txt[tabfile[b]] += table(t)
        else: small.setdefault(b, '')  ; small[b] += table(t)
    for nm, _ in TABGROUP: write(nm, header(nm, 'Mapping tables.', ['Tab_cnsinv%d' % i for i in (1, 2, 3)] if nm == 'Tab_cnsinv' else []) + txt[nm])
    order = []
    deps = {'Conv_uni': [], 'Conv_sb': ['Conv_uni'], 'Conv_ebcdic': [], 'Conv_set_ja': ['Tab_jis', 'Conv_uni'], 'Conv_set_zh': ['Tab_gb', 'Tab_big5', 'Tab_cns', 'Tab_cnsinv', 'Conv_uni'],
            'Conv_set_ko': ['Tab_ks', 'Conv_uni'], 'Conv_cjk': ['Tab_jis', 'Tab_gb', 'Tab_big5', 'Tab_cns', 'Tab_ks', 'Conv_uni', 'Conv_sb', 'Conv_set_ja', 'Conv_set_zh', 'Conv_set_ko'],
            'Conv_iso2022': ['Tab_jis', 'Conv_uni', 'Conv_sb', 'Conv_set_ja', 'Conv_set_zh', 'Conv_set_ko', 'Conv_cjk']}
    out = {nm: '' for nm, _ in CONVGROUP}
    smalldone = set()
    def group(b):
        if b in cg: return cg[b]
        return 'Conv_ebcdic' if b.startswith('ebcdic') else 'Conv_sb'
    for b in small: # shared tables first (vietcomb)
        if not any(base(f['file']) == b for f in tr.p.funcs): out[group(b)] += small[b]; smalldone.add(b)
    for f in tr.p.funcs:
        b = base(f['file']); g = group(b)
        if b in small and b not in smalldone: out[g] += small[b]; smalldone.add(b)
        out[g] += Fn(tr, f).run() + '\n\n'
    for nm, l in CONVGROUP:
        write(nm, header(nm, 'Converter functions, one definition per basic block that is reached from several places.', deps[nm]) + out[nm])
if __name__ == '__main__': main()
