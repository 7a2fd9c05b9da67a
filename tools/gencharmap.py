#!/usr/bin/env python3
"""Generate Maps_*.v (charmaps, from /repo/tests/data) and Chk_*.v (the converters agree with them).
usage: gencharmap.py REPO THEORIES"""
import re, os, sys, glob
repo, th = sys.argv[1:3]
names = [(int(b), a) for a, b in re.findall(r'Definition (ei_\w+) : Z := (\d+)\.', open(th + '/Indexes.v').read())]
enc = {}
for l in open(th + '/Encodings.v'):
    m = re.match(r'Definition enc_(\w+) : funcs := mkFuncs (.*)\.', l)
    if m: enc[m.group(1)] = m.group(2)
files = {os.path.basename(f)[:-4]: f for f in glob.glob(repo + '/tests/data/*.TXT')}
norm = lambda s: re.sub('[^a-z0-9]', '', s.lower())
nf = {norm(k): k for k in files}
alias = {'ces_big5': 'BIG5', 'ces_gbk': 'GBK', 'sjis': 'SHIFT_JIS', 'mulelao': 'MuleLao-1', 'riscos1': 'RISCOS-LATIN1'}
def file_of(n):
    if n in alias: return alias[n]
    for x in (n, n.replace('ebcdic', 'ibm-')):
        if norm(x) in nf: return nf[norm(x)]
def rows_of(f):
    rows = []
    for l in open(files[f]).read().splitlines():
        if not l.strip() or l.startswith('#'): continue
        a, b = l.split('\t')[:2]
        a = bytes.fromhex(a[2:])
        cs = [int(x, 16) for x in b.split()]
        rows.append((tuple(a), tuple(cs)))
    return rows
# all converter functions: name -> body
bodies, home = {}, {}
for v in glob.glob(th + '/Conv_*.v'):
    for m in re.finditer(r'^(?:Definition|Fixpoint) (\w+)\b(.*?)\.\n(?=\n|\(\*|Definition|Fixpoint|$)', open(v).read(), re.S | re.M):
        bodies[m.group(1)] = m.group(2)
        home[m.group(1)] = os.path.basename(v)[:-2]
num = lambda x: int(x, 0)
extra_ivs = {'cp950_wctomb': [(0xe000, 0xf6b1)], 'big5_2003_wctomb': [(0xe000, 0xf6b1)]}
gappy = {'cp950', 'big5_2003'}
def intervals(fn):
    todo, seen, ivs = [fn], set(), list(extra_ivs.get(fn, []))
    while todo:
        f = todo.pop()
        if f in seen: continue
        seen.add(f)
        b = bodies[f]
        if ': tab :=' in b: continue
        H = r'\(wc >=\? (0x[0-9a-f]+|\d+)\) &&& \(wc (<=?)\? (0x[0-9a-f]+|\d+)\)'
        for a, op, c in re.findall(H, b): ivs.append((num(a), num(c) + (op == '<=')))
        b2 = re.sub(H, '', b)
        for c in re.findall(r'\(wc =\? (0x[0-9a-f]+|\d+)\)', b2): ivs.append((num(c), num(c) + 1))
        for op, c in re.findall(r'\(wc (<=?)\? (0x[0-9a-f]+|\d+)\)', b2): ivs.append((0, num(c) + (op == '<=')))
        for w in set(re.findall(r'\w+', b)):
            if w in bodies and w not in seen: todo.append(w)
    ivs.sort()
    out = []
    for a, b in ivs:
        if out and a <= out[-1][1]: out[-1][1] = max(out[-1][1], b)
        else: out.append([a, b])
    return out
z = lambda c: '-1' if c < 0 else ('0x%x' % c if c > 9 else str(c))
lst = lambda l: '[' + ';'.join(z(x) for x in l) + ']'
def wrap(s, w=150):
    out, line = [], ''
    for tok in re.split(r'(?<=;)', s):
        if len(line) + len(tok) > w: out.append(line); line = ''
        line += tok
    return '\n  '.join(out + [line])
def charmap(rows):
    d = {}
    for bs, cs in rows:
        assert len(cs) == 1
        d.setdefault(bs[:-1], {})[bs[-1]] = cs[0]
    row = lambda p: '(%s, %s, %s)' % (lst(p), z(min(d[p])), wrap(lst([d[p].get(b, -1) for b in range(min(d[p]), max(d[p]) + 1)])))
    return d, '[' + ';\n  '.join(row(p) for p in sorted(d)) + ']'
HEAD = {'maps': '''(** Charmaps, generated by tools/gencharmap.py from tests/data/*.TXT and tests/data/*.IRREVERSIBLE.TXT of /repo. *)
From Coq Require Import ZArith List.
From Verif Require Import Charmap.
Import ListNotations.
Open Scope Z_scope.
''', 'chk': '''(** The converters agree with the charmaps; generated by tools/gencharmap.py. *)
From Coq Require Import ZArith List Bool Lia.
From Verif Require Import Base Loop Contract LoopLib DecLib Spec Sx Indexes Conv_uni Conv_sb %s Encodings Charmap CharLib %s.
Import ListNotations.
Open Scope Z_scope.
'''}
def stateless(n): return re.match(r'\(mb0 (\w+)\) None \(wc0 (\w+)\) None$', enc[n])
def okmod(n):
    for v in sorted(glob.glob(th + '/Ok_*.v')):
        t = open(v).read()
        if re.search(r'Lemma dec_%s :' % n, t): return os.path.basename(v)[:-2]
def emit_one(n, f):
    rows = rows_of(f)
    if any(len(c) != 1 for _, c in rows): return None
    irr = rows_of(f + '.IRREVERSIBLE') if f + '.IRREVERSIBLE' in files else []
    d, txt = charmap(rows)
    maps = '(* tests/data/%s.TXT *)\nDefinition map_%s : charmap :=\n %s.\n(* tests/data/%s *)\nDefinition irr_%s : pairs := [%s].\n' % (
        f, n, txt, f + '.IRREVERSIBLE.TXT' if irr else '(no irreversible pairs)', n, wrap(';'.join('(%s, %s)' % (lst(b), z(c[0])) for b, c in irr)))
    mb, wc = stateless(n).groups()
    leads = [()] + sorted(extra_leads.get(n, set()) | {p[:k] for p in d for k in range(1, len(p) + 1)})
    ivs = intervals(wc)
    chk = '''Definition leads_%s : list (list Z) := %s.
Definition ivs_%s : ranges := [%s].
Lemma dec_map_%s : decodes enc_%s (stands_for map_%s).
Proof. exact (decodes_intro _ _ (proj2 dec_%s) inv0_0 leads_%s _ ltac:(vm_cast_no_check (eq_refl true)) _ _ _ eq_refl). Qed.
Lemma enc_map_%s : encodes enc_%s (maps_to map_%s irr_%s).
Proof. apply (encodes_intro _ _ _ %s ivs_%s _ _ eq_refl); [%s|vm_cast_no_check (eq_refl true)]. Qed.
''' % (n, '[[]]' if leads == [()] else 'Eval vm_compute in [] :: find_leads enc_%s 3 []' % n, n, wrap('; '.join('(%s, %s)' % (z(a), z(b)) for a, b in ivs)), n, n, n, n, n, n, n, n, n, wc, n, 'enc_gaps' if n in gappy else 'enc_outside')
    return maps, chk
extra_leads = {}
skip = {'euc_tw'}
sb, mbs = [], []
for i, a in sorted(names):
    n = a[3:]
    f = file_of(n)
    if not f or n not in enc or not stateless(n) or n in skip: continue
    rows = rows_of(f)
    (sb if all(len(b) == 1 for b, _ in rows) else mbs).append((i, n, f))
if __name__ == '__main__':
    K = 4
    per = (len(sb) + K - 1) // K
    for k in range(K):
        part = sb[k * per:(k + 1) * per]
        oks = sorted({home[stateless(n).group(2)] for _, n, _ in part} - {'Conv_uni', 'Conv_sb'}) + sorted({okmod(n) for _, n, _ in part})
        M, C = HEAD['maps'], HEAD['chk'] % (' '.join(oks), 'Maps_sb%d' % (k + 1))
        for i, n, f in part:
            m, c = emit_one(n, f)
            M += m; C += c
        row = lambda t: '[' + ';\n  '.join(t) + ']'
        M += ''
        C += 'Definition maps_sb%d : list (Z * charmap * pairs) :=\n %s.\n' % (k + 1, row('(ei_%s, map_%s, irr_%s)' % (n, n, n) for _, n, _ in part))
        C += 'Lemma maps_sb%d_ok : Forall table_ok maps_sb%d.\nProof.\n  repeat apply Forall_cons; [%s|apply Forall_nil].\nQed.\n' % (k + 1, k + 1,
            ' |\n   '.join('exact (ex_intro _ enc_%s (conj eq_refl (conj dec_map_%s enc_map_%s)))' % (n, n, n) for _, n, _ in part))
        open('%s/Maps_sb%d.v' % (th, k + 1), 'w').write(M)
        open('%s/Chk_sb%d.v' % (th, k + 1), 'w').write(C)
    for i, n, f in mbs:
        oks = sorted({home[stateless(n).group(2)], okmod(n)} - {'Conv_uni', 'Conv_sb'})
        m, c = emit_one(n, f)
        open('%s/Maps_%s.v' % (th, n), 'w').write(HEAD['maps'] + m)
        open('%s/Chk_%s.v' % (th, n), 'w').write(HEAD['chk'] % (' '.join(oks), 'Maps_' + n) + c)
    T = '(** All charmaps; generated by tools/gencharmap.py. *)\nFrom Coq Require Import ZArith List.\nFrom Verif Require Import Base Loop Indexes Encodings Charmap CharLib %s.\nImport ListNotations.\nOpen Scope Z_scope.\n' % ' '.join(x for k in range(K) for x in ('Maps_sb%d' % (k + 1), 'Chk_sb%d' % (k + 1)))
    T += 'From Verif Require Import %s.\n' % ' '.join('Maps_%s Chk_%s' % (n, n) for _, n, _ in mbs)
    T += 'Definition sb_tables : list (Z * charmap * pairs) := %s.\n' % ' ++ '.join('maps_sb%d' % (k + 1) for k in range(K))
    T += 'Definition mb_tables : list (Z * charmap * pairs) :=\n %s.\n' % row('(ei_%s, map_%s, irr_%s)' % (n, n, n) for _, n, _ in mbs)
    T += 'Lemma sb_tables_ok : Forall table_ok sb_tables.\nProof. unfold sb_tables. repeat (apply Forall_app; split); [%s]. Qed.\n' % '|'.join('exact maps_sb%d_ok' % (k + 1) for k in range(K))
    T += 'Lemma mb_tables_ok : Forall table_ok mb_tables.\nProof.\n  repeat apply Forall_cons; [%s|apply Forall_nil].\nQed.\n' % ' |\n   '.join('exact (ex_intro _ enc_%s (conj eq_refl (conj dec_map_%s enc_map_%s)))' % (n, n, n) for _, n, _ in mbs)
    T += 'Definition tables := sb_tables ++ mb_tables.\nLemma tables_ok : Forall table_ok tables.\nProof. apply Forall_app. split; [exact sb_tables_ok|exact mb_tables_ok]. Qed.\n'
    open('%s/Tables.v' % th, 'w').write(T)
    print(len(sb), [n for _, n, _ in mbs])
