#!/usr/bin/env python3
"""Write theories/Ok_sb*.v, Ok_eb*.v: contract proofs of the single-byte encodings (stepping through the code)."""
import re,os
T=os.path.join(os.path.dirname(os.path.abspath(__file__)),'..','rocq','theories')
body={}; mod={}
for m in ['uni','sb','ebcdic','set_ja','set_zh','set_ko','cjk','iso2022']:
    txt=open(f'{T}/Conv_{m}.v').read()
    for g in re.finditer(r'^(Definition|Fixpoint|with) (\w+)([^\0]*?)(?=^\(\*|^Definition|^Fixpoint|^with|\Z)',txt,re.M):
        body[g.group(2)]=g.group(3); mod[g.group(2)]=m
encs=[]
for l in open(f'{T}/Encodings.v'):
    x=re.match(r'Definition enc_(\w+) : funcs := mkFuncs (\(mb0 (\w+)\)|(\w+)) (None|\(Some \w+\)) (\(wc0 (\w+)\)|(\w+))',l)
    if x: encs.append((x.group(1),x.group(3) or x.group(4),x.group(7) or x.group(8),bool(x.group(3)),bool(x.group(7))))
def deps(f,acc=None):
    acc=[] if acc is None else acc
    if f in acc: return acc
    acc.append(f)
    for w in dict.fromkeys(re.findall(r'\w+',body[f])):
        if w in body and ': tab' not in body[w][:8] and w!=f: deps(w,acc)
    return acc
def lim(f):
    mx=0
    for d in deps(f):
        for g in re.finditer(r'\bwc (?:<\?|>=\?|<=\?|=\?|>\?) (0x[0-9a-f]+|\d+)',body[d]): mx=max(mx,int(g.group(1),0)+1)
    return mx
HDR='''(** GENERATED by tools/genok.py; do not edit.
    Converter contracts (Contract.v) of single-byte encodings. *)
From Coq Require Import ZArith List Bool Lia.
From Verif Require Import Base Loop Contract LoopLib Reflect Sx EncLib DecLib TabLib SbLib %s Encodings TabIn_sb.
Import ListNotations.
Open Scope Z_scope.
Ltac tab_ti t ::= ti_of t.
Ltac sx_call m ::= lazymatch m with tget ?t ?i _ => tab_get t i end.

'''
def one(name,mb,wc,smb,swc):
    out=''
    if smb:
        out+=f'''Lemma dec_{name} : dec_ok enc_{name} 1 inv0 pend0 ucs4 /\\ dec_stable enc_{name} inv0.
Proof. dec1 {mb}. Qed.
'''
    if name not in SPECIAL:
        out+=f'''Lemma enc_{name}_ok : enc_ok enc_{name} oinv0 ucs4.
Proof. enc1 {wc}. Qed.
'''
    return out
SPECIAL={'cp1255','cp1258','tcvn'}
KK={}
if __name__=='__main__':
    sb=[e for e in encs if mod[e[1]]=='sb'];eb=[e for e in encs if mod[e[1]]=='ebcdic']
    ex=[e for e in encs if e[0] in ('ascii','iso646_jp','jisx0201','iso646_cn')]
    groups=[('Ok_sb1',ex+sb[:22],'Conv_uni Conv_sb Conv_set_ja Conv_set_zh'),('Ok_sb2',sb[22:44],'Conv_uni Conv_sb'),('Ok_sb3',sb[44:64],'Conv_uni Conv_sb'),('Ok_sb4',sb[64:],'Conv_uni Conv_sb'),
            ('Ok_eb1',eb[:27],'Conv_uni Conv_ebcdic'),('Ok_eb2',eb[27:],'Conv_uni Conv_ebcdic')]
    for g,l,imp in groups:
        open(f'{T}/{g}.v','w').write(HDR%imp+'\n'.join(one(*e) for e in l))
        print(g,[e[0] for e in l])
