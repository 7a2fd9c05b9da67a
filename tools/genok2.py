#!/usr/bin/env python3
"""Writes rocq/theories/Ok_cjk*.v: converter contracts of the multi-byte encodings without state."""
import os
HERE = os.path.dirname(os.path.abspath(__file__))
OUT = os.path.join(HERE, '..', 'rocq', 'theories')
HEAD = r'''(** GENERATED by tools/genok2.py; do not edit.
    Converter contracts (Contract.v) of multi-byte encodings without state, by stepping through the code. *)
From Coq Require Import ZArith List Bool Lia.
From Verif Require Import Base Loop Contract LoopLib Reflect Sx Rng EncLib DecLib TabLib SbLib.
From Verif Require Import TabIn_sb TabIn_cjk.
From Verif Require Import Conv_uni Conv_sb Conv_set_ja Conv_set_zh Conv_set_ko Conv_cjk Encodings Leaf DLeaf DCjk CjkLib.
Import ListNotations.
Open Scope Z_scope.

Ltac tab_ti t ::= match constr:(tt) with _ => TabIn_cjk.ti_of t | _ => TabIn_sb.ti_of t end.
Ltac sx_pre b ::= u32_in b.
Ltac open3 := open2; [|more].
'''
# name, bytes to look at, kind of encoder proof
FILES = {
 'Ok_cjk1': [('jisx0208', 2, 'two'), ('jisx0212', 2, 'two'), ('euc_jp', 3, 'step'), ('sjis', 2, 'step'), ('dec_kanji', 2, 'step')],
 'Ok_cjk2': [('cp932', 2, 'step'), ('cp943', 2, 'cp932')],
 'Ok_cjk3': [('gb2312', 2, 'two'), ('isoir165', 2, 'step'), ('euc_cn', 2, 'step'), ('ces_gbk', 2, 'step'), ('cp936', 2, 'step'),
             ('ces_big5', 2, 'step'), ('big5_2003', 2, None), ('cp950', 2, None)],
 'Ok_cjk4': [('ksc5601', 2, 'two'), ('euc_kr', 2, 'step'), ('cp949', 2, 'step'), ('johab', 2, 'step')],
 'Ok_cjk5': [('euc_tw', 4, 'step'), ('dec_hanyu', 4, 'step')],
}
for fn, encs in FILES.items():
    s = HEAD
    dec = '\nLtac sx_call m ::= djk_call m.\n'
    enc = '\nLtac sx_call m ::= cjk_call m.\n'
    for n, k, kind in encs:
        st = f'Lemma dec_{n} : dec_ok enc_{n} 1 inv0 pend0 ucs4 /\\ dec_stable enc_{n} inv0.\n'
        if kind == 'cp932':
            dec += st + 'Proof. exact dec_cp932. Qed.\n'
            enc += f'Lemma enc_{n}_ok : enc_ok enc_{n} oinv0 ucs4.\nProof. exact enc_cp932_ok. Qed.\n'
            continue
        dec += st + f'Proof. apply dec0_intro with {n}_mbtowc; [reflexivity..|]. open{k}; d0_go. Qed.\n'
        if kind == 'two':
            enc += f'Lemma enc_{n}_ok : enc_ok enc_{n} oinv0 ucs4.\nProof. enc2 {n}_wctomb leaf_{n}. Qed.\n'
        elif kind == 'step':
            enc += f'Ltac e_open ::= change (f_wc enc_{n}) with (wc0 {n}_wctomb); unfold wc0.\n'
            enc += f'Lemma enc_{n}_ok : enc_ok enc_{n} oinv0 ucs4.\nProof. enc0_go. Qed.\n'
    open(os.path.join(OUT, fn + '.v'), 'w').write(s + dec + enc)
