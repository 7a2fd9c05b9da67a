(** GENERATED by tools/genok2.py; do not edit.
    Converter contracts (Contract.v) of multi-byte encodings without state, by stepping through the code. *)
From Coq Require Import ZArith List Bool Lia.
From Verif Require Import Base Loop Contract LoopLib Reflect Sx Rng EncLib DecLib TabLib SbLib.
From Verif Require Import TabIn_sb TabIn_cjk.
From Verif Require Import Conv_uni Conv_sb Conv_set_ja Conv_set_zh Conv_set_ko Conv_cjk Encodings Leaf DLeaf DCjk CjkLib.
Import ListNotations.
Open Scope Z_scope.

Ltac tab_ti t ::= match constr:(tt) with _ => TabIn_cjk.ti_of t | _ => TabIn_sb.ti_of t end.
Ltac sx_pre b ::= u32_in b.
Ltac open3 := open2; [|more].

Ltac sx_call m ::= djk_call m.
Lemma dec_gb2312 : dec_ok enc_gb2312 1 inv0 pend0 ucs4 /\ dec_stable enc_gb2312 inv0.
Proof. apply dec0_intro with gb2312_mbtowc; [reflexivity..|]. open2; d0_go. Qed.
Lemma dec_isoir165 : dec_ok enc_isoir165 1 inv0 pend0 ucs4 /\ dec_stable enc_isoir165 inv0.
Proof. apply dec0_intro with isoir165_mbtowc; [reflexivity..|]. open2; d0_go. Qed.
Lemma dec_euc_cn : dec_ok enc_euc_cn 1 inv0 pend0 ucs4 /\ dec_stable enc_euc_cn inv0.
Proof. apply dec0_intro with euc_cn_mbtowc; [reflexivity..|]. open2; d0_go. Qed.
Lemma dec_ces_gbk : dec_ok enc_ces_gbk 1 inv0 pend0 ucs4 /\ dec_stable enc_ces_gbk inv0.
Proof. apply dec0_intro with ces_gbk_mbtowc; [reflexivity..|]. open2; d0_go. Qed.
Lemma dec_cp936 : dec_ok enc_cp936 1 inv0 pend0 ucs4 /\ dec_stable enc_cp936 inv0.
Proof. apply dec0_intro with cp936_mbtowc; [reflexivity..|]. open2; d0_go. Qed.
Lemma dec_ces_big5 : dec_ok enc_ces_big5 1 inv0 pend0 ucs4 /\ dec_stable enc_ces_big5 inv0.
Proof. apply dec0_intro with ces_big5_mbtowc; [reflexivity..|]. open2; d0_go. Qed.
Lemma dec_big5_2003 : dec_ok enc_big5_2003 1 inv0 pend0 ucs4 /\ dec_stable enc_big5_2003 inv0.
Proof. apply dec0_intro with big5_2003_mbtowc; [reflexivity..|]. open2; d0_go. Qed.
Lemma dec_cp950 : dec_ok enc_cp950 1 inv0 pend0 ucs4 /\ dec_stable enc_cp950 inv0.
Proof. apply dec0_intro with cp950_mbtowc; [reflexivity..|]. open2; d0_go. Qed.

Ltac sx_call m ::= cjk_call m.
Lemma enc_gb2312_ok : enc_ok enc_gb2312 oinv0 ucs4.
Proof. enc2 gb2312_wctomb leaf_gb2312. Qed.
Ltac e_open ::= change (f_wc enc_isoir165) with (wc0 isoir165_wctomb); unfold wc0.
Lemma enc_isoir165_ok : enc_ok enc_isoir165 oinv0 ucs4.
Proof. enc0_go. Qed.
Ltac e_open ::= change (f_wc enc_euc_cn) with (wc0 euc_cn_wctomb); unfold wc0.
Lemma enc_euc_cn_ok : enc_ok enc_euc_cn oinv0 ucs4.
Proof. enc0_go. Qed.
Ltac e_open ::= change (f_wc enc_ces_gbk) with (wc0 ces_gbk_wctomb); unfold wc0.
Lemma enc_ces_gbk_ok : enc_ok enc_ces_gbk oinv0 ucs4.
Proof. enc0_go. Qed.
Ltac e_open ::= change (f_wc enc_cp936) with (wc0 cp936_wctomb); unfold wc0.
Lemma enc_cp936_ok : enc_ok enc_cp936 oinv0 ucs4.
Proof. enc0_go. Qed.
Ltac e_open ::= change (f_wc enc_ces_big5) with (wc0 ces_big5_wctomb); unfold wc0.
Lemma enc_ces_big5_ok : enc_ok enc_ces_big5 oinv0 ucs4.
Proof. enc0_go. Qed.
