(** GENERATED by tools/genok2.py; do not edit.
    Converter contracts (Contract.v) of multi-byte encodings without state, by stepping through the code. *)
From Coq Require Import ZArith List Bool Lia.
From Verif Require Import Base Loop Contract LoopLib Reflect Sx Rng EncLib DecLib TabLib SbLib.
From Verif Require Import TabIn_sb TabIn_cjk.
From Verif Require Import Conv_uni Conv_sb Conv_set_ja Conv_set_zh Conv_set_ko Conv_cjk Encodings Leaf DLeaf DCjk CjkLib.
Import ListNotations.
Open Scope Z_scope.

Ltac tab_ti t ::= match constr:(tt) with _ => TabIn_cjk.ti_of t | _ => TabIn_sb.ti_of t end.
Ltac sx_pre b ::= u32_in b.
Ltac open3 := open2; [|more].

Ltac sx_call m ::= djk_call m.
Lemma dec_ksc5601 : dec_ok enc_ksc5601 1 inv0 pend0 ucs4 /\ dec_stable enc_ksc5601 inv0.
Proof. apply dec0_intro with ksc5601_mbtowc; [reflexivity..|]. open2; d0_go. Qed.
Lemma dec_euc_kr : dec_ok enc_euc_kr 1 inv0 pend0 ucs4 /\ dec_stable enc_euc_kr inv0.
Proof. apply dec0_intro with euc_kr_mbtowc; [reflexivity..|]. open2; d0_go. Qed.
Lemma dec_cp949 : dec_ok enc_cp949 1 inv0 pend0 ucs4 /\ dec_stable enc_cp949 inv0.
Proof. apply dec0_intro with cp949_mbtowc; [reflexivity..|]. open2; d0_go. Qed.
Lemma dec_johab : dec_ok enc_johab 1 inv0 pend0 ucs4 /\ dec_stable enc_johab inv0.
Proof. apply dec0_intro with johab_mbtowc; [reflexivity..|]. open2; d0_go. Qed.

Ltac sx_call m ::= cjk_call m.
Lemma enc_ksc5601_ok : enc_ok enc_ksc5601 oinv0 ucs4.
Proof. enc2 ksc5601_wctomb leaf_ksc5601. Qed.
Ltac e_open ::= change (f_wc enc_euc_kr) with (wc0 euc_kr_wctomb); unfold wc0.
Lemma enc_euc_kr_ok : enc_ok enc_euc_kr oinv0 ucs4.
Proof. enc0_go. Qed.
Ltac e_open ::= change (f_wc enc_cp949) with (wc0 cp949_wctomb); unfold wc0.
Lemma enc_cp949_ok : enc_ok enc_cp949 oinv0 ucs4.
Proof. enc0_go. Qed.
Ltac e_open ::= change (f_wc enc_johab) with (wc0 johab_wctomb); unfold wc0.
Lemma enc_johab_ok : enc_ok enc_johab oinv0 ucs4.
Proof. enc0_go. Qed.
