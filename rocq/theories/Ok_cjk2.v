(** GENERATED by tools/genok2.py; do not edit.
    Converter contracts (Contract.v) of multi-byte encodings without state, by stepping through the code. *)
From Coq Require Import ZArith List Bool Lia.
From Verif Require Import Base Loop Contract LoopLib Reflect Sx Rng EncLib DecLib TabLib SbLib.
From Verif Require Import TabIn_sb TabIn_cjk.
From Verif Require Import Conv_uni Conv_sb Conv_set_ja Conv_set_zh Conv_set_ko Conv_cjk Encodings Leaf DLeaf DCjk CjkLib.
Import ListNotations.
Open Scope Z_scope.

Ltac tab_ti t ::= match constr:(tt) with _ => TabIn_cjk.ti_of t | _ => TabIn_sb.ti_of t end.
Ltac sx_pre b ::= u32_in b.
Ltac open3 := open2; [|more].

Ltac sx_call m ::= djk_call m.
Lemma dec_cp932 : dec_ok enc_cp932 1 inv0 pend0 ucs4 /\ dec_stable enc_cp932 inv0.
Proof. apply dec0_intro with cp932_mbtowc; [reflexivity..|]. open2; d0_go. Qed.
Lemma dec_cp943 : dec_ok enc_cp943 1 inv0 pend0 ucs4 /\ dec_stable enc_cp943 inv0.
Proof. exact dec_cp932. Qed.

Ltac sx_call m ::= cjk_call m.
Ltac e_open ::= change (f_wc enc_cp932) with (wc0 cp932_wctomb); unfold wc0.
Lemma enc_cp932_ok : enc_ok enc_cp932 oinv0 ucs4.
Proof. enc0_go. Qed.
Lemma enc_cp943_ok : enc_ok enc_cp943 oinv0 ucs4.
Proof. exact enc_cp932_ok. Qed.
