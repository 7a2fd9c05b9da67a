(** GENERATED by tools/genok2.py; do not edit.
    Converter contracts (Contract.v) of multi-byte encodings without state, by stepping through the code. *)
From Coq Require Import ZArith List Bool Lia.
From Verif Require Import Base Loop Contract LoopLib Reflect Sx Rng EncLib DecLib TabLib SbLib.
From Verif Require Import TabIn_sb TabIn_cjk.
From Verif Require Import Conv_uni Conv_sb Conv_set_ja Conv_set_zh Conv_set_ko Conv_cjk Encodings Leaf DLeaf DCjk CjkLib.
Import ListNotations.
Open Scope Z_scope.

Ltac tab_ti t ::= match constr:(tt) with _ => TabIn_cjk.ti_of t | _ => TabIn_sb.ti_of t end.
Ltac sx_pre b ::= u32_in b.
Ltac open3 := open2; [|more].

Ltac sx_call m ::= djk_call m.
Lemma dec_euc_tw : dec_ok enc_euc_tw 1 inv0 pend0 ucs4 /\ dec_stable enc_euc_tw inv0.
Proof. apply dec0_intro with euc_tw_mbtowc; [reflexivity..|]. open4; d0_go. Qed.
Lemma dec_dec_hanyu : dec_ok enc_dec_hanyu 1 inv0 pend0 ucs4 /\ dec_stable enc_dec_hanyu inv0.
Proof. apply dec0_intro with dec_hanyu_mbtowc; [reflexivity..|]. open4; d0_go. Qed.

Ltac sx_call m ::= cjk_call m.
Ltac e_open ::= change (f_wc enc_euc_tw) with (wc0 euc_tw_wctomb); unfold wc0.
Lemma enc_euc_tw_ok : enc_ok enc_euc_tw oinv0 ucs4.
Proof. enc0_go. Qed.
Ltac e_open ::= change (f_wc enc_dec_hanyu) with (wc0 dec_hanyu_wctomb); unfold wc0.
Lemma enc_dec_hanyu_ok : enc_ok enc_dec_hanyu oinv0 ucs4.
Proof. enc0_go. Qed.
