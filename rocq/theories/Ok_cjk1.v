(** GENERATED by tools/genok2.py; do not edit.
    Converter contracts (Contract.v) of multi-byte encodings without state, by stepping through the code. *)
From Coq Require Import ZArith List Bool Lia.
From Verif Require Import Base Loop Contract LoopLib Reflect Sx Rng EncLib DecLib TabLib SbLib.
From Verif Require Import TabIn_sb TabIn_cjk.
From Verif Require Import Conv_uni Conv_sb Conv_set_ja Conv_set_zh Conv_set_ko Conv_cjk Encodings Leaf DLeaf DCjk CjkLib.
Import ListNotations.
Open Scope Z_scope.

Ltac tab_ti t ::= match constr:(tt) with _ => TabIn_cjk.ti_of t | _ => TabIn_sb.ti_of t end.
Ltac sx_pre b ::= u32_in b.
Ltac open3 := open2; [|more].

Ltac sx_call m ::= djk_call m.
Lemma dec_jisx0208 : dec_ok enc_jisx0208 1 inv0 pend0 ucs4 /\ dec_stable enc_jisx0208 inv0.
Proof. apply dec0_intro with jisx0208_mbtowc; [reflexivity..|]. open2; d0_go. Qed.
Lemma dec_jisx0212 : dec_ok enc_jisx0212 1 inv0 pend0 ucs4 /\ dec_stable enc_jisx0212 inv0.
Proof. apply dec0_intro with jisx0212_mbtowc; [reflexivity..|]. open2; d0_go. Qed.
Lemma dec_euc_jp : dec_ok enc_euc_jp 1 inv0 pend0 ucs4 /\ dec_stable enc_euc_jp inv0.
Proof. apply dec0_intro with euc_jp_mbtowc; [reflexivity..|]. open3; d0_go. Qed.
Lemma dec_sjis : dec_ok enc_sjis 1 inv0 pend0 ucs4 /\ dec_stable enc_sjis inv0.
Proof. apply dec0_intro with sjis_mbtowc; [reflexivity..|]. open2; d0_go. Qed.
Lemma dec_dec_kanji : dec_ok enc_dec_kanji 1 inv0 pend0 ucs4 /\ dec_stable enc_dec_kanji inv0.
Proof. apply dec0_intro with dec_kanji_mbtowc; [reflexivity..|]. open2; d0_go. Qed.

Ltac sx_call m ::= cjk_call m.
Lemma enc_jisx0208_ok : enc_ok enc_jisx0208 oinv0 ucs4.
Proof. enc2 jisx0208_wctomb leaf_jisx0208. Qed.
Lemma enc_jisx0212_ok : enc_ok enc_jisx0212 oinv0 ucs4.
Proof. enc2 jisx0212_wctomb leaf_jisx0212. Qed.
Ltac e_open ::= change (f_wc enc_euc_jp) with (wc0 euc_jp_wctomb); unfold wc0.
Lemma enc_euc_jp_ok : enc_ok enc_euc_jp oinv0 ucs4.
Proof. enc0_go. Qed.
Ltac e_open ::= change (f_wc enc_sjis) with (wc0 sjis_wctomb); unfold wc0.
Lemma enc_sjis_ok : enc_ok enc_sjis oinv0 ucs4.
Proof. enc0_go. Qed.
Ltac e_open ::= change (f_wc enc_dec_kanji) with (wc0 dec_kanji_wctomb); unfold wc0.
Lemma enc_dec_kanji_ok : enc_ok enc_dec_kanji oinv0 ucs4.
Proof. enc0_go. Qed.
