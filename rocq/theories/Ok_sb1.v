(** GENERATED by tools/genok.py; do not edit.
    Converter contracts (Contract.v) of single-byte encodings. *)
From Coq Require Import ZArith List Bool Lia.
From Verif Require Import Base Loop Contract LoopLib Reflect Sx EncLib DecLib TabLib SbLib Conv_uni Conv_sb Conv_set_ja Conv_set_zh Encodings TabIn_sb.
Import ListNotations.
Open Scope Z_scope.
Ltac tab_ti t ::= ti_of t.
Ltac sx_call m ::= lazymatch m with tget ?t ?i _ => tab_get t i end.

Lemma dec_ascii : dec_ok enc_ascii 1 inv0 pend0 ucs4 /\ dec_stable enc_ascii inv0.
Proof. dec1 ascii_mbtowc. Qed.
Lemma enc_ascii_ok : enc_ok enc_ascii oinv0 ucs4.
Proof. enc1 ascii_wctomb. Qed.

Lemma dec_iso646_jp : dec_ok enc_iso646_jp 1 inv0 pend0 ucs4 /\ dec_stable enc_iso646_jp inv0.
Proof. dec1 iso646_jp_mbtowc. Qed.
Lemma enc_iso646_jp_ok : enc_ok enc_iso646_jp oinv0 ucs4.
Proof. enc1 iso646_jp_wctomb. Qed.

Lemma dec_jisx0201 : dec_ok enc_jisx0201 1 inv0 pend0 ucs4 /\ dec_stable enc_jisx0201 inv0.
Proof. dec1 jisx0201_mbtowc. Qed.
Lemma enc_jisx0201_ok : enc_ok enc_jisx0201 oinv0 ucs4.
Proof. enc1 jisx0201_wctomb. Qed.

Lemma dec_iso646_cn : dec_ok enc_iso646_cn 1 inv0 pend0 ucs4 /\ dec_stable enc_iso646_cn inv0.
Proof. dec1 iso646_cn_mbtowc. Qed.
Lemma enc_iso646_cn_ok : enc_ok enc_iso646_cn oinv0 ucs4.
Proof. enc1 iso646_cn_wctomb. Qed.

Lemma dec_iso8859_1 : dec_ok enc_iso8859_1 1 inv0 pend0 ucs4 /\ dec_stable enc_iso8859_1 inv0.
Proof. dec1 iso8859_1_mbtowc. Qed.
Lemma enc_iso8859_1_ok : enc_ok enc_iso8859_1 oinv0 ucs4.
Proof. enc1 iso8859_1_wctomb. Qed.

Lemma dec_iso8859_2 : dec_ok enc_iso8859_2 1 inv0 pend0 ucs4 /\ dec_stable enc_iso8859_2 inv0.
Proof. dec1 iso8859_2_mbtowc. Qed.
Lemma enc_iso8859_2_ok : enc_ok enc_iso8859_2 oinv0 ucs4.
Proof. enc1 iso8859_2_wctomb. Qed.

Lemma dec_iso8859_3 : dec_ok enc_iso8859_3 1 inv0 pend0 ucs4 /\ dec_stable enc_iso8859_3 inv0.
Proof. dec1 iso8859_3_mbtowc. Qed.
Lemma enc_iso8859_3_ok : enc_ok enc_iso8859_3 oinv0 ucs4.
Proof. enc1 iso8859_3_wctomb. Qed.

Lemma dec_iso8859_4 : dec_ok enc_iso8859_4 1 inv0 pend0 ucs4 /\ dec_stable enc_iso8859_4 inv0.
Proof. dec1 iso8859_4_mbtowc. Qed.
Lemma enc_iso8859_4_ok : enc_ok enc_iso8859_4 oinv0 ucs4.
Proof. enc1 iso8859_4_wctomb. Qed.

Lemma dec_iso8859_5 : dec_ok enc_iso8859_5 1 inv0 pend0 ucs4 /\ dec_stable enc_iso8859_5 inv0.
Proof. dec1 iso8859_5_mbtowc. Qed.
Lemma enc_iso8859_5_ok : enc_ok enc_iso8859_5 oinv0 ucs4.
Proof. enc1 iso8859_5_wctomb. Qed.

Lemma dec_iso8859_6 : dec_ok enc_iso8859_6 1 inv0 pend0 ucs4 /\ dec_stable enc_iso8859_6 inv0.
Proof. dec1 iso8859_6_mbtowc. Qed.
Lemma enc_iso8859_6_ok : enc_ok enc_iso8859_6 oinv0 ucs4.
Proof. enc1 iso8859_6_wctomb. Qed.

Lemma dec_iso8859_7 : dec_ok enc_iso8859_7 1 inv0 pend0 ucs4 /\ dec_stable enc_iso8859_7 inv0.
Proof. dec1 iso8859_7_mbtowc. Qed.
Lemma enc_iso8859_7_ok : enc_ok enc_iso8859_7 oinv0 ucs4.
Proof. enc1 iso8859_7_wctomb. Qed.

Lemma dec_iso8859_8 : dec_ok enc_iso8859_8 1 inv0 pend0 ucs4 /\ dec_stable enc_iso8859_8 inv0.
Proof. dec1 iso8859_8_mbtowc. Qed.
Lemma enc_iso8859_8_ok : enc_ok enc_iso8859_8 oinv0 ucs4.
Proof. enc1 iso8859_8_wctomb. Qed.

Lemma dec_iso8859_9 : dec_ok enc_iso8859_9 1 inv0 pend0 ucs4 /\ dec_stable enc_iso8859_9 inv0.
Proof. dec1 iso8859_9_mbtowc. Qed.
Lemma enc_iso8859_9_ok : enc_ok enc_iso8859_9 oinv0 ucs4.
Proof. enc1 iso8859_9_wctomb. Qed.

Lemma dec_iso8859_10 : dec_ok enc_iso8859_10 1 inv0 pend0 ucs4 /\ dec_stable enc_iso8859_10 inv0.
Proof. dec1 iso8859_10_mbtowc. Qed.
Lemma enc_iso8859_10_ok : enc_ok enc_iso8859_10 oinv0 ucs4.
Proof. enc1 iso8859_10_wctomb. Qed.

Lemma dec_iso8859_11 : dec_ok enc_iso8859_11 1 inv0 pend0 ucs4 /\ dec_stable enc_iso8859_11 inv0.
Proof. dec1 iso8859_11_mbtowc. Qed.
Lemma enc_iso8859_11_ok : enc_ok enc_iso8859_11 oinv0 ucs4.
Proof. enc1 iso8859_11_wctomb. Qed.

Lemma dec_iso8859_13 : dec_ok enc_iso8859_13 1 inv0 pend0 ucs4 /\ dec_stable enc_iso8859_13 inv0.
Proof. dec1 iso8859_13_mbtowc. Qed.
Lemma enc_iso8859_13_ok : enc_ok enc_iso8859_13 oinv0 ucs4.
Proof. enc1 iso8859_13_wctomb. Qed.

Lemma dec_iso8859_14 : dec_ok enc_iso8859_14 1 inv0 pend0 ucs4 /\ dec_stable enc_iso8859_14 inv0.
Proof. dec1 iso8859_14_mbtowc. Qed.
Lemma enc_iso8859_14_ok : enc_ok enc_iso8859_14 oinv0 ucs4.
Proof. enc1 iso8859_14_wctomb. Qed.

Lemma dec_iso8859_15 : dec_ok enc_iso8859_15 1 inv0 pend0 ucs4 /\ dec_stable enc_iso8859_15 inv0.
Proof. dec1 iso8859_15_mbtowc. Qed.
Lemma enc_iso8859_15_ok : enc_ok enc_iso8859_15 oinv0 ucs4.
Proof. enc1 iso8859_15_wctomb. Qed.

Lemma dec_iso8859_16 : dec_ok enc_iso8859_16 1 inv0 pend0 ucs4 /\ dec_stable enc_iso8859_16 inv0.
Proof. dec1 iso8859_16_mbtowc. Qed.
Lemma enc_iso8859_16_ok : enc_ok enc_iso8859_16 oinv0 ucs4.
Proof. enc1 iso8859_16_wctomb. Qed.

Lemma dec_koi8_r : dec_ok enc_koi8_r 1 inv0 pend0 ucs4 /\ dec_stable enc_koi8_r inv0.
Proof. dec1 koi8_r_mbtowc. Qed.
Lemma enc_koi8_r_ok : enc_ok enc_koi8_r oinv0 ucs4.
Proof. enc1 koi8_r_wctomb. Qed.

Lemma dec_koi8_u : dec_ok enc_koi8_u 1 inv0 pend0 ucs4 /\ dec_stable enc_koi8_u inv0.
Proof. dec1 koi8_u_mbtowc. Qed.
Lemma enc_koi8_u_ok : enc_ok enc_koi8_u oinv0 ucs4.
Proof. enc1 koi8_u_wctomb. Qed.

Lemma dec_koi8_ru : dec_ok enc_koi8_ru 1 inv0 pend0 ucs4 /\ dec_stable enc_koi8_ru inv0.
Proof. dec1 koi8_ru_mbtowc. Qed.
Lemma enc_koi8_ru_ok : enc_ok enc_koi8_ru oinv0 ucs4.
Proof. enc1 koi8_ru_wctomb. Qed.

Lemma dec_cp1250 : dec_ok enc_cp1250 1 inv0 pend0 ucs4 /\ dec_stable enc_cp1250 inv0.
Proof. dec1 cp1250_mbtowc. Qed.
Lemma enc_cp1250_ok : enc_ok enc_cp1250 oinv0 ucs4.
Proof. enc1 cp1250_wctomb. Qed.

Lemma dec_cp1251 : dec_ok enc_cp1251 1 inv0 pend0 ucs4 /\ dec_stable enc_cp1251 inv0.
Proof. dec1 cp1251_mbtowc. Qed.
Lemma enc_cp1251_ok : enc_ok enc_cp1251 oinv0 ucs4.
Proof. enc1 cp1251_wctomb. Qed.

Lemma dec_cp1252 : dec_ok enc_cp1252 1 inv0 pend0 ucs4 /\ dec_stable enc_cp1252 inv0.
Proof. dec1 cp1252_mbtowc. Qed.
Lemma enc_cp1252_ok : enc_ok enc_cp1252 oinv0 ucs4.
Proof. enc1 cp1252_wctomb. Qed.

Lemma dec_cp1253 : dec_ok enc_cp1253 1 inv0 pend0 ucs4 /\ dec_stable enc_cp1253 inv0.
Proof. dec1 cp1253_mbtowc. Qed.
Lemma enc_cp1253_ok : enc_ok enc_cp1253 oinv0 ucs4.
Proof. enc1 cp1253_wctomb. Qed.
