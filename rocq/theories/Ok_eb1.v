(** GENERATED by tools/genok.py; do not edit.
    Converter contracts (Contract.v) of single-byte encodings. *)
From Coq Require Import ZArith List Bool Lia.
From Verif Require Import Base Loop Contract LoopLib Reflect Sx EncLib DecLib TabLib SbLib Conv_uni Conv_ebcdic Encodings TabIn_sb.
Import ListNotations.
Open Scope Z_scope.
Ltac tab_ti t ::= ti_of t.
Ltac sx_call m ::= lazymatch m with tget ?t ?i _ => tab_get t i end.

Lemma dec_ebcdic037 : dec_ok enc_ebcdic037 1 inv0 pend0 ucs4 /\ dec_stable enc_ebcdic037 inv0.
Proof. dec1 ebcdic037_mbtowc. Qed.
Lemma enc_ebcdic037_ok : enc_ok enc_ebcdic037 oinv0 ucs4.
Proof. enc1 ebcdic037_wctomb. Qed.

Lemma dec_ebcdic273 : dec_ok enc_ebcdic273 1 inv0 pend0 ucs4 /\ dec_stable enc_ebcdic273 inv0.
Proof. dec1 ebcdic273_mbtowc. Qed.
Lemma enc_ebcdic273_ok : enc_ok enc_ebcdic273 oinv0 ucs4.
Proof. enc1 ebcdic273_wctomb. Qed.

Lemma dec_ebcdic277 : dec_ok enc_ebcdic277 1 inv0 pend0 ucs4 /\ dec_stable enc_ebcdic277 inv0.
Proof. dec1 ebcdic277_mbtowc. Qed.
Lemma enc_ebcdic277_ok : enc_ok enc_ebcdic277 oinv0 ucs4.
Proof. enc1 ebcdic277_wctomb. Qed.

Lemma dec_ebcdic278 : dec_ok enc_ebcdic278 1 inv0 pend0 ucs4 /\ dec_stable enc_ebcdic278 inv0.
Proof. dec1 ebcdic278_mbtowc. Qed.
Lemma enc_ebcdic278_ok : enc_ok enc_ebcdic278 oinv0 ucs4.
Proof. enc1 ebcdic278_wctomb. Qed.

Lemma dec_ebcdic280 : dec_ok enc_ebcdic280 1 inv0 pend0 ucs4 /\ dec_stable enc_ebcdic280 inv0.
Proof. dec1 ebcdic280_mbtowc. Qed.
Lemma enc_ebcdic280_ok : enc_ok enc_ebcdic280 oinv0 ucs4.
Proof. enc1 ebcdic280_wctomb. Qed.

Lemma dec_ebcdic282 : dec_ok enc_ebcdic282 1 inv0 pend0 ucs4 /\ dec_stable enc_ebcdic282 inv0.
Proof. dec1 ebcdic282_mbtowc. Qed.
Lemma enc_ebcdic282_ok : enc_ok enc_ebcdic282 oinv0 ucs4.
Proof. enc1 ebcdic282_wctomb. Qed.

Lemma dec_ebcdic284 : dec_ok enc_ebcdic284 1 inv0 pend0 ucs4 /\ dec_stable enc_ebcdic284 inv0.
Proof. dec1 ebcdic284_mbtowc. Qed.
Lemma enc_ebcdic284_ok : enc_ok enc_ebcdic284 oinv0 ucs4.
Proof. enc1 ebcdic284_wctomb. Qed.

Lemma dec_ebcdic285 : dec_ok enc_ebcdic285 1 inv0 pend0 ucs4 /\ dec_stable enc_ebcdic285 inv0.
Proof. dec1 ebcdic285_mbtowc. Qed.
Lemma enc_ebcdic285_ok : enc_ok enc_ebcdic285 oinv0 ucs4.
Proof. enc1 ebcdic285_wctomb. Qed.

Lemma dec_ebcdic297 : dec_ok enc_ebcdic297 1 inv0 pend0 ucs4 /\ dec_stable enc_ebcdic297 inv0.
Proof. dec1 ebcdic297_mbtowc. Qed.
Lemma enc_ebcdic297_ok : enc_ok enc_ebcdic297 oinv0 ucs4.
Proof. enc1 ebcdic297_wctomb. Qed.

Lemma dec_ebcdic423 : dec_ok enc_ebcdic423 1 inv0 pend0 ucs4 /\ dec_stable enc_ebcdic423 inv0.
Proof. dec1 ebcdic423_mbtowc. Qed.
Lemma enc_ebcdic423_ok : enc_ok enc_ebcdic423 oinv0 ucs4.
Proof. enc1 ebcdic423_wctomb. Qed.

Lemma dec_ebcdic424 : dec_ok enc_ebcdic424 1 inv0 pend0 ucs4 /\ dec_stable enc_ebcdic424 inv0.
Proof. dec1 ebcdic424_mbtowc. Qed.
Lemma enc_ebcdic424_ok : enc_ok enc_ebcdic424 oinv0 ucs4.
Proof. enc1 ebcdic424_wctomb. Qed.

Lemma dec_ebcdic425 : dec_ok enc_ebcdic425 1 inv0 pend0 ucs4 /\ dec_stable enc_ebcdic425 inv0.
Proof. dec1 ebcdic425_mbtowc. Qed.
Lemma enc_ebcdic425_ok : enc_ok enc_ebcdic425 oinv0 ucs4.
Proof. enc1 ebcdic425_wctomb. Qed.

Lemma dec_ebcdic500 : dec_ok enc_ebcdic500 1 inv0 pend0 ucs4 /\ dec_stable enc_ebcdic500 inv0.
Proof. dec1 ebcdic500_mbtowc. Qed.
Lemma enc_ebcdic500_ok : enc_ok enc_ebcdic500 oinv0 ucs4.
Proof. enc1 ebcdic500_wctomb. Qed.

Lemma dec_ebcdic838 : dec_ok enc_ebcdic838 1 inv0 pend0 ucs4 /\ dec_stable enc_ebcdic838 inv0.
Proof. dec1 ebcdic838_mbtowc. Qed.
Lemma enc_ebcdic838_ok : enc_ok enc_ebcdic838 oinv0 ucs4.
Proof. enc1 ebcdic838_wctomb. Qed.

Lemma dec_ebcdic870 : dec_ok enc_ebcdic870 1 inv0 pend0 ucs4 /\ dec_stable enc_ebcdic870 inv0.
Proof. dec1 ebcdic870_mbtowc. Qed.
Lemma enc_ebcdic870_ok : enc_ok enc_ebcdic870 oinv0 ucs4.
Proof. enc1 ebcdic870_wctomb. Qed.

Lemma dec_ebcdic871 : dec_ok enc_ebcdic871 1 inv0 pend0 ucs4 /\ dec_stable enc_ebcdic871 inv0.
Proof. dec1 ebcdic871_mbtowc. Qed.
Lemma enc_ebcdic871_ok : enc_ok enc_ebcdic871 oinv0 ucs4.
Proof. enc1 ebcdic871_wctomb. Qed.

Lemma dec_ebcdic875 : dec_ok enc_ebcdic875 1 inv0 pend0 ucs4 /\ dec_stable enc_ebcdic875 inv0.
Proof. dec1 ebcdic875_mbtowc. Qed.
Lemma enc_ebcdic875_ok : enc_ok enc_ebcdic875 oinv0 ucs4.
Proof. enc1 ebcdic875_wctomb. Qed.

Lemma dec_ebcdic880 : dec_ok enc_ebcdic880 1 inv0 pend0 ucs4 /\ dec_stable enc_ebcdic880 inv0.
Proof. dec1 ebcdic880_mbtowc. Qed.
Lemma enc_ebcdic880_ok : enc_ok enc_ebcdic880 oinv0 ucs4.
Proof. enc1 ebcdic880_wctomb. Qed.

Lemma dec_ebcdic905 : dec_ok enc_ebcdic905 1 inv0 pend0 ucs4 /\ dec_stable enc_ebcdic905 inv0.
Proof. dec1 ebcdic905_mbtowc. Qed.
Lemma enc_ebcdic905_ok : enc_ok enc_ebcdic905 oinv0 ucs4.
Proof. enc1 ebcdic905_wctomb. Qed.

Lemma dec_ebcdic924 : dec_ok enc_ebcdic924 1 inv0 pend0 ucs4 /\ dec_stable enc_ebcdic924 inv0.
Proof. dec1 ebcdic924_mbtowc. Qed.
Lemma enc_ebcdic924_ok : enc_ok enc_ebcdic924 oinv0 ucs4.
Proof. enc1 ebcdic924_wctomb. Qed.

Lemma dec_ebcdic1025 : dec_ok enc_ebcdic1025 1 inv0 pend0 ucs4 /\ dec_stable enc_ebcdic1025 inv0.
Proof. dec1 ebcdic1025_mbtowc. Qed.
Lemma enc_ebcdic1025_ok : enc_ok enc_ebcdic1025 oinv0 ucs4.
Proof. enc1 ebcdic1025_wctomb. Qed.

Lemma dec_ebcdic1026 : dec_ok enc_ebcdic1026 1 inv0 pend0 ucs4 /\ dec_stable enc_ebcdic1026 inv0.
Proof. dec1 ebcdic1026_mbtowc. Qed.
Lemma enc_ebcdic1026_ok : enc_ok enc_ebcdic1026 oinv0 ucs4.
Proof. enc1 ebcdic1026_wctomb. Qed.

Lemma dec_ebcdic1047 : dec_ok enc_ebcdic1047 1 inv0 pend0 ucs4 /\ dec_stable enc_ebcdic1047 inv0.
Proof. dec1 ebcdic1047_mbtowc. Qed.
Lemma enc_ebcdic1047_ok : enc_ok enc_ebcdic1047 oinv0 ucs4.
Proof. enc1 ebcdic1047_wctomb. Qed.

Lemma dec_ebcdic1097 : dec_ok enc_ebcdic1097 1 inv0 pend0 ucs4 /\ dec_stable enc_ebcdic1097 inv0.
Proof. dec1 ebcdic1097_mbtowc. Qed.
Lemma enc_ebcdic1097_ok : enc_ok enc_ebcdic1097 oinv0 ucs4.
Proof. enc1 ebcdic1097_wctomb. Qed.

Lemma dec_ebcdic1112 : dec_ok enc_ebcdic1112 1 inv0 pend0 ucs4 /\ dec_stable enc_ebcdic1112 inv0.
Proof. dec1 ebcdic1112_mbtowc. Qed.
Lemma enc_ebcdic1112_ok : enc_ok enc_ebcdic1112 oinv0 ucs4.
Proof. enc1 ebcdic1112_wctomb. Qed.

Lemma dec_ebcdic1122 : dec_ok enc_ebcdic1122 1 inv0 pend0 ucs4 /\ dec_stable enc_ebcdic1122 inv0.
Proof. dec1 ebcdic1122_mbtowc. Qed.
Lemma enc_ebcdic1122_ok : enc_ok enc_ebcdic1122 oinv0 ucs4.
Proof. enc1 ebcdic1122_wctomb. Qed.

Lemma dec_ebcdic1123 : dec_ok enc_ebcdic1123 1 inv0 pend0 ucs4 /\ dec_stable enc_ebcdic1123 inv0.
Proof. dec1 ebcdic1123_mbtowc. Qed.
Lemma enc_ebcdic1123_ok : enc_ok enc_ebcdic1123 oinv0 ucs4.
Proof. enc1 ebcdic1123_wctomb. Qed.
