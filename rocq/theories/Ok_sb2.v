(** GENERATED by tools/genok.py; do not edit.
    Converter contracts (Contract.v) of single-byte encodings. *)
From Coq Require Import ZArith List Bool Lia.
From Verif Require Import Base Loop Contract LoopLib Reflect Sx EncLib DecLib TabLib SbLib Conv_uni Conv_sb Encodings TabIn_sb.
Import ListNotations.
Open Scope Z_scope.
Ltac tab_ti t ::= ti_of t.
Ltac sx_call m ::= lazymatch m with tget ?t ?i _ => tab_get t i end.

Lemma dec_cp1254 : dec_ok enc_cp1254 1 inv0 pend0 ucs4 /\ dec_stable enc_cp1254 inv0.
Proof. dec1 cp1254_mbtowc. Qed.
Lemma enc_cp1254_ok : enc_ok enc_cp1254 oinv0 ucs4.
Proof. enc1 cp1254_wctomb. Qed.


Lemma dec_cp1256 : dec_ok enc_cp1256 1 inv0 pend0 ucs4 /\ dec_stable enc_cp1256 inv0.
Proof. dec1 cp1256_mbtowc. Qed.
Lemma enc_cp1256_ok : enc_ok enc_cp1256 oinv0 ucs4.
Proof. enc1 cp1256_wctomb. Qed.

Lemma dec_cp1257 : dec_ok enc_cp1257 1 inv0 pend0 ucs4 /\ dec_stable enc_cp1257 inv0.
Proof. dec1 cp1257_mbtowc. Qed.
Lemma enc_cp1257_ok : enc_ok enc_cp1257 oinv0 ucs4.
Proof. enc1 cp1257_wctomb. Qed.


Lemma dec_cp850 : dec_ok enc_cp850 1 inv0 pend0 ucs4 /\ dec_stable enc_cp850 inv0.
Proof. dec1 cp850_mbtowc. Qed.
Lemma enc_cp850_ok : enc_ok enc_cp850 oinv0 ucs4.
Proof. enc1 cp850_wctomb. Qed.

Lemma dec_cp862 : dec_ok enc_cp862 1 inv0 pend0 ucs4 /\ dec_stable enc_cp862 inv0.
Proof. dec1 cp862_mbtowc. Qed.
Lemma enc_cp862_ok : enc_ok enc_cp862 oinv0 ucs4.
Proof. enc1 cp862_wctomb. Qed.

Lemma dec_cp866 : dec_ok enc_cp866 1 inv0 pend0 ucs4 /\ dec_stable enc_cp866 inv0.
Proof. dec1 cp866_mbtowc. Qed.
Lemma enc_cp866_ok : enc_ok enc_cp866 oinv0 ucs4.
Proof. enc1 cp866_wctomb. Qed.

Lemma dec_cp1131 : dec_ok enc_cp1131 1 inv0 pend0 ucs4 /\ dec_stable enc_cp1131 inv0.
Proof. dec1 cp1131_mbtowc. Qed.
Lemma enc_cp1131_ok : enc_ok enc_cp1131 oinv0 ucs4.
Proof. enc1 cp1131_wctomb. Qed.

Lemma dec_mac_roman : dec_ok enc_mac_roman 1 inv0 pend0 ucs4 /\ dec_stable enc_mac_roman inv0.
Proof. dec1 mac_roman_mbtowc. Qed.
Lemma enc_mac_roman_ok : enc_ok enc_mac_roman oinv0 ucs4.
Proof. enc1 mac_roman_wctomb. Qed.

Lemma dec_mac_centraleurope : dec_ok enc_mac_centraleurope 1 inv0 pend0 ucs4 /\ dec_stable enc_mac_centraleurope inv0.
Proof. dec1 mac_centraleurope_mbtowc. Qed.
Lemma enc_mac_centraleurope_ok : enc_ok enc_mac_centraleurope oinv0 ucs4.
Proof. enc1 mac_centraleurope_wctomb. Qed.

Lemma dec_mac_iceland : dec_ok enc_mac_iceland 1 inv0 pend0 ucs4 /\ dec_stable enc_mac_iceland inv0.
Proof. dec1 mac_iceland_mbtowc. Qed.
Lemma enc_mac_iceland_ok : enc_ok enc_mac_iceland oinv0 ucs4.
Proof. enc1 mac_iceland_wctomb. Qed.

Lemma dec_mac_croatian : dec_ok enc_mac_croatian 1 inv0 pend0 ucs4 /\ dec_stable enc_mac_croatian inv0.
Proof. dec1 mac_croatian_mbtowc. Qed.
Lemma enc_mac_croatian_ok : enc_ok enc_mac_croatian oinv0 ucs4.
Proof. enc1 mac_croatian_wctomb. Qed.

Lemma dec_mac_romania : dec_ok enc_mac_romania 1 inv0 pend0 ucs4 /\ dec_stable enc_mac_romania inv0.
Proof. dec1 mac_romania_mbtowc. Qed.
Lemma enc_mac_romania_ok : enc_ok enc_mac_romania oinv0 ucs4.
Proof. enc1 mac_romania_wctomb. Qed.

Lemma dec_mac_cyrillic : dec_ok enc_mac_cyrillic 1 inv0 pend0 ucs4 /\ dec_stable enc_mac_cyrillic inv0.
Proof. dec1 mac_cyrillic_mbtowc. Qed.
Lemma enc_mac_cyrillic_ok : enc_ok enc_mac_cyrillic oinv0 ucs4.
Proof. enc1 mac_cyrillic_wctomb. Qed.

Lemma dec_mac_ukraine : dec_ok enc_mac_ukraine 1 inv0 pend0 ucs4 /\ dec_stable enc_mac_ukraine inv0.
Proof. dec1 mac_ukraine_mbtowc. Qed.
Lemma enc_mac_ukraine_ok : enc_ok enc_mac_ukraine oinv0 ucs4.
Proof. enc1 mac_ukraine_wctomb. Qed.

Lemma dec_mac_greek : dec_ok enc_mac_greek 1 inv0 pend0 ucs4 /\ dec_stable enc_mac_greek inv0.
Proof. dec1 mac_greek_mbtowc. Qed.
Lemma enc_mac_greek_ok : enc_ok enc_mac_greek oinv0 ucs4.
Proof. enc1 mac_greek_wctomb. Qed.

Lemma dec_mac_turkish : dec_ok enc_mac_turkish 1 inv0 pend0 ucs4 /\ dec_stable enc_mac_turkish inv0.
Proof. dec1 mac_turkish_mbtowc. Qed.
Lemma enc_mac_turkish_ok : enc_ok enc_mac_turkish oinv0 ucs4.
Proof. enc1 mac_turkish_wctomb. Qed.

Lemma dec_mac_hebrew : dec_ok enc_mac_hebrew 1 inv0 pend0 ucs4 /\ dec_stable enc_mac_hebrew inv0.
Proof. dec1 mac_hebrew_mbtowc. Qed.
Lemma enc_mac_hebrew_ok : enc_ok enc_mac_hebrew oinv0 ucs4.
Proof. enc1 mac_hebrew_wctomb. Qed.

Lemma dec_mac_arabic : dec_ok enc_mac_arabic 1 inv0 pend0 ucs4 /\ dec_stable enc_mac_arabic inv0.
Proof. dec1 mac_arabic_mbtowc. Qed.
Lemma enc_mac_arabic_ok : enc_ok enc_mac_arabic oinv0 ucs4.
Proof. enc1 mac_arabic_wctomb. Qed.

Lemma dec_mac_thai : dec_ok enc_mac_thai 1 inv0 pend0 ucs4 /\ dec_stable enc_mac_thai inv0.
Proof. dec1 mac_thai_mbtowc. Qed.
Lemma enc_mac_thai_ok : enc_ok enc_mac_thai oinv0 ucs4.
Proof. enc1 mac_thai_wctomb. Qed.

Lemma dec_hp_roman8 : dec_ok enc_hp_roman8 1 inv0 pend0 ucs4 /\ dec_stable enc_hp_roman8 inv0.
Proof. dec1 hp_roman8_mbtowc. Qed.
Lemma enc_hp_roman8_ok : enc_ok enc_hp_roman8 oinv0 ucs4.
Proof. enc1 hp_roman8_wctomb. Qed.
