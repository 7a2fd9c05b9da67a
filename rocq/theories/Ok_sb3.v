(** GENERATED by tools/genok.py; do not edit.
    Converter contracts (Contract.v) of single-byte encodings. *)
From Coq Require Import ZArith List Bool Lia.
From Verif Require Import Base Loop Contract LoopLib Reflect Sx EncLib DecLib TabLib SbLib Conv_uni Conv_sb Encodings TabIn_sb.
Import ListNotations.
Open Scope Z_scope.
Ltac tab_ti t ::= ti_of t.
Ltac sx_call m ::= lazymatch m with tget ?t ?i _ => tab_get t i end.

Lemma dec_nextstep : dec_ok enc_nextstep 1 inv0 pend0 ucs4 /\ dec_stable enc_nextstep inv0.
Proof. dec1 nextstep_mbtowc. Qed.
Lemma enc_nextstep_ok : enc_ok enc_nextstep oinv0 ucs4.
Proof. enc1 nextstep_wctomb. Qed.

Lemma dec_armscii_8 : dec_ok enc_armscii_8 1 inv0 pend0 ucs4 /\ dec_stable enc_armscii_8 inv0.
Proof. dec1 armscii_8_mbtowc. Qed.
Lemma enc_armscii_8_ok : enc_ok enc_armscii_8 oinv0 ucs4.
Proof. enc1 armscii_8_wctomb. Qed.

Lemma dec_georgian_academy : dec_ok enc_georgian_academy 1 inv0 pend0 ucs4 /\ dec_stable enc_georgian_academy inv0.
Proof. dec1 georgian_academy_mbtowc. Qed.
Lemma enc_georgian_academy_ok : enc_ok enc_georgian_academy oinv0 ucs4.
Proof. enc1 georgian_academy_wctomb. Qed.

Lemma dec_georgian_ps : dec_ok enc_georgian_ps 1 inv0 pend0 ucs4 /\ dec_stable enc_georgian_ps inv0.
Proof. dec1 georgian_ps_mbtowc. Qed.
Lemma enc_georgian_ps_ok : enc_ok enc_georgian_ps oinv0 ucs4.
Proof. enc1 georgian_ps_wctomb. Qed.

Lemma dec_koi8_t : dec_ok enc_koi8_t 1 inv0 pend0 ucs4 /\ dec_stable enc_koi8_t inv0.
Proof. dec1 koi8_t_mbtowc. Qed.
Lemma enc_koi8_t_ok : enc_ok enc_koi8_t oinv0 ucs4.
Proof. enc1 koi8_t_wctomb. Qed.

Lemma dec_pt154 : dec_ok enc_pt154 1 inv0 pend0 ucs4 /\ dec_stable enc_pt154 inv0.
Proof. dec1 pt154_mbtowc. Qed.
Lemma enc_pt154_ok : enc_ok enc_pt154 oinv0 ucs4.
Proof. enc1 pt154_wctomb. Qed.

Lemma dec_rk1048 : dec_ok enc_rk1048 1 inv0 pend0 ucs4 /\ dec_stable enc_rk1048 inv0.
Proof. dec1 rk1048_mbtowc. Qed.
Lemma enc_rk1048_ok : enc_ok enc_rk1048 oinv0 ucs4.
Proof. enc1 rk1048_wctomb. Qed.

Lemma dec_mulelao : dec_ok enc_mulelao 1 inv0 pend0 ucs4 /\ dec_stable enc_mulelao inv0.
Proof. dec1 mulelao_mbtowc. Qed.
Lemma enc_mulelao_ok : enc_ok enc_mulelao oinv0 ucs4.
Proof. enc1 mulelao_wctomb. Qed.

Lemma dec_cp1133 : dec_ok enc_cp1133 1 inv0 pend0 ucs4 /\ dec_stable enc_cp1133 inv0.
Proof. dec1 cp1133_mbtowc. Qed.
Lemma enc_cp1133_ok : enc_ok enc_cp1133 oinv0 ucs4.
Proof. enc1 cp1133_wctomb. Qed.

Lemma dec_tis620 : dec_ok enc_tis620 1 inv0 pend0 ucs4 /\ dec_stable enc_tis620 inv0.
Proof. dec1 tis620_mbtowc. Qed.
Lemma enc_tis620_ok : enc_ok enc_tis620 oinv0 ucs4.
Proof. enc1 tis620_wctomb. Qed.

Lemma dec_cp874 : dec_ok enc_cp874 1 inv0 pend0 ucs4 /\ dec_stable enc_cp874 inv0.
Proof. dec1 cp874_mbtowc. Qed.
Lemma enc_cp874_ok : enc_ok enc_cp874 oinv0 ucs4.
Proof. enc1 cp874_wctomb. Qed.

Lemma dec_viscii : dec_ok enc_viscii 1 inv0 pend0 ucs4 /\ dec_stable enc_viscii inv0.
Proof. dec1 viscii_mbtowc. Qed.
Lemma enc_viscii_ok : enc_ok enc_viscii oinv0 ucs4.
Proof. enc1 viscii_wctomb. Qed.


Lemma dec_cp856 : dec_ok enc_cp856 1 inv0 pend0 ucs4 /\ dec_stable enc_cp856 inv0.
Proof. dec1 cp856_mbtowc. Qed.
Lemma enc_cp856_ok : enc_ok enc_cp856 oinv0 ucs4.
Proof. enc1 cp856_wctomb. Qed.

Lemma dec_cp922 : dec_ok enc_cp922 1 inv0 pend0 ucs4 /\ dec_stable enc_cp922 inv0.
Proof. dec1 cp922_mbtowc. Qed.
Lemma enc_cp922_ok : enc_ok enc_cp922 oinv0 ucs4.
Proof. enc1 cp922_wctomb. Qed.

Lemma dec_cp1046 : dec_ok enc_cp1046 1 inv0 pend0 ucs4 /\ dec_stable enc_cp1046 inv0.
Proof. dec1 cp1046_mbtowc. Qed.
Lemma enc_cp1046_ok : enc_ok enc_cp1046 oinv0 ucs4.
Proof. enc1 cp1046_wctomb. Qed.

Lemma dec_cp1124 : dec_ok enc_cp1124 1 inv0 pend0 ucs4 /\ dec_stable enc_cp1124 inv0.
Proof. dec1 cp1124_mbtowc. Qed.
Lemma enc_cp1124_ok : enc_ok enc_cp1124 oinv0 ucs4.
Proof. enc1 cp1124_wctomb. Qed.

Lemma dec_cp1129 : dec_ok enc_cp1129 1 inv0 pend0 ucs4 /\ dec_stable enc_cp1129 inv0.
Proof. dec1 cp1129_mbtowc. Qed.
Lemma enc_cp1129_ok : enc_ok enc_cp1129 oinv0 ucs4.
Proof. enc1 cp1129_wctomb. Qed.

Lemma dec_cp1161 : dec_ok enc_cp1161 1 inv0 pend0 ucs4 /\ dec_stable enc_cp1161 inv0.
Proof. dec1 cp1161_mbtowc. Qed.
Lemma enc_cp1161_ok : enc_ok enc_cp1161 oinv0 ucs4.
Proof. enc1 cp1161_wctomb. Qed.

Lemma dec_cp1162 : dec_ok enc_cp1162 1 inv0 pend0 ucs4 /\ dec_stable enc_cp1162 inv0.
Proof. dec1 cp1162_mbtowc. Qed.
Lemma enc_cp1162_ok : enc_ok enc_cp1162 oinv0 ucs4.
Proof. enc1 cp1162_wctomb. Qed.
