(** GENERATED by tools/genok.py; do not edit.
    Converter contracts (Contract.v) of single-byte encodings. *)
From Coq Require Import ZArith List Bool Lia.
From Verif Require Import Base Loop Contract LoopLib Reflect Sx EncLib DecLib TabLib SbLib Conv_uni Conv_ebcdic Encodings TabIn_sb.
Import ListNotations.
Open Scope Z_scope.
Ltac tab_ti t ::= ti_of t.
Ltac sx_call m ::= lazymatch m with tget ?t ?i _ => tab_get t i end.

Lemma dec_ebcdic1130 : dec_ok enc_ebcdic1130 1 inv0 pend0 ucs4 /\ dec_stable enc_ebcdic1130 inv0.
Proof. dec1 ebcdic1130_mbtowc. Qed.
Lemma enc_ebcdic1130_ok : enc_ok enc_ebcdic1130 oinv0 ucs4.
Proof. enc1 ebcdic1130_wctomb. Qed.

Lemma dec_ebcdic1132 : dec_ok enc_ebcdic1132 1 inv0 pend0 ucs4 /\ dec_stable enc_ebcdic1132 inv0.
Proof. dec1 ebcdic1132_mbtowc. Qed.
Lemma enc_ebcdic1132_ok : enc_ok enc_ebcdic1132 oinv0 ucs4.
Proof. enc1 ebcdic1132_wctomb. Qed.

Lemma dec_ebcdic1137 : dec_ok enc_ebcdic1137 1 inv0 pend0 ucs4 /\ dec_stable enc_ebcdic1137 inv0.
Proof. dec1 ebcdic1137_mbtowc. Qed.
Lemma enc_ebcdic1137_ok : enc_ok enc_ebcdic1137 oinv0 ucs4.
Proof. enc1 ebcdic1137_wctomb. Qed.

Lemma dec_ebcdic1140 : dec_ok enc_ebcdic1140 1 inv0 pend0 ucs4 /\ dec_stable enc_ebcdic1140 inv0.
Proof. dec1 ebcdic1140_mbtowc. Qed.
Lemma enc_ebcdic1140_ok : enc_ok enc_ebcdic1140 oinv0 ucs4.
Proof. enc1 ebcdic1140_wctomb. Qed.

Lemma dec_ebcdic1141 : dec_ok enc_ebcdic1141 1 inv0 pend0 ucs4 /\ dec_stable enc_ebcdic1141 inv0.
Proof. dec1 ebcdic1141_mbtowc. Qed.
Lemma enc_ebcdic1141_ok : enc_ok enc_ebcdic1141 oinv0 ucs4.
Proof. enc1 ebcdic1141_wctomb. Qed.

Lemma dec_ebcdic1142 : dec_ok enc_ebcdic1142 1 inv0 pend0 ucs4 /\ dec_stable enc_ebcdic1142 inv0.
Proof. dec1 ebcdic1142_mbtowc. Qed.
Lemma enc_ebcdic1142_ok : enc_ok enc_ebcdic1142 oinv0 ucs4.
Proof. enc1 ebcdic1142_wctomb. Qed.

Lemma dec_ebcdic1143 : dec_ok enc_ebcdic1143 1 inv0 pend0 ucs4 /\ dec_stable enc_ebcdic1143 inv0.
Proof. dec1 ebcdic1143_mbtowc. Qed.
Lemma enc_ebcdic1143_ok : enc_ok enc_ebcdic1143 oinv0 ucs4.
Proof. enc1 ebcdic1143_wctomb. Qed.

Lemma dec_ebcdic1144 : dec_ok enc_ebcdic1144 1 inv0 pend0 ucs4 /\ dec_stable enc_ebcdic1144 inv0.
Proof. dec1 ebcdic1144_mbtowc. Qed.
Lemma enc_ebcdic1144_ok : enc_ok enc_ebcdic1144 oinv0 ucs4.
Proof. enc1 ebcdic1144_wctomb. Qed.

Lemma dec_ebcdic1145 : dec_ok enc_ebcdic1145 1 inv0 pend0 ucs4 /\ dec_stable enc_ebcdic1145 inv0.
Proof. dec1 ebcdic1145_mbtowc. Qed.
Lemma enc_ebcdic1145_ok : enc_ok enc_ebcdic1145 oinv0 ucs4.
Proof. enc1 ebcdic1145_wctomb. Qed.

Lemma dec_ebcdic1146 : dec_ok enc_ebcdic1146 1 inv0 pend0 ucs4 /\ dec_stable enc_ebcdic1146 inv0.
Proof. dec1 ebcdic1146_mbtowc. Qed.
Lemma enc_ebcdic1146_ok : enc_ok enc_ebcdic1146 oinv0 ucs4.
Proof. enc1 ebcdic1146_wctomb. Qed.

Lemma dec_ebcdic1147 : dec_ok enc_ebcdic1147 1 inv0 pend0 ucs4 /\ dec_stable enc_ebcdic1147 inv0.
Proof. dec1 ebcdic1147_mbtowc. Qed.
Lemma enc_ebcdic1147_ok : enc_ok enc_ebcdic1147 oinv0 ucs4.
Proof. enc1 ebcdic1147_wctomb. Qed.

Lemma dec_ebcdic1148 : dec_ok enc_ebcdic1148 1 inv0 pend0 ucs4 /\ dec_stable enc_ebcdic1148 inv0.
Proof. dec1 ebcdic1148_mbtowc. Qed.
Lemma enc_ebcdic1148_ok : enc_ok enc_ebcdic1148 oinv0 ucs4.
Proof. enc1 ebcdic1148_wctomb. Qed.

Lemma dec_ebcdic1149 : dec_ok enc_ebcdic1149 1 inv0 pend0 ucs4 /\ dec_stable enc_ebcdic1149 inv0.
Proof. dec1 ebcdic1149_mbtowc. Qed.
Lemma enc_ebcdic1149_ok : enc_ok enc_ebcdic1149 oinv0 ucs4.
Proof. enc1 ebcdic1149_wctomb. Qed.

Lemma dec_ebcdic1153 : dec_ok enc_ebcdic1153 1 inv0 pend0 ucs4 /\ dec_stable enc_ebcdic1153 inv0.
Proof. dec1 ebcdic1153_mbtowc. Qed.
Lemma enc_ebcdic1153_ok : enc_ok enc_ebcdic1153 oinv0 ucs4.
Proof. enc1 ebcdic1153_wctomb. Qed.

Lemma dec_ebcdic1154 : dec_ok enc_ebcdic1154 1 inv0 pend0 ucs4 /\ dec_stable enc_ebcdic1154 inv0.
Proof. dec1 ebcdic1154_mbtowc. Qed.
Lemma enc_ebcdic1154_ok : enc_ok enc_ebcdic1154 oinv0 ucs4.
Proof. enc1 ebcdic1154_wctomb. Qed.

Lemma dec_ebcdic1155 : dec_ok enc_ebcdic1155 1 inv0 pend0 ucs4 /\ dec_stable enc_ebcdic1155 inv0.
Proof. dec1 ebcdic1155_mbtowc. Qed.
Lemma enc_ebcdic1155_ok : enc_ok enc_ebcdic1155 oinv0 ucs4.
Proof. enc1 ebcdic1155_wctomb. Qed.

Lemma dec_ebcdic1156 : dec_ok enc_ebcdic1156 1 inv0 pend0 ucs4 /\ dec_stable enc_ebcdic1156 inv0.
Proof. dec1 ebcdic1156_mbtowc. Qed.
Lemma enc_ebcdic1156_ok : enc_ok enc_ebcdic1156 oinv0 ucs4.
Proof. enc1 ebcdic1156_wctomb. Qed.

Lemma dec_ebcdic1157 : dec_ok enc_ebcdic1157 1 inv0 pend0 ucs4 /\ dec_stable enc_ebcdic1157 inv0.
Proof. dec1 ebcdic1157_mbtowc. Qed.
Lemma enc_ebcdic1157_ok : enc_ok enc_ebcdic1157 oinv0 ucs4.
Proof. enc1 ebcdic1157_wctomb. Qed.

Lemma dec_ebcdic1158 : dec_ok enc_ebcdic1158 1 inv0 pend0 ucs4 /\ dec_stable enc_ebcdic1158 inv0.
Proof. dec1 ebcdic1158_mbtowc. Qed.
Lemma enc_ebcdic1158_ok : enc_ok enc_ebcdic1158 oinv0 ucs4.
Proof. enc1 ebcdic1158_wctomb. Qed.

Lemma dec_ebcdic1160 : dec_ok enc_ebcdic1160 1 inv0 pend0 ucs4 /\ dec_stable enc_ebcdic1160 inv0.
Proof. dec1 ebcdic1160_mbtowc. Qed.
Lemma enc_ebcdic1160_ok : enc_ok enc_ebcdic1160 oinv0 ucs4.
Proof. enc1 ebcdic1160_wctomb. Qed.

Lemma dec_ebcdic1164 : dec_ok enc_ebcdic1164 1 inv0 pend0 ucs4 /\ dec_stable enc_ebcdic1164 inv0.
Proof. dec1 ebcdic1164_mbtowc. Qed.
Lemma enc_ebcdic1164_ok : enc_ok enc_ebcdic1164 oinv0 ucs4.
Proof. enc1 ebcdic1164_wctomb. Qed.

Lemma dec_ebcdic1165 : dec_ok enc_ebcdic1165 1 inv0 pend0 ucs4 /\ dec_stable enc_ebcdic1165 inv0.
Proof. dec1 ebcdic1165_mbtowc. Qed.
Lemma enc_ebcdic1165_ok : enc_ok enc_ebcdic1165 oinv0 ucs4.
Proof. enc1 ebcdic1165_wctomb. Qed.

Lemma dec_ebcdic1166 : dec_ok enc_ebcdic1166 1 inv0 pend0 ucs4 /\ dec_stable enc_ebcdic1166 inv0.
Proof. dec1 ebcdic1166_mbtowc. Qed.
Lemma enc_ebcdic1166_ok : enc_ok enc_ebcdic1166 oinv0 ucs4.
Proof. enc1 ebcdic1166_wctomb. Qed.

Lemma dec_ebcdic4971 : dec_ok enc_ebcdic4971 1 inv0 pend0 ucs4 /\ dec_stable enc_ebcdic4971 inv0.
Proof. dec1 ebcdic4971_mbtowc. Qed.
Lemma enc_ebcdic4971_ok : enc_ok enc_ebcdic4971 oinv0 ucs4.
Proof. enc1 ebcdic4971_wctomb. Qed.

Lemma dec_ebcdic12712 : dec_ok enc_ebcdic12712 1 inv0 pend0 ucs4 /\ dec_stable enc_ebcdic12712 inv0.
Proof. dec1 ebcdic12712_mbtowc. Qed.
Lemma enc_ebcdic12712_ok : enc_ok enc_ebcdic12712 oinv0 ucs4.
Proof. enc1 ebcdic12712_wctomb. Qed.

Lemma dec_ebcdic16804 : dec_ok enc_ebcdic16804 1 inv0 pend0 ucs4 /\ dec_stable enc_ebcdic16804 inv0.
Proof. dec1 ebcdic16804_mbtowc. Qed.
Lemma enc_ebcdic16804_ok : enc_ok enc_ebcdic16804 oinv0 ucs4.
Proof. enc1 ebcdic16804_wctomb. Qed.
