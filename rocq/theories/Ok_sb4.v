(** GENERATED by tools/genok.py; do not edit.
    Converter contracts (Contract.v) of single-byte encodings. *)
From Coq Require Import ZArith List Bool Lia.
From Verif Require Import Base Loop Contract LoopLib Reflect Sx EncLib DecLib TabLib SbLib Conv_uni Conv_sb Encodings TabIn_sb.
Import ListNotations.
Open Scope Z_scope.
Ltac tab_ti t ::= ti_of t.
Ltac sx_call m ::= lazymatch m with tget ?t ?i _ => tab_get t i end.

Lemma dec_cp1163 : dec_ok enc_cp1163 1 inv0 pend0 ucs4 /\ dec_stable enc_cp1163 inv0.
Proof. dec1 cp1163_mbtowc. Qed.
Lemma enc_cp1163_ok : enc_ok enc_cp1163 oinv0 ucs4.
Proof. enc1 cp1163_wctomb. Qed.

Lemma dec_cp437 : dec_ok enc_cp437 1 inv0 pend0 ucs4 /\ dec_stable enc_cp437 inv0.
Proof. dec1 cp437_mbtowc. Qed.
Lemma enc_cp437_ok : enc_ok enc_cp437 oinv0 ucs4.
Proof. enc1 cp437_wctomb. Qed.

Lemma dec_cp737 : dec_ok enc_cp737 1 inv0 pend0 ucs4 /\ dec_stable enc_cp737 inv0.
Proof. dec1 cp737_mbtowc. Qed.
Lemma enc_cp737_ok : enc_ok enc_cp737 oinv0 ucs4.
Proof. enc1 cp737_wctomb. Qed.

Lemma dec_cp775 : dec_ok enc_cp775 1 inv0 pend0 ucs4 /\ dec_stable enc_cp775 inv0.
Proof. dec1 cp775_mbtowc. Qed.
Lemma enc_cp775_ok : enc_ok enc_cp775 oinv0 ucs4.
Proof. enc1 cp775_wctomb. Qed.

Lemma dec_cp852 : dec_ok enc_cp852 1 inv0 pend0 ucs4 /\ dec_stable enc_cp852 inv0.
Proof. dec1 cp852_mbtowc. Qed.
Lemma enc_cp852_ok : enc_ok enc_cp852 oinv0 ucs4.
Proof. enc1 cp852_wctomb. Qed.

Lemma dec_cp853 : dec_ok enc_cp853 1 inv0 pend0 ucs4 /\ dec_stable enc_cp853 inv0.
Proof. dec1 cp853_mbtowc. Qed.
Lemma enc_cp853_ok : enc_ok enc_cp853 oinv0 ucs4.
Proof. enc1 cp853_wctomb. Qed.

Lemma dec_cp855 : dec_ok enc_cp855 1 inv0 pend0 ucs4 /\ dec_stable enc_cp855 inv0.
Proof. dec1 cp855_mbtowc. Qed.
Lemma enc_cp855_ok : enc_ok enc_cp855 oinv0 ucs4.
Proof. enc1 cp855_wctomb. Qed.

Lemma dec_cp857 : dec_ok enc_cp857 1 inv0 pend0 ucs4 /\ dec_stable enc_cp857 inv0.
Proof. dec1 cp857_mbtowc. Qed.
Lemma enc_cp857_ok : enc_ok enc_cp857 oinv0 ucs4.
Proof. enc1 cp857_wctomb. Qed.

Lemma dec_cp858 : dec_ok enc_cp858 1 inv0 pend0 ucs4 /\ dec_stable enc_cp858 inv0.
Proof. dec1 cp858_mbtowc. Qed.
Lemma enc_cp858_ok : enc_ok enc_cp858 oinv0 ucs4.
Proof. enc1 cp858_wctomb. Qed.

Lemma dec_cp860 : dec_ok enc_cp860 1 inv0 pend0 ucs4 /\ dec_stable enc_cp860 inv0.
Proof. dec1 cp860_mbtowc. Qed.
Lemma enc_cp860_ok : enc_ok enc_cp860 oinv0 ucs4.
Proof. enc1 cp860_wctomb. Qed.

Lemma dec_cp861 : dec_ok enc_cp861 1 inv0 pend0 ucs4 /\ dec_stable enc_cp861 inv0.
Proof. dec1 cp861_mbtowc. Qed.
Lemma enc_cp861_ok : enc_ok enc_cp861 oinv0 ucs4.
Proof. enc1 cp861_wctomb. Qed.

Lemma dec_cp863 : dec_ok enc_cp863 1 inv0 pend0 ucs4 /\ dec_stable enc_cp863 inv0.
Proof. dec1 cp863_mbtowc. Qed.
Lemma enc_cp863_ok : enc_ok enc_cp863 oinv0 ucs4.
Proof. enc1 cp863_wctomb. Qed.

Lemma dec_cp864 : dec_ok enc_cp864 1 inv0 pend0 ucs4 /\ dec_stable enc_cp864 inv0.
Proof. dec1 cp864_mbtowc. Qed.
Lemma enc_cp864_ok : enc_ok enc_cp864 oinv0 ucs4.
Proof. enc1 cp864_wctomb. Qed.

Lemma dec_cp865 : dec_ok enc_cp865 1 inv0 pend0 ucs4 /\ dec_stable enc_cp865 inv0.
Proof. dec1 cp865_mbtowc. Qed.
Lemma enc_cp865_ok : enc_ok enc_cp865 oinv0 ucs4.
Proof. enc1 cp865_wctomb. Qed.

Lemma dec_cp869 : dec_ok enc_cp869 1 inv0 pend0 ucs4 /\ dec_stable enc_cp869 inv0.
Proof. dec1 cp869_mbtowc. Qed.
Lemma enc_cp869_ok : enc_ok enc_cp869 oinv0 ucs4.
Proof. enc1 cp869_wctomb. Qed.

Lemma dec_cp1125 : dec_ok enc_cp1125 1 inv0 pend0 ucs4 /\ dec_stable enc_cp1125 inv0.
Proof. dec1 cp1125_mbtowc. Qed.
Lemma enc_cp1125_ok : enc_ok enc_cp1125 oinv0 ucs4.
Proof. enc1 cp1125_wctomb. Qed.

Lemma dec_tds565 : dec_ok enc_tds565 1 inv0 pend0 ucs4 /\ dec_stable enc_tds565 inv0.
Proof. dec1 tds565_mbtowc. Qed.
Lemma enc_tds565_ok : enc_ok enc_tds565 oinv0 ucs4.
Proof. enc1 tds565_wctomb. Qed.

Lemma dec_atarist : dec_ok enc_atarist 1 inv0 pend0 ucs4 /\ dec_stable enc_atarist inv0.
Proof. dec1 atarist_mbtowc. Qed.
Lemma enc_atarist_ok : enc_ok enc_atarist oinv0 ucs4.
Proof. enc1 atarist_wctomb. Qed.

Lemma dec_riscos1 : dec_ok enc_riscos1 1 inv0 pend0 ucs4 /\ dec_stable enc_riscos1 inv0.
Proof. dec1 riscos1_mbtowc. Qed.
Lemma enc_riscos1_ok : enc_ok enc_riscos1 oinv0 ucs4.
Proof. enc1 riscos1_wctomb. Qed.
