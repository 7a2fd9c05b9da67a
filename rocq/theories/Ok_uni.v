(** Contracts of the Unicode encodings without state. *)
From Coq Require Import ZArith List Bool Lia.
From Verif Require Import Base Loop Contract LoopLib Reflect Sx Rng EncLib DecLib TabLib SbLib Conv_uni Encodings Unroll.
Import ListNotations.
Open Scope Z_scope.

Lemma dec_ucs2be_ok : dec_ok enc_ucs2be 2 inv0 pend0 ucs4 /\ dec_stable enc_ucs2be inv0.
Proof. apply dec0_intro with ucs2be_mbtowc; [reflexivity..|]. open2; d0_go. Qed.
Lemma dec_ucs2le_ok : dec_ok enc_ucs2le 2 inv0 pend0 ucs4 /\ dec_stable enc_ucs2le inv0.
Proof. apply dec0_intro with ucs2le_mbtowc; [reflexivity..|]. open2; d0_go. Qed.
Lemma dec_ucs2internal_ok : dec_ok enc_ucs2internal 2 inv0 pend0 ucs4 /\ dec_stable enc_ucs2internal inv0.
Proof. apply dec0_intro with ucs2internal_mbtowc; [reflexivity..|]. open2; d0_go. Qed.
Lemma dec_ucs2swapped_ok : dec_ok enc_ucs2swapped 2 inv0 pend0 ucs4 /\ dec_stable enc_ucs2swapped inv0.
Proof. apply dec0_intro with ucs2swapped_mbtowc; [reflexivity..|]. open2; d0_go. Qed.
Lemma dec_ucs4be_ok : dec_ok enc_ucs4be 4 inv0 pend0 ucs4 /\ dec_stable enc_ucs4be inv0.
Proof. apply dec0_intro with ucs4be_mbtowc; [reflexivity..|]. open4; d0_go. Qed.
Lemma dec_ucs4le_ok : dec_ok enc_ucs4le 4 inv0 pend0 ucs4 /\ dec_stable enc_ucs4le inv0.
Proof. apply dec0_intro with ucs4le_mbtowc; [reflexivity..|]. open4; d0_go. Qed.
Lemma dec_ucs4internal_ok : dec_ok enc_ucs4internal 4 inv0 pend0 ucs4 /\ dec_stable enc_ucs4internal inv0.
Proof. apply dec0_intro with ucs4internal_mbtowc; [reflexivity..|]. open4; d0_go. Qed.
Lemma dec_ucs4swapped_ok : dec_ok enc_ucs4swapped 4 inv0 pend0 ucs4 /\ dec_stable enc_ucs4swapped inv0.
Proof. apply dec0_intro with ucs4swapped_mbtowc; [reflexivity..|]. open4; d0_go. Qed.
Lemma dec_utf16be_ok : dec_ok enc_utf16be 2 inv0 pend0 ucs4 /\ dec_stable enc_utf16be inv0.
Proof. apply dec0_intro with utf16be_mbtowc; [reflexivity..|]. open4; d0_go. Qed.
Lemma dec_utf16le_ok : dec_ok enc_utf16le 2 inv0 pend0 ucs4 /\ dec_stable enc_utf16le inv0.
Proof. apply dec0_intro with utf16le_mbtowc; [reflexivity..|]. open4; d0_go. Qed.
Lemma dec_utf32be_ok : dec_ok enc_utf32be 4 inv0 pend0 ucs4 /\ dec_stable enc_utf32be inv0.
Proof. apply dec0_intro with utf32be_mbtowc; [reflexivity..|]. open4; d0_go. Qed.
Lemma dec_utf32le_ok : dec_ok enc_utf32le 4 inv0 pend0 ucs4 /\ dec_stable enc_utf32le inv0.
Proof. apply dec0_intro with utf32le_mbtowc; [reflexivity..|]. open4; d0_go. Qed.
Lemma dec_utf8_ok : dec_ok enc_utf8 1 inv0 pend0 ucs4 /\ dec_stable enc_utf8 inv0.
Proof. apply dec0_intro with utf8_mbtowc; [reflexivity..|]. open4; d0_go. Qed.

(** ** Encoders *)
Ltac e_open ::= change (f_wc enc_ucs2be) with (wc0 ucs2be_wctomb); unfold wc0.
Lemma enc_ucs2be_ok : enc_ok enc_ucs2be oinv0 ucs4.
Proof. enc0_go. Qed.
Ltac e_open ::= change (f_wc enc_ucs2le) with (wc0 ucs2le_wctomb); unfold wc0.
Lemma enc_ucs2le_ok : enc_ok enc_ucs2le oinv0 ucs4.
Proof. enc0_go. Qed.
Ltac e_open ::= change (f_wc enc_ucs2internal) with (wc0 ucs2internal_wctomb); unfold wc0.
Lemma enc_ucs2internal_ok : enc_ok enc_ucs2internal oinv0 ucs4.
Proof. enc0_go. Qed.
Ltac e_open ::= change (f_wc enc_ucs2swapped) with (wc0 ucs2swapped_wctomb); unfold wc0.
Lemma enc_ucs2swapped_ok : enc_ok enc_ucs2swapped oinv0 ucs4.
Proof. enc0_go. Qed.
Ltac e_open ::= change (f_wc enc_ucs4be) with (wc0 ucs4be_wctomb); unfold wc0.
Lemma enc_ucs4be_ok : enc_ok enc_ucs4be oinv0 ucs4.
Proof. enc0_go. Qed.
Ltac e_open ::= change (f_wc enc_ucs4le) with (wc0 ucs4le_wctomb); unfold wc0.
Lemma enc_ucs4le_ok : enc_ok enc_ucs4le oinv0 ucs4.
Proof. enc0_go. Qed.
Ltac e_open ::= change (f_wc enc_ucs4internal) with (wc0 ucs4internal_wctomb); unfold wc0.
Lemma enc_ucs4internal_ok : enc_ok enc_ucs4internal oinv0 ucs4.
Proof. enc0_go. Qed.
Ltac e_open ::= change (f_wc enc_ucs4swapped) with (wc0 ucs4swapped_wctomb); unfold wc0.
Lemma enc_ucs4swapped_ok : enc_ok enc_ucs4swapped oinv0 ucs4.
Proof. enc0_go. Qed.
Ltac e_open ::= change (f_wc enc_utf16be) with (wc0 utf16be_wctomb); unfold wc0.
Lemma enc_utf16be_ok : enc_ok enc_utf16be oinv0 ucs4.
Proof. enc0_go. Qed.
Ltac e_open ::= change (f_wc enc_utf16le) with (wc0 utf16le_wctomb); unfold wc0.
Lemma enc_utf16le_ok : enc_ok enc_utf16le oinv0 ucs4.
Proof. enc0_go. Qed.
Ltac e_open ::= change (f_wc enc_utf32be) with (wc0 utf32be_wctomb); unfold wc0.
Lemma enc_utf32be_ok : enc_ok enc_utf32be oinv0 ucs4.
Proof. enc0_go. Qed.
Ltac e_open ::= change (f_wc enc_utf32le) with (wc0 utf32le_wctomb); unfold wc0.
Lemma enc_utf32le_ok : enc_ok enc_utf32le oinv0 ucs4.
Proof. enc0_go. Qed.
Ltac e_open ::= change (f_wc enc_utf8) with (wc0 utf8_wctomb); unfold wc0.
Lemma enc_utf8_ok : enc_ok enc_utf8 oinv0 ucs4.
Proof. enc0_go. Qed.
Ltac e_open ::= change (f_wc enc_java) with (wc0 java_wctomb); unfold wc0.
Lemma enc_java_ok : enc_ok enc_java oinv0 ucs4.
Proof. enc0_go. Qed.
Ltac e_open ::= change (f_wc enc_c99) with (wc0 c99_wctomb); unfold wc0.
Lemma enc_c99_ok : enc_ok enc_c99 oinv0 ucs4.
Proof. enc0_go. Qed.
