(** Encoder contracts of the ISO-2022 encodings and HZ. *)
From Coq Require Import ZArith List Bool Lia.
From Verif Require Import Base Loop Contract LoopLib Reflect Sx EncLib Leaf.
From Verif Require Import Conv_uni Conv_sb Conv_set_ja Conv_set_zh Conv_set_ko Conv_cjk Conv_iso2022 Encodings.
Import ListNotations.
Open Scope Z_scope.

Ltac e_open ::= change (f_wc enc_iso2022_jp) with iso2022_jp_wctomb.
Lemma enc_iso2022_jp_ok : enc_ok enc_iso2022_jp (fun ost => mem [0; 1; 2] ost = true) ucs4.
Proof. enc_go. Qed.
Ltac e_open ::= change (f_wc enc_iso2022_jp1) with iso2022_jp1_wctomb.
Lemma enc_iso2022_jp1_ok : enc_ok enc_iso2022_jp1 (fun ost => mem [0; 1; 2; 3] ost = true) ucs4.
Proof. enc_go. Qed.
Ltac e_open ::= change (f_wc enc_hz) with hz_wctomb.
Lemma enc_hz_ok : enc_ok enc_hz (fun ost => mem [0; 1] ost = true) ucs4.
Proof. enc_go. Qed.
Ltac e_open ::= change (f_wc enc_iso2022_kr) with iso2022_kr_wctomb.
Lemma enc_iso2022_kr_ok : enc_ok enc_iso2022_kr (fun ost => mem [0; 1; 0x100; 0x101] ost = true) ucs4.
Proof. enc_go. Qed.
