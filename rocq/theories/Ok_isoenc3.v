(** Encoder contracts of the ISO-2022 encodings and HZ. *)
From Coq Require Import ZArith List Bool Lia.
From Verif Require Import Base Loop Contract LoopLib Reflect Sx EncLib Leaf.
From Verif Require Import Conv_uni Conv_sb Conv_set_ja Conv_set_zh Conv_set_ko Conv_cjk Conv_iso2022 Encodings.
Import ListNotations.
Open Scope Z_scope.

Ltac e_open ::= change (f_wc enc_iso2022_cn) with iso2022_cn_wctomb.
Lemma enc_iso2022_cn_ok : enc_ok enc_iso2022_cn (fun ost => mem [0; 1; 256; 257; 512; 513; 65536; 65537; 65792; 65793; 66048; 66049] ost = true) ucs4.
Proof. enc_go. Qed.
