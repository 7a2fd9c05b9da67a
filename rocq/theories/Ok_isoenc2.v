(** Encoder contracts of the ISO-2022 encodings and HZ. *)
From Coq Require Import ZArith List Bool Lia.
From Verif Require Import Base Loop Contract LoopLib Reflect Sx EncLib Leaf.
From Verif Require Import Conv_uni Conv_sb Conv_set_ja Conv_set_zh Conv_set_ko Conv_cjk Conv_iso2022 Encodings.
Import ListNotations.
Open Scope Z_scope.

Ltac e_open ::= change (f_wc enc_iso2022_jpms) with iso2022_jpms_wctomb.
Lemma enc_iso2022_jpms_ok : enc_ok enc_iso2022_jpms (fun ost => mem [0; 1; 2; 3; 4] ost = true) ucs4.
Proof. enc_go. Qed.
