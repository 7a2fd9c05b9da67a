(** Encoder contract of ISO-2022-CN-EXT.  Nothing has to be assumed about the designations in force, so every
    value of the state is covered at once. *)
From Coq Require Import ZArith List Bool Lia.
From Verif Require Import Base Loop Contract LoopLib Reflect Sx Rng EncLib DecLib TabLib SbLib.
From Verif Require Import TabIn_sb TabIn_cjk.
From Verif Require Import Conv_uni Conv_sb Conv_set_ja Conv_set_zh Conv_set_ko Conv_cjk Conv_iso2022 Encodings Leaf CjkLib.
Import ListNotations.
Open Scope Z_scope.

Ltac sx_call m ::=
  lazymatch m with
  | isoir165_wctomb ?wc 2%nat => leaf_2 isoir165_wctomb leaf_isoir165 wc
  | _ => cjk_call m
  end.
Ltac e_open ::= change (f_wc enc_iso2022_cn_ext) with iso2022_cn_ext_wctomb.
Ltac r_open ::= change iso2022_cn_ext_reset with iso2022_cn_ext_reset.
Lemma enc_iso2022_cn_ext_ok : enc_ok enc_iso2022_cn_ext (fun _ => True) ucs4.
Proof.
  apply enc_ok_intro; [exact I| |].
  - intros ost wc _ U. pose proof U. unfold ucs4 in U. e_run ltac:(exact I).
  - intros ost _. change (f_reset enc_iso2022_cn_ext) with (Some iso2022_cn_ext_reset). cbv iota. r_run ltac:(exact I).
Qed.
