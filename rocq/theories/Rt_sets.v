(** The charsets of the ISO-2022 encodings read back what they write. *)
From Coq Require Import ZArith List Bool Lia.
From Verif Require Import Base Loop Contract LoopLib Reflect Sx Rng EncLib DecLib Spec SpecProps Leaf CharLib UniSpec Round DLeaf Unroll RtLib.
From Verif Require Import Conv_uni Conv_sb Conv_set_ja Conv_set_zh Conv_set_ko Conv_cjk Conv_iso2022 Encodings.
Import ListNotations.
Open Scope Z_scope.

Ltac sx_call m ::= outside.
Definition ivs_ksc5601 : ranges := [(0, 0x460); (0x2000, 0x2670); (0x3000, 0x33e0); (0x4e00, 0x9fa0); (0xac00, 0xd7a0); (0xf900, 0xfa10); (0xff00, 0xfff0)].
Lemma back_ksc5601 : forall c, ucs4 c -> back2 ksc5601_wctomb ksc5601_mbtowc c = true.
Proof. apply (back_all _ _ ivs_ksc5601); [enc_outside|vm_cast_no_check (eq_refl true)]. Qed.
Definition ivs_gb2312 : ranges := [(0, 0x460); (0x2000, 0x2650); (0x3000, 0x3230); (0x4e00, 0x9cf0); (0x9e00, 0x9fb0); (0xff00, 0xfff0)].
Lemma back_gb2312 : forall c, ucs4 c -> back2 gb2312_wctomb gb2312_mbtowc c = true.
Proof. apply (back_all _ _ ivs_gb2312); [enc_outside|vm_cast_no_check (eq_refl true)]. Qed.
Definition ivs_jisx0208 : ranges := [(0, 0x100); (0x300, 0x460); (0x2000, 0x2320); (0x2500, 0x2670); (0x3000, 0x3100); (0x4e00, 0x9fb0); (0xff00, 0xfff0)].
Lemma back_jisx0208 : forall c, ucs4 c -> back2 jisx0208_wctomb jisx0208_mbtowc c = true.
Proof. apply (back_all _ _ ivs_jisx0208); [enc_outside|vm_cast_no_check (eq_refl true)]. Qed.
Definition ivs_jisx0212 : ranges := [(0, 0x460); (0x2100, 0x2130); (0x4e00, 0x9fb0); (0xff00, 0xff60)].
Lemma back_jisx0212 : forall c, ucs4 c -> back2 jisx0212_wctomb jisx0212_mbtowc c = true.
Proof. apply (back_all _ _ ivs_jisx0212); [enc_outside|vm_cast_no_check (eq_refl true)]. Qed.
Definition ivs_iso8859_7 : ranges := [(0, 0x3d0); (0x2010, 0x2020); (0x20ac, 0x20b0)].
Lemma back_iso8859_7 : forall c, ucs4 c -> back1 iso8859_7_wctomb iso8859_7_mbtowc c = true.
Proof. apply (back1_all _ _ ivs_iso8859_7); [enc_outside|vm_cast_no_check (eq_refl true)]. Qed.
Definition ivs_isoir165 : ranges := [(0, 0x460); (0x1e00, 0x1fc0); (0x2000, 0x2650); (0x3000, 0x3400); (0x4e00, 0x9cf0); (0x9e00, 0x9fb0); (0xff00, 0xfff0)].
Lemma back_isoir165 : forall c, ucs4 c -> back2 isoir165_wctomb isoir165_mbtowc c = true.
Proof. apply (back_all _ _ ivs_isoir165); [enc_outside|vm_cast_no_check (eq_refl true)]. Qed.
