(** The converters agree with the charmaps; generated by tools/gencharmap.py. *)
From Coq Require Import ZArith List Bool Lia.
From Verif Require Import Base Loop Contract LoopLib DecLib Spec Sx Indexes Conv_uni Conv_sb Conv_cjk Ok_cjk1 Encodings Charmap CharLib Maps_dec_kanji.
Import ListNotations.
Open Scope Z_scope.
Definition leads_dec_kanji : list (list Z) := Eval vm_compute in [] :: find_leads enc_dec_kanji 3 [].
Definition ivs_dec_kanji : ranges := [(0, 0x100); (0x300, 0x460); (0x2000, 0x2320); (0x2500, 0x2670); (0x3000, 0x3100); (0x4e00, 0x9fb0); (0xff00, 0xfff0)].
Lemma dec_map_dec_kanji : decodes enc_dec_kanji (stands_for map_dec_kanji).
Proof. exact (decodes_intro _ _ (proj2 dec_dec_kanji) inv0_0 leads_dec_kanji _ ltac:(vm_cast_no_check (eq_refl true)) _ _ _ eq_refl). Qed.
Lemma enc_map_dec_kanji : encodes enc_dec_kanji (maps_to map_dec_kanji irr_dec_kanji).
Proof. apply (encodes_intro _ _ _ dec_kanji_wctomb ivs_dec_kanji _ _ eq_refl); [enc_outside|vm_cast_no_check (eq_refl true)]. Qed.
