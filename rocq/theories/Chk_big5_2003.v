(** The converters agree with the charmaps; generated by tools/gencharmap.py. *)
From Coq Require Import ZArith List Bool Lia.
From Verif Require Import Base Loop Contract LoopLib DecLib Spec Sx Indexes Conv_uni Conv_sb Conv_set_zh Ok_cjk3 Encodings Charmap CharLib Maps_big5_2003.
Import ListNotations.
Open Scope Z_scope.
Definition leads_big5_2003 : list (list Z) := Eval vm_compute in [] :: find_leads enc_big5_2003 3 [].
Definition ivs_big5_2003 : ranges := [(0, 0x33e0); (0x4e00, 0x9fb0); (0xe000, 0xf6b1); (0xfa00, 0xfa10); (0xfe00, 0xff70); (0xffe0, 0xffe2); (0xffe3, 0xffe4); (0xffe5, 0xffe6)].
Lemma dec_map_big5_2003 : decodes enc_big5_2003 (stands_for map_big5_2003).
Proof. exact (decodes_intro _ _ (proj2 dec_big5_2003) inv0_0 leads_big5_2003 _ ltac:(vm_cast_no_check (eq_refl true)) _ _ _ eq_refl). Qed.
Lemma enc_map_big5_2003 : encodes enc_big5_2003 (maps_to map_big5_2003 irr_big5_2003).
Proof. apply (encodes_intro _ _ _ big5_2003_wctomb ivs_big5_2003 _ _ eq_refl); [enc_gaps|vm_cast_no_check (eq_refl true)]. Qed.
