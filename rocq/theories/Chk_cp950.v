(** The converters agree with the charmaps; generated by tools/gencharmap.py. *)
From Coq Require Import ZArith List Bool Lia.
From Verif Require Import Base Loop Contract LoopLib DecLib Spec Sx Indexes Conv_uni Conv_sb Conv_cjk Ok_cjk3 Encodings Charmap CharLib Maps_cp950.
Import ListNotations.
Open Scope Z_scope.
Definition leads_cp950 : list (list Z) := Eval vm_compute in [] :: find_leads enc_cp950 3 [].
Definition ivs_cp950 : ranges := [(0, 0x100); (0x200, 0x460); (0x2000, 0x22c0); (0x2400, 0x2650); (0x3000, 0x33e0); (0x4e00, 0x9fb0); (0xe000, 0xf6b1); (0xfa00, 0xfa10);
   (0xfe00, 0xff70); (0xffe0, 0xffe2); (0xffe3, 0xffe4); (0xffe5, 0xffe6)].
Lemma dec_map_cp950 : decodes enc_cp950 (stands_for map_cp950).
Proof. exact (decodes_intro _ _ (proj2 dec_cp950) inv0_0 leads_cp950 _ ltac:(vm_cast_no_check (eq_refl true)) _ _ _ eq_refl). Qed.
Lemma enc_map_cp950 : encodes enc_cp950 (maps_to map_cp950 irr_cp950).
Proof. apply (encodes_intro _ _ _ cp950_wctomb ivs_cp950 _ _ eq_refl); [enc_gaps|vm_cast_no_check (eq_refl true)]. Qed.
