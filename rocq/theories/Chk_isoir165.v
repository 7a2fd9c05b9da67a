(** The converters agree with the charmaps; generated by tools/gencharmap.py. *)
From Coq Require Import ZArith List Bool Lia.
From Verif Require Import Base Loop Contract LoopLib DecLib Spec Sx Indexes Conv_uni Conv_sb Conv_set_zh Ok_cjk3 Encodings Charmap CharLib Maps_isoir165.
Import ListNotations.
Open Scope Z_scope.
Definition leads_isoir165 : list (list Z) := Eval vm_compute in [] :: find_leads enc_isoir165 3 [].
Definition ivs_isoir165 : ranges := [(0, 0x460); (0x1e00, 0x1fc0); (0x2000, 0x2650); (0x3000, 0x3400); (0x4e00, 0x9cf0); (0x9e00, 0x9fb0); (0xff00, 0xfff0)].
Lemma dec_map_isoir165 : decodes enc_isoir165 (stands_for map_isoir165).
Proof. exact (decodes_intro _ _ (proj2 dec_isoir165) inv0_0 leads_isoir165 _ ltac:(vm_cast_no_check (eq_refl true)) _ _ _ eq_refl). Qed.
Lemma enc_map_isoir165 : encodes enc_isoir165 (maps_to map_isoir165 irr_isoir165).
Proof. apply (encodes_intro _ _ _ isoir165_wctomb ivs_isoir165 _ _ eq_refl); [enc_outside|vm_cast_no_check (eq_refl true)]. Qed.
