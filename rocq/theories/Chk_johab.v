(** The converters agree with the charmaps; generated by tools/gencharmap.py. *)
From Coq Require Import ZArith List Bool Lia.
From Verif Require Import Base Loop Contract LoopLib DecLib Spec Sx Indexes Conv_uni Conv_sb Conv_cjk Ok_cjk4 Encodings Charmap CharLib Maps_johab.
Import ListNotations.
Open Scope Z_scope.
Definition leads_johab : list (list Z) := Eval vm_compute in [] :: find_leads enc_johab 3 [].
Definition ivs_johab : ranges := [(0, 0x460); (0x2000, 0x2670); (0x3000, 0x33e0); (0x4e00, 0x9fa0); (0xac00, 0xd7a4); (0xf900, 0xfa10); (0xff00, 0xfff0)].
Lemma dec_map_johab : decodes enc_johab (stands_for map_johab).
Proof. exact (decodes_intro _ _ (proj2 dec_johab) inv0_0 leads_johab _ ltac:(vm_cast_no_check (eq_refl true)) _ _ _ eq_refl). Qed.
Lemma enc_map_johab : encodes enc_johab (maps_to map_johab irr_johab).
Proof. apply (encodes_intro _ _ _ johab_wctomb ivs_johab _ _ eq_refl); [enc_outside|vm_cast_no_check (eq_refl true)]. Qed.
