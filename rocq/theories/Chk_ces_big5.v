(** The converters agree with the charmaps; generated by tools/gencharmap.py. *)
From Coq Require Import ZArith List Bool Lia.
From Verif Require Import Base Loop Contract LoopLib DecLib Spec Sx Indexes Conv_uni Conv_sb Conv_cjk Ok_cjk3 Encodings Charmap CharLib Maps_ces_big5.
Import ListNotations.
Open Scope Z_scope.
Definition leads_ces_big5 : list (list Z) := Eval vm_compute in [] :: find_leads enc_ces_big5 3 [].
Definition ivs_ces_big5 : ranges := [(0, 0x100); (0x200, 0x460); (0x2000, 0x22c0); (0x2400, 0x2650); (0x3000, 0x33e0); (0x4e00, 0x9fb0); (0xfa00, 0xfa10); (0xfe00, 0xff70)].
Lemma dec_map_ces_big5 : decodes enc_ces_big5 (stands_for map_ces_big5).
Proof. exact (decodes_intro _ _ (proj2 dec_ces_big5) inv0_0 leads_ces_big5 _ ltac:(vm_cast_no_check (eq_refl true)) _ _ _ eq_refl). Qed.
Lemma enc_map_ces_big5 : encodes enc_ces_big5 (maps_to map_ces_big5 irr_ces_big5).
Proof. apply (encodes_intro _ _ _ ces_big5_wctomb ivs_ces_big5 _ _ eq_refl); [enc_outside|vm_cast_no_check (eq_refl true)]. Qed.
