(** The converters agree with the charmaps; generated by tools/gencharmap.py. *)
From Coq Require Import ZArith List Bool Lia.
From Verif Require Import Base Loop Contract LoopLib DecLib Spec Sx Indexes Conv_uni Conv_sb Conv_cjk Ok_cjk2 Encodings Charmap CharLib Maps_cp932.
Import ListNotations.
Open Scope Z_scope.
Definition leads_cp932 : list (list Z) := Eval vm_compute in [] :: find_leads enc_cp932 3 [].
Definition ivs_cp932 : ranges := [(0, 0x100); (0x300, 0x460); (0x2000, 0x2320); (0x2400, 0x2480); (0x2500, 0x2670); (0x3000, 0x3100); (0x3200, 0x33d0); (0x4e00, 0x9fb0);
   (0xe000, 0xe758); (0xf900, 0xfa30); (0xff00, 0xfff0)].
Lemma dec_map_cp932 : decodes enc_cp932 (stands_for map_cp932).
Proof. exact (decodes_intro _ _ (proj2 dec_cp932) inv0_0 leads_cp932 _ ltac:(vm_cast_no_check (eq_refl true)) _ _ _ eq_refl). Qed.
Lemma enc_map_cp932 : encodes enc_cp932 (maps_to map_cp932 irr_cp932).
Proof. apply (encodes_intro _ _ _ cp932_wctomb ivs_cp932 _ _ eq_refl); [enc_outside|vm_cast_no_check (eq_refl true)]. Qed.
