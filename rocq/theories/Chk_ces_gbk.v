(** The converters agree with the charmaps; generated by tools/gencharmap.py. *)
From Coq Require Import ZArith List Bool Lia.
From Verif Require Import Base Loop Contract LoopLib DecLib Spec Sx Indexes Conv_uni Conv_sb Conv_cjk Ok_cjk3 Encodings Charmap CharLib Maps_ces_gbk.
Import ListNotations.
Open Scope Z_scope.
Definition leads_ces_gbk : list (list Z) := Eval vm_compute in [] :: find_leads enc_ces_gbk 3 [].
Definition ivs_ces_gbk : ranges := [(0, 0x460); (0x2000, 0x2650); (0x3000, 0x33e0); (0x4e00, 0x9fb0); (0xf900, 0xfa30); (0xfe00, 0xfff0)].
Lemma dec_map_ces_gbk : decodes enc_ces_gbk (stands_for map_ces_gbk).
Proof. exact (decodes_intro _ _ (proj2 dec_ces_gbk) inv0_0 leads_ces_gbk _ ltac:(vm_cast_no_check (eq_refl true)) _ _ _ eq_refl). Qed.
Lemma enc_map_ces_gbk : encodes enc_ces_gbk (maps_to map_ces_gbk irr_ces_gbk).
Proof. apply (encodes_intro _ _ _ ces_gbk_wctomb ivs_ces_gbk _ _ eq_refl); [enc_outside|vm_cast_no_check (eq_refl true)]. Qed.
