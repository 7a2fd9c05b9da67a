(** The converters agree with the charmaps; generated by tools/gencharmap.py. *)
From Coq Require Import ZArith List Bool Lia.
From Verif Require Import Base Loop Contract LoopLib DecLib Spec Sx Indexes Conv_uni Conv_sb Conv_cjk Ok_cjk1 Encodings Charmap CharLib Maps_sjis.
Import ListNotations.
Open Scope Z_scope.
Definition leads_sjis : list (list Z) := Eval vm_compute in [] :: find_leads enc_sjis 3 [].
Definition ivs_sjis : ranges := [(0, 0x100); (0x300, 0x460); (0x2000, 0x2320); (0x2500, 0x2670); (0x3000, 0x3100); (0x4e00, 0x9fb0); (0xe000, 0xe758); (0xff00, 0xfff0)].
Lemma dec_map_sjis : decodes enc_sjis (stands_for map_sjis).
Proof. exact (decodes_intro _ _ (proj2 dec_sjis) inv0_0 leads_sjis _ ltac:(vm_cast_no_check (eq_refl true)) _ _ _ eq_refl). Qed.
Lemma enc_map_sjis : encodes enc_sjis (maps_to map_sjis irr_sjis).
Proof. apply (encodes_intro _ _ _ sjis_wctomb ivs_sjis _ _ eq_refl); [enc_outside|vm_cast_no_check (eq_refl true)]. Qed.
