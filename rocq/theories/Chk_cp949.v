(** The converters agree with the charmaps; generated by tools/gencharmap.py. *)
From Coq Require Import ZArith List Bool Lia.
From Verif Require Import Base Loop Contract LoopLib DecLib Spec Sx Indexes Conv_uni Conv_sb Conv_cjk Ok_cjk4 Encodings Charmap CharLib Maps_cp949.
Import ListNotations.
Open Scope Z_scope.
Definition leads_cp949 : list (list Z) := Eval vm_compute in [] :: find_leads enc_cp949 3 [].
Definition ivs_cp949 : ranges := [(0, 0xe0bc); (0xf900, 0xfa10); (0xff00, 0xfff0)].
Lemma dec_map_cp949 : decodes enc_cp949 (stands_for map_cp949).
Proof. exact (decodes_intro _ _ (proj2 dec_cp949) inv0_0 leads_cp949 _ ltac:(vm_cast_no_check (eq_refl true)) _ _ _ eq_refl). Qed.
Lemma enc_map_cp949 : encodes enc_cp949 (maps_to map_cp949 irr_cp949).
Proof. apply (encodes_intro _ _ _ cp949_wctomb ivs_cp949 _ _ eq_refl); [enc_outside|vm_cast_no_check (eq_refl true)]. Qed.
