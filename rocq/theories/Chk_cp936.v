(** The converters agree with the charmaps; generated by tools/gencharmap.py. *)
From Coq Require Import ZArith List Bool Lia.
From Verif Require Import Base Loop Contract LoopLib DecLib Spec Sx Indexes Conv_uni Conv_sb Conv_cjk Ok_cjk3 Encodings Charmap CharLib Maps_cp936.
Import ListNotations.
Open Scope Z_scope.
Definition leads_cp936 : list (list Z) := Eval vm_compute in [] :: find_leads enc_cp936 3 [].
Definition ivs_cp936 : ranges := [(0, 0xe586); (0xf900, 0xfa30); (0xfe00, 0xfff0)].
Lemma dec_map_cp936 : decodes enc_cp936 (stands_for map_cp936).
Proof. exact (decodes_intro _ _ (proj2 dec_cp936) inv0_0 leads_cp936 _ ltac:(vm_cast_no_check (eq_refl true)) _ _ _ eq_refl). Qed.
Lemma enc_map_cp936 : encodes enc_cp936 (maps_to map_cp936 irr_cp936).
Proof. apply (encodes_intro _ _ _ cp936_wctomb ivs_cp936 _ _ eq_refl); [enc_outside|vm_cast_no_check (eq_refl true)]. Qed.
