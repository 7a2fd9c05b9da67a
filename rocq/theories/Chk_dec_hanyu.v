(** The converters agree with the charmaps; generated by tools/gencharmap.py. *)
From Coq Require Import ZArith List Bool Lia.
From Verif Require Import Base Loop Contract LoopLib DecLib Spec Sx Indexes Conv_uni Conv_sb Conv_cjk Ok_cjk5 Encodings Charmap CharLib Maps_dec_hanyu.
Import ListNotations.
Open Scope Z_scope.
Definition leads_dec_hanyu : list (list Z) := Eval vm_compute in [] :: find_leads enc_dec_hanyu 3 [].
Definition ivs_dec_hanyu : ranges := [(0, 0x100); (0x200, 0x3d0); (0x2000, 0x22c0); (0x2400, 0x2650); (0x3000, 0x9fb0); (0xfa00, 0xfa30); (0xfe00, 0xfff0); (0x20000, 0x2a6e0);
   (0x2f800, 0x2fa20)].
Lemma dec_map_dec_hanyu : decodes enc_dec_hanyu (stands_for map_dec_hanyu).
Proof. exact (decodes_intro _ _ (proj2 dec_dec_hanyu) inv0_0 leads_dec_hanyu _ ltac:(vm_cast_no_check (eq_refl true)) _ _ _ eq_refl). Qed.
Lemma enc_map_dec_hanyu : encodes enc_dec_hanyu (maps_to map_dec_hanyu irr_dec_hanyu).
Proof. apply (encodes_intro _ _ _ dec_hanyu_wctomb ivs_dec_hanyu _ _ eq_refl); [enc_outside|vm_cast_no_check (eq_refl true)]. Qed.
