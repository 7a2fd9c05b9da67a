(** The converters agree with the charmaps; generated by tools/gencharmap.py. *)
From Coq Require Import ZArith List Bool Lia.
From Verif Require Import Base Loop Contract LoopLib DecLib Spec Sx Indexes Conv_uni Conv_sb Conv_cjk Ok_cjk4 Encodings Charmap CharLib Maps_euc_kr.
Import ListNotations.
Open Scope Z_scope.
Definition leads_euc_kr : list (list Z) := Eval vm_compute in [] :: find_leads enc_euc_kr 3 [].
Definition ivs_euc_kr : ranges := [(0, 0x460); (0x2000, 0x2670); (0x3000, 0x33e0); (0x4e00, 0x9fa0); (0xac00, 0xd7a0); (0xf900, 0xfa10); (0xff00, 0xfff0)].
Lemma dec_map_euc_kr : decodes enc_euc_kr (stands_for map_euc_kr).
Proof. exact (decodes_intro _ _ (proj2 dec_euc_kr) inv0_0 leads_euc_kr _ ltac:(vm_cast_no_check (eq_refl true)) _ _ _ eq_refl). Qed.
Lemma enc_map_euc_kr : encodes enc_euc_kr (maps_to map_euc_kr irr_euc_kr).
Proof. apply (encodes_intro _ _ _ euc_kr_wctomb ivs_euc_kr _ _ eq_refl); [enc_outside|vm_cast_no_check (eq_refl true)]. Qed.
