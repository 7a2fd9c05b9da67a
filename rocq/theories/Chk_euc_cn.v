(** The converters agree with the charmaps; generated by tools/gencharmap.py. *)
From Coq Require Import ZArith List Bool Lia.
From Verif Require Import Base Loop Contract LoopLib DecLib Spec Sx Indexes Conv_uni Conv_sb Conv_cjk Ok_cjk3 Encodings Charmap CharLib Maps_euc_cn.
Import ListNotations.
Open Scope Z_scope.
Definition leads_euc_cn : list (list Z) := Eval vm_compute in [] :: find_leads enc_euc_cn 3 [].
Definition ivs_euc_cn : ranges := [(0, 0x460); (0x2000, 0x2650); (0x3000, 0x3230); (0x4e00, 0x9cf0); (0x9e00, 0x9fb0); (0xff00, 0xfff0)].
Lemma dec_map_euc_cn : decodes enc_euc_cn (stands_for map_euc_cn).
Proof. exact (decodes_intro _ _ (proj2 dec_euc_cn) inv0_0 leads_euc_cn _ ltac:(vm_cast_no_check (eq_refl true)) _ _ _ eq_refl). Qed.
Lemma enc_map_euc_cn : encodes enc_euc_cn (maps_to map_euc_cn irr_euc_cn).
Proof. apply (encodes_intro _ _ _ euc_cn_wctomb ivs_euc_cn _ _ eq_refl); [enc_outside|vm_cast_no_check (eq_refl true)]. Qed.
