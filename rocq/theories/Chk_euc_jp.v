(** The converters agree with the charmaps; generated by tools/gencharmap.py. *)
From Coq Require Import ZArith List Bool Lia.
From Verif Require Import Base Loop Contract LoopLib DecLib Spec Sx Indexes Conv_uni Conv_sb Conv_cjk Ok_cjk1 Encodings Charmap CharLib Maps_euc_jp.
Import ListNotations.
Open Scope Z_scope.
Definition leads_euc_jp : list (list Z) := Eval vm_compute in [] :: find_leads enc_euc_jp 3 [].
Definition ivs_euc_jp : ranges := [(0, 0xe758); (0xff00, 0xfff0)].
Lemma dec_map_euc_jp : decodes enc_euc_jp (stands_for map_euc_jp).
Proof. exact (decodes_intro _ _ (proj2 dec_euc_jp) inv0_0 leads_euc_jp _ ltac:(vm_cast_no_check (eq_refl true)) _ _ _ eq_refl). Qed.
Lemma enc_map_euc_jp : encodes enc_euc_jp (maps_to map_euc_jp irr_euc_jp).
Proof. apply (encodes_intro _ _ _ euc_jp_wctomb ivs_euc_jp _ _ eq_refl); [enc_outside|vm_cast_no_check (eq_refl true)]. Qed.
