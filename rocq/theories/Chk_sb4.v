(** The converters agree with the charmaps; generated by tools/gencharmap.py. *)
From Coq Require Import ZArith List Bool Lia.
From Verif Require Import Base Loop Contract LoopLib DecLib Spec Sx Indexes Conv_uni Conv_sb Conv_ebcdic Ok_eb1 Ok_eb2 Ok_sb4 Encodings Charmap CharLib Maps_sb4.
Import ListNotations.
Open Scope Z_scope.
Definition leads_ebcdic1112 : list (list Z) := [[]].
Definition ivs_ebcdic1112 : ranges := [(0, 0x180); (0x2018, 0x2020)].
Lemma dec_map_ebcdic1112 : decodes enc_ebcdic1112 (stands_for map_ebcdic1112).
Proof. exact (decodes_intro _ _ (proj2 dec_ebcdic1112) inv0_0 leads_ebcdic1112 _ ltac:(vm_cast_no_check (eq_refl true)) _ _ _ eq_refl). Qed.
Lemma enc_map_ebcdic1112 : encodes enc_ebcdic1112 (maps_to map_ebcdic1112 irr_ebcdic1112).
Proof. apply (encodes_intro _ _ _ ebcdic1112_wctomb ivs_ebcdic1112 _ _ eq_refl); [enc_outside|vm_cast_no_check (eq_refl true)]. Qed.
Definition leads_ebcdic1122 : list (list Z) := [[]].
Definition ivs_ebcdic1122 : ranges := [(0, 0x100); (0x160, 0x180)].
Lemma dec_map_ebcdic1122 : decodes enc_ebcdic1122 (stands_for map_ebcdic1122).
Proof. exact (decodes_intro _ _ (proj2 dec_ebcdic1122) inv0_0 leads_ebcdic1122 _ ltac:(vm_cast_no_check (eq_refl true)) _ _ _ eq_refl). Qed.
Lemma enc_map_ebcdic1122 : encodes enc_ebcdic1122 (maps_to map_ebcdic1122 irr_ebcdic1122).
Proof. apply (encodes_intro _ _ _ ebcdic1122_wctomb ivs_ebcdic1122 _ _ eq_refl); [enc_outside|vm_cast_no_check (eq_refl true)]. Qed.
Definition leads_ebcdic1123 : list (list Z) := [[]].
Definition ivs_ebcdic1123 : ranges := [(0, 0xb0); (0x400, 0x498); (0x2116, 0x2117)].
Lemma dec_map_ebcdic1123 : decodes enc_ebcdic1123 (stands_for map_ebcdic1123).
Proof. exact (decodes_intro _ _ (proj2 dec_ebcdic1123) inv0_0 leads_ebcdic1123 _ ltac:(vm_cast_no_check (eq_refl true)) _ _ _ eq_refl). Qed.
Lemma enc_map_ebcdic1123 : encodes enc_ebcdic1123 (maps_to map_ebcdic1123 irr_ebcdic1123).
Proof. apply (encodes_intro _ _ _ ebcdic1123_wctomb ivs_ebcdic1123 _ _ eq_refl); [enc_outside|vm_cast_no_check (eq_refl true)]. Qed.
Definition leads_ebcdic1130 : list (list Z) := [[]].
Definition ivs_ebcdic1130 : ranges := [(0, 0x1b8); (0x300, 0x328); (0x20ab, 0x20ac)].
Lemma dec_map_ebcdic1130 : decodes enc_ebcdic1130 (stands_for map_ebcdic1130).
Proof. exact (decodes_intro _ _ (proj2 dec_ebcdic1130) inv0_0 leads_ebcdic1130 _ ltac:(vm_cast_no_check (eq_refl true)) _ _ _ eq_refl). Qed.
Lemma enc_map_ebcdic1130 : encodes enc_ebcdic1130 (maps_to map_ebcdic1130 irr_ebcdic1130).
Proof. apply (encodes_intro _ _ _ ebcdic1130_wctomb ivs_ebcdic1130 _ _ eq_refl); [enc_outside|vm_cast_no_check (eq_refl true)]. Qed.
Definition leads_ebcdic1132 : list (list Z) := [[]].
Definition ivs_ebcdic1132 : ranges := [(0, 0xb0); (0xe80, 0xee0); (0x20ad, 0x20ae)].
Lemma dec_map_ebcdic1132 : decodes enc_ebcdic1132 (stands_for map_ebcdic1132).
Proof. exact (decodes_intro _ _ (proj2 dec_ebcdic1132) inv0_0 leads_ebcdic1132 _ ltac:(vm_cast_no_check (eq_refl true)) _ _ _ eq_refl). Qed.
Lemma enc_map_ebcdic1132 : encodes enc_ebcdic1132 (maps_to map_ebcdic1132 irr_ebcdic1132).
Proof. apply (encodes_intro _ _ _ ebcdic1132_wctomb ivs_ebcdic1132 _ _ eq_refl); [enc_outside|vm_cast_no_check (eq_refl true)]. Qed.
Definition leads_ebcdic1137 : list (list Z) := [[]].
Definition ivs_ebcdic1137 : ranges := [(0, 0xa8); (0x900, 0x978); (0x2008, 0x2010)].
Lemma dec_map_ebcdic1137 : decodes enc_ebcdic1137 (stands_for map_ebcdic1137).
Proof. exact (decodes_intro _ _ (proj2 dec_ebcdic1137) inv0_0 leads_ebcdic1137 _ ltac:(vm_cast_no_check (eq_refl true)) _ _ _ eq_refl). Qed.
Lemma enc_map_ebcdic1137 : encodes enc_ebcdic1137 (maps_to map_ebcdic1137 irr_ebcdic1137).
Proof. apply (encodes_intro _ _ _ ebcdic1137_wctomb ivs_ebcdic1137 _ _ eq_refl); [enc_outside|vm_cast_no_check (eq_refl true)]. Qed.
Definition leads_ebcdic1140 : list (list Z) := [[]].
Definition ivs_ebcdic1140 : ranges := [(0, 0x100); (0x20ac, 0x20ad)].
Lemma dec_map_ebcdic1140 : decodes enc_ebcdic1140 (stands_for map_ebcdic1140).
Proof. exact (decodes_intro _ _ (proj2 dec_ebcdic1140) inv0_0 leads_ebcdic1140 _ ltac:(vm_cast_no_check (eq_refl true)) _ _ _ eq_refl). Qed.
Lemma enc_map_ebcdic1140 : encodes enc_ebcdic1140 (maps_to map_ebcdic1140 irr_ebcdic1140).
Proof. apply (encodes_intro _ _ _ ebcdic1140_wctomb ivs_ebcdic1140 _ _ eq_refl); [enc_outside|vm_cast_no_check (eq_refl true)]. Qed.
Definition leads_ebcdic1141 : list (list Z) := [[]].
Definition ivs_ebcdic1141 : ranges := [(0, 0x100); (0x20ac, 0x20ad)].
Lemma dec_map_ebcdic1141 : decodes enc_ebcdic1141 (stands_for map_ebcdic1141).
Proof. exact (decodes_intro _ _ (proj2 dec_ebcdic1141) inv0_0 leads_ebcdic1141 _ ltac:(vm_cast_no_check (eq_refl true)) _ _ _ eq_refl). Qed.
Lemma enc_map_ebcdic1141 : encodes enc_ebcdic1141 (maps_to map_ebcdic1141 irr_ebcdic1141).
Proof. apply (encodes_intro _ _ _ ebcdic1141_wctomb ivs_ebcdic1141 _ _ eq_refl); [enc_outside|vm_cast_no_check (eq_refl true)]. Qed.
Definition leads_ebcdic1142 : list (list Z) := [[]].
Definition ivs_ebcdic1142 : ranges := [(0, 0x100); (0x20ac, 0x20ad)].
Lemma dec_map_ebcdic1142 : decodes enc_ebcdic1142 (stands_for map_ebcdic1142).
Proof. exact (decodes_intro _ _ (proj2 dec_ebcdic1142) inv0_0 leads_ebcdic1142 _ ltac:(vm_cast_no_check (eq_refl true)) _ _ _ eq_refl). Qed.
Lemma enc_map_ebcdic1142 : encodes enc_ebcdic1142 (maps_to map_ebcdic1142 irr_ebcdic1142).
Proof. apply (encodes_intro _ _ _ ebcdic1142_wctomb ivs_ebcdic1142 _ _ eq_refl); [enc_outside|vm_cast_no_check (eq_refl true)]. Qed.
Definition leads_ebcdic1143 : list (list Z) := [[]].
Definition ivs_ebcdic1143 : ranges := [(0, 0x100); (0x20ac, 0x20ad)].
Lemma dec_map_ebcdic1143 : decodes enc_ebcdic1143 (stands_for map_ebcdic1143).
Proof. exact (decodes_intro _ _ (proj2 dec_ebcdic1143) inv0_0 leads_ebcdic1143 _ ltac:(vm_cast_no_check (eq_refl true)) _ _ _ eq_refl). Qed.
Lemma enc_map_ebcdic1143 : encodes enc_ebcdic1143 (maps_to map_ebcdic1143 irr_ebcdic1143).
Proof. apply (encodes_intro _ _ _ ebcdic1143_wctomb ivs_ebcdic1143 _ _ eq_refl); [enc_outside|vm_cast_no_check (eq_refl true)]. Qed.
Definition leads_ebcdic1144 : list (list Z) := [[]].
Definition ivs_ebcdic1144 : ranges := [(0, 0x100); (0x20ac, 0x20ad)].
Lemma dec_map_ebcdic1144 : decodes enc_ebcdic1144 (stands_for map_ebcdic1144).
Proof. exact (decodes_intro _ _ (proj2 dec_ebcdic1144) inv0_0 leads_ebcdic1144 _ ltac:(vm_cast_no_check (eq_refl true)) _ _ _ eq_refl). Qed.
Lemma enc_map_ebcdic1144 : encodes enc_ebcdic1144 (maps_to map_ebcdic1144 irr_ebcdic1144).
Proof. apply (encodes_intro _ _ _ ebcdic1144_wctomb ivs_ebcdic1144 _ _ eq_refl); [enc_outside|vm_cast_no_check (eq_refl true)]. Qed.
Definition leads_ebcdic1145 : list (list Z) := [[]].
Definition ivs_ebcdic1145 : ranges := [(0, 0x100); (0x20ac, 0x20ad)].
Lemma dec_map_ebcdic1145 : decodes enc_ebcdic1145 (stands_for map_ebcdic1145).
Proof. exact (decodes_intro _ _ (proj2 dec_ebcdic1145) inv0_0 leads_ebcdic1145 _ ltac:(vm_cast_no_check (eq_refl true)) _ _ _ eq_refl). Qed.
Lemma enc_map_ebcdic1145 : encodes enc_ebcdic1145 (maps_to map_ebcdic1145 irr_ebcdic1145).
Proof. apply (encodes_intro _ _ _ ebcdic1145_wctomb ivs_ebcdic1145 _ _ eq_refl); [enc_outside|vm_cast_no_check (eq_refl true)]. Qed.
Definition leads_ebcdic1146 : list (list Z) := [[]].
Definition ivs_ebcdic1146 : ranges := [(0, 0x100); (0x20ac, 0x20ad)].
Lemma dec_map_ebcdic1146 : decodes enc_ebcdic1146 (stands_for map_ebcdic1146).
Proof. exact (decodes_intro _ _ (proj2 dec_ebcdic1146) inv0_0 leads_ebcdic1146 _ ltac:(vm_cast_no_check (eq_refl true)) _ _ _ eq_refl). Qed.
Lemma enc_map_ebcdic1146 : encodes enc_ebcdic1146 (maps_to map_ebcdic1146 irr_ebcdic1146).
Proof. apply (encodes_intro _ _ _ ebcdic1146_wctomb ivs_ebcdic1146 _ _ eq_refl); [enc_outside|vm_cast_no_check (eq_refl true)]. Qed.
Definition leads_ebcdic1147 : list (list Z) := [[]].
Definition ivs_ebcdic1147 : ranges := [(0, 0x100); (0x20ac, 0x20ad)].
Lemma dec_map_ebcdic1147 : decodes enc_ebcdic1147 (stands_for map_ebcdic1147).
Proof. exact (decodes_intro _ _ (proj2 dec_ebcdic1147) inv0_0 leads_ebcdic1147 _ ltac:(vm_cast_no_check (eq_refl true)) _ _ _ eq_refl). Qed.
Lemma enc_map_ebcdic1147 : encodes enc_ebcdic1147 (maps_to map_ebcdic1147 irr_ebcdic1147).
Proof. apply (encodes_intro _ _ _ ebcdic1147_wctomb ivs_ebcdic1147 _ _ eq_refl); [enc_outside|vm_cast_no_check (eq_refl true)]. Qed.
Definition leads_ebcdic1148 : list (list Z) := [[]].
Definition ivs_ebcdic1148 : ranges := [(0, 0x100); (0x20ac, 0x20ad)].
Lemma dec_map_ebcdic1148 : decodes enc_ebcdic1148 (stands_for map_ebcdic1148).
Proof. exact (decodes_intro _ _ (proj2 dec_ebcdic1148) inv0_0 leads_ebcdic1148 _ ltac:(vm_cast_no_check (eq_refl true)) _ _ _ eq_refl). Qed.
Lemma enc_map_ebcdic1148 : encodes enc_ebcdic1148 (maps_to map_ebcdic1148 irr_ebcdic1148).
Proof. apply (encodes_intro _ _ _ ebcdic1148_wctomb ivs_ebcdic1148 _ _ eq_refl); [enc_outside|vm_cast_no_check (eq_refl true)]. Qed.
Definition leads_ebcdic1149 : list (list Z) := [[]].
Definition ivs_ebcdic1149 : ranges := [(0, 0x100); (0x20ac, 0x20ad)].
Lemma dec_map_ebcdic1149 : decodes enc_ebcdic1149 (stands_for map_ebcdic1149).
Proof. exact (decodes_intro _ _ (proj2 dec_ebcdic1149) inv0_0 leads_ebcdic1149 _ ltac:(vm_cast_no_check (eq_refl true)) _ _ _ eq_refl). Qed.
Lemma enc_map_ebcdic1149 : encodes enc_ebcdic1149 (maps_to map_ebcdic1149 irr_ebcdic1149).
Proof. apply (encodes_intro _ _ _ ebcdic1149_wctomb ivs_ebcdic1149 _ _ eq_refl); [enc_outside|vm_cast_no_check (eq_refl true)]. Qed.
Definition leads_ebcdic1153 : list (list Z) := [[]].
Definition ivs_ebcdic1153 : ranges := [(0, 0x180); (0x2c0, 0x2e0); (0x20ac, 0x20ad)].
Lemma dec_map_ebcdic1153 : decodes enc_ebcdic1153 (stands_for map_ebcdic1153).
Proof. exact (decodes_intro _ _ (proj2 dec_ebcdic1153) inv0_0 leads_ebcdic1153 _ ltac:(vm_cast_no_check (eq_refl true)) _ _ _ eq_refl). Qed.
Lemma enc_map_ebcdic1153 : encodes enc_ebcdic1153 (maps_to map_ebcdic1153 irr_ebcdic1153).
Proof. apply (encodes_intro _ _ _ ebcdic1153_wctomb ivs_ebcdic1153 _ _ eq_refl); [enc_outside|vm_cast_no_check (eq_refl true)]. Qed.
Definition leads_ebcdic1154 : list (list Z) := [[]].
Definition ivs_ebcdic1154 : ranges := [(0, 0xb0); (0x400, 0x460); (0x20ac, 0x20ad); (0x2116, 0x2117)].
Lemma dec_map_ebcdic1154 : decodes enc_ebcdic1154 (stands_for map_ebcdic1154).
Proof. exact (decodes_intro _ _ (proj2 dec_ebcdic1154) inv0_0 leads_ebcdic1154 _ ltac:(vm_cast_no_check (eq_refl true)) _ _ _ eq_refl). Qed.
Lemma enc_map_ebcdic1154 : encodes enc_ebcdic1154 (maps_to map_ebcdic1154 irr_ebcdic1154).
Proof. apply (encodes_intro _ _ _ ebcdic1154_wctomb ivs_ebcdic1154 _ _ eq_refl); [enc_outside|vm_cast_no_check (eq_refl true)]. Qed.
Definition leads_ebcdic1155 : list (list Z) := [[]].
Definition ivs_ebcdic1155 : ranges := [(0, 0x100); (0x118, 0x160); (0x20ac, 0x20ad)].
Lemma dec_map_ebcdic1155 : decodes enc_ebcdic1155 (stands_for map_ebcdic1155).
Proof. exact (decodes_intro _ _ (proj2 dec_ebcdic1155) inv0_0 leads_ebcdic1155 _ ltac:(vm_cast_no_check (eq_refl true)) _ _ _ eq_refl). Qed.
Lemma enc_map_ebcdic1155 : encodes enc_ebcdic1155 (maps_to map_ebcdic1155 irr_ebcdic1155).
Proof. apply (encodes_intro _ _ _ ebcdic1155_wctomb ivs_ebcdic1155 _ _ eq_refl); [enc_outside|vm_cast_no_check (eq_refl true)]. Qed.
Definition leads_ebcdic1156 : list (list Z) := [[]].
Definition ivs_ebcdic1156 : ranges := [(0, 0x180); (0x2018, 0x2020); (0x20ac, 0x20ad)].
Lemma dec_map_ebcdic1156 : decodes enc_ebcdic1156 (stands_for map_ebcdic1156).
Proof. exact (decodes_intro _ _ (proj2 dec_ebcdic1156) inv0_0 leads_ebcdic1156 _ ltac:(vm_cast_no_check (eq_refl true)) _ _ _ eq_refl). Qed.
Lemma enc_map_ebcdic1156 : encodes enc_ebcdic1156 (maps_to map_ebcdic1156 irr_ebcdic1156).
Proof. apply (encodes_intro _ _ _ ebcdic1156_wctomb ivs_ebcdic1156 _ _ eq_refl); [enc_outside|vm_cast_no_check (eq_refl true)]. Qed.
Definition leads_ebcdic1157 : list (list Z) := [[]].
Definition ivs_ebcdic1157 : ranges := [(0, 0x100); (0x160, 0x180); (0x20ac, 0x20ad)].
Lemma dec_map_ebcdic1157 : decodes enc_ebcdic1157 (stands_for map_ebcdic1157).
Proof. exact (decodes_intro _ _ (proj2 dec_ebcdic1157) inv0_0 leads_ebcdic1157 _ ltac:(vm_cast_no_check (eq_refl true)) _ _ _ eq_refl). Qed.
Lemma enc_map_ebcdic1157 : encodes enc_ebcdic1157 (maps_to map_ebcdic1157 irr_ebcdic1157).
Proof. apply (encodes_intro _ _ _ ebcdic1157_wctomb ivs_ebcdic1157 _ _ eq_refl); [enc_outside|vm_cast_no_check (eq_refl true)]. Qed.
Definition leads_ebcdic1158 : list (list Z) := [[]].
Definition ivs_ebcdic1158 : ranges := [(0, 0xb0); (0x400, 0x498); (0x20ac, 0x20ad); (0x2116, 0x2117)].
Lemma dec_map_ebcdic1158 : decodes enc_ebcdic1158 (stands_for map_ebcdic1158).
Proof. exact (decodes_intro _ _ (proj2 dec_ebcdic1158) inv0_0 leads_ebcdic1158 _ ltac:(vm_cast_no_check (eq_refl true)) _ _ _ eq_refl). Qed.
Lemma enc_map_ebcdic1158 : encodes enc_ebcdic1158 (maps_to map_ebcdic1158 irr_ebcdic1158).
Proof. apply (encodes_intro _ _ _ ebcdic1158_wctomb ivs_ebcdic1158 _ _ eq_refl); [enc_outside|vm_cast_no_check (eq_refl true)]. Qed.
Definition leads_ebcdic1160 : list (list Z) := [[]].
Definition ivs_ebcdic1160 : ranges := [(0, 0xb0); (0xe00, 0xe60); (0x20ac, 0x20ad)].
Lemma dec_map_ebcdic1160 : decodes enc_ebcdic1160 (stands_for map_ebcdic1160).
Proof. exact (decodes_intro _ _ (proj2 dec_ebcdic1160) inv0_0 leads_ebcdic1160 _ ltac:(vm_cast_no_check (eq_refl true)) _ _ _ eq_refl). Qed.
Lemma enc_map_ebcdic1160 : encodes enc_ebcdic1160 (maps_to map_ebcdic1160 irr_ebcdic1160).
Proof. apply (encodes_intro _ _ _ ebcdic1160_wctomb ivs_ebcdic1160 _ _ eq_refl); [enc_outside|vm_cast_no_check (eq_refl true)]. Qed.
Definition leads_ebcdic1164 : list (list Z) := [[]].
Definition ivs_ebcdic1164 : ranges := [(0, 0x1b8); (0x300, 0x328); (0x20a8, 0x20b0)].
Lemma dec_map_ebcdic1164 : decodes enc_ebcdic1164 (stands_for map_ebcdic1164).
Proof. exact (decodes_intro _ _ (proj2 dec_ebcdic1164) inv0_0 leads_ebcdic1164 _ ltac:(vm_cast_no_check (eq_refl true)) _ _ _ eq_refl). Qed.
Lemma enc_map_ebcdic1164 : encodes enc_ebcdic1164 (maps_to map_ebcdic1164 irr_ebcdic1164).
Proof. apply (encodes_intro _ _ _ ebcdic1164_wctomb ivs_ebcdic1164 _ _ eq_refl); [enc_outside|vm_cast_no_check (eq_refl true)]. Qed.
Definition leads_ebcdic1165 : list (list Z) := [[]].
Definition ivs_ebcdic1165 : ranges := [(0, 0x180); (0x2c0, 0x2e0); (0x20ac, 0x20ad)].
Lemma dec_map_ebcdic1165 : decodes enc_ebcdic1165 (stands_for map_ebcdic1165).
Proof. exact (decodes_intro _ _ (proj2 dec_ebcdic1165) inv0_0 leads_ebcdic1165 _ ltac:(vm_cast_no_check (eq_refl true)) _ _ _ eq_refl). Qed.
Lemma enc_map_ebcdic1165 : encodes enc_ebcdic1165 (maps_to map_ebcdic1165 irr_ebcdic1165).
Proof. apply (encodes_intro _ _ _ ebcdic1165_wctomb ivs_ebcdic1165 _ _ eq_refl); [enc_outside|vm_cast_no_check (eq_refl true)]. Qed.
Definition leads_ebcdic1166 : list (list Z) := [[]].
Definition ivs_ebcdic1166 : ranges := [(0, 0xb0); (0x400, 0x4f0); (0x20ac, 0x20ad); (0x2116, 0x2117)].
Lemma dec_map_ebcdic1166 : decodes enc_ebcdic1166 (stands_for map_ebcdic1166).
Proof. exact (decodes_intro _ _ (proj2 dec_ebcdic1166) inv0_0 leads_ebcdic1166 _ ltac:(vm_cast_no_check (eq_refl true)) _ _ _ eq_refl). Qed.
Lemma enc_map_ebcdic1166 : encodes enc_ebcdic1166 (maps_to map_ebcdic1166 irr_ebcdic1166).
Proof. apply (encodes_intro _ _ _ ebcdic1166_wctomb ivs_ebcdic1166 _ _ eq_refl); [enc_outside|vm_cast_no_check (eq_refl true)]. Qed.
Definition leads_ebcdic4971 : list (list Z) := [[]].
Definition ivs_ebcdic4971 : ranges := [(0, 0xc0); (0x380, 0x3d0); (0x2010, 0x2020); (0x20ac, 0x20ad)].
Lemma dec_map_ebcdic4971 : decodes enc_ebcdic4971 (stands_for map_ebcdic4971).
Proof. exact (decodes_intro _ _ (proj2 dec_ebcdic4971) inv0_0 leads_ebcdic4971 _ ltac:(vm_cast_no_check (eq_refl true)) _ _ _ eq_refl). Qed.
Lemma enc_map_ebcdic4971 : encodes enc_ebcdic4971 (maps_to map_ebcdic4971 irr_ebcdic4971).
Proof. apply (encodes_intro _ _ _ ebcdic4971_wctomb ivs_ebcdic4971 _ _ eq_refl); [enc_outside|vm_cast_no_check (eq_refl true)]. Qed.
Definition leads_ebcdic12712 : list (list Z) := [[]].
Definition ivs_ebcdic12712 : ranges := [(0, 0xf8); (0x5d0, 0x5f0); (0x2008, 0x2040); (0x20a8, 0x20b0)].
Lemma dec_map_ebcdic12712 : decodes enc_ebcdic12712 (stands_for map_ebcdic12712).
Proof. exact (decodes_intro _ _ (proj2 dec_ebcdic12712) inv0_0 leads_ebcdic12712 _ ltac:(vm_cast_no_check (eq_refl true)) _ _ _ eq_refl). Qed.
Lemma enc_map_ebcdic12712 : encodes enc_ebcdic12712 (maps_to map_ebcdic12712 irr_ebcdic12712).
Proof. apply (encodes_intro _ _ _ ebcdic12712_wctomb ivs_ebcdic12712 _ _ eq_refl); [enc_outside|vm_cast_no_check (eq_refl true)]. Qed.
Definition leads_ebcdic16804 : list (list Z) := [[]].
Definition ivs_ebcdic16804 : ranges := [(0, 0xf8); (0x608, 0x670); (0x2000, 0x2010); (0x20ac, 0x20ad); (0xfe78, 0xff00)].
Lemma dec_map_ebcdic16804 : decodes enc_ebcdic16804 (stands_for map_ebcdic16804).
Proof. exact (decodes_intro _ _ (proj2 dec_ebcdic16804) inv0_0 leads_ebcdic16804 _ ltac:(vm_cast_no_check (eq_refl true)) _ _ _ eq_refl). Qed.
Lemma enc_map_ebcdic16804 : encodes enc_ebcdic16804 (maps_to map_ebcdic16804 irr_ebcdic16804).
Proof. apply (encodes_intro _ _ _ ebcdic16804_wctomb ivs_ebcdic16804 _ _ eq_refl); [enc_outside|vm_cast_no_check (eq_refl true)]. Qed.
Definition leads_tds565 : list (list Z) := [[]].
Definition ivs_tds565 : ranges := [(0, 0x80); (0xc0, 0x100); (0x140, 0x180); (0x2116, 0x2117)].
Lemma dec_map_tds565 : decodes enc_tds565 (stands_for map_tds565).
Proof. exact (decodes_intro _ _ (proj2 dec_tds565) inv0_0 leads_tds565 _ ltac:(vm_cast_no_check (eq_refl true)) _ _ _ eq_refl). Qed.
Lemma enc_map_tds565 : encodes enc_tds565 (maps_to map_tds565 irr_tds565).
Proof. apply (encodes_intro _ _ _ tds565_wctomb ivs_tds565 _ _ eq_refl); [enc_outside|vm_cast_no_check (eq_refl true)]. Qed.
Definition leads_atarist : list (list Z) := [[]].
Definition ivs_atarist : ranges := [(0, 0x80); (0xa0, 0x100); (0x130, 0x198); (0x390, 0x3c8); (0x5d0, 0x5f0); (0x2020, 0x2021); (0x207f, 0x2080); (0x2122, 0x2123); (0x2208, 0x2268);
   (0x2310, 0x2328)].
Lemma dec_map_atarist : decodes enc_atarist (stands_for map_atarist).
Proof. exact (decodes_intro _ _ (proj2 dec_atarist) inv0_0 leads_atarist _ ltac:(vm_cast_no_check (eq_refl true)) _ _ _ eq_refl). Qed.
Lemma enc_map_atarist : encodes enc_atarist (maps_to map_atarist irr_atarist).
Proof. apply (encodes_intro _ _ _ atarist_wctomb ivs_atarist _ _ eq_refl); [enc_outside|vm_cast_no_check (eq_refl true)]. Qed.
Definition leads_riscos1 : list (list Z) := [[]].
Definition ivs_riscos1 : ranges := [(0, 0x80); (0x83, 0x84); (0x87, 0x88); (0xa0, 0x100); (0x150, 0x178); (0x2010, 0x2040); (0x2122, 0x2123); (0x21e0, 0x21f0); (0x2210, 0x2220);
   (0x2573, 0x2574); (0xfb01, 0xfb03)].
Lemma dec_map_riscos1 : decodes enc_riscos1 (stands_for map_riscos1).
Proof. exact (decodes_intro _ _ (proj2 dec_riscos1) inv0_0 leads_riscos1 _ ltac:(vm_cast_no_check (eq_refl true)) _ _ _ eq_refl). Qed.
Lemma enc_map_riscos1 : encodes enc_riscos1 (maps_to map_riscos1 irr_riscos1).
Proof. apply (encodes_intro _ _ _ riscos1_wctomb ivs_riscos1 _ _ eq_refl); [enc_outside|vm_cast_no_check (eq_refl true)]. Qed.
Definition maps_sb4 : list (Z * charmap * pairs) :=
 [(ei_ebcdic1112, map_ebcdic1112, irr_ebcdic1112);
  (ei_ebcdic1122, map_ebcdic1122, irr_ebcdic1122);
  (ei_ebcdic1123, map_ebcdic1123, irr_ebcdic1123);
  (ei_ebcdic1130, map_ebcdic1130, irr_ebcdic1130);
  (ei_ebcdic1132, map_ebcdic1132, irr_ebcdic1132);
  (ei_ebcdic1137, map_ebcdic1137, irr_ebcdic1137);
  (ei_ebcdic1140, map_ebcdic1140, irr_ebcdic1140);
  (ei_ebcdic1141, map_ebcdic1141, irr_ebcdic1141);
  (ei_ebcdic1142, map_ebcdic1142, irr_ebcdic1142);
  (ei_ebcdic1143, map_ebcdic1143, irr_ebcdic1143);
  (ei_ebcdic1144, map_ebcdic1144, irr_ebcdic1144);
  (ei_ebcdic1145, map_ebcdic1145, irr_ebcdic1145);
  (ei_ebcdic1146, map_ebcdic1146, irr_ebcdic1146);
  (ei_ebcdic1147, map_ebcdic1147, irr_ebcdic1147);
  (ei_ebcdic1148, map_ebcdic1148, irr_ebcdic1148);
  (ei_ebcdic1149, map_ebcdic1149, irr_ebcdic1149);
  (ei_ebcdic1153, map_ebcdic1153, irr_ebcdic1153);
  (ei_ebcdic1154, map_ebcdic1154, irr_ebcdic1154);
  (ei_ebcdic1155, map_ebcdic1155, irr_ebcdic1155);
  (ei_ebcdic1156, map_ebcdic1156, irr_ebcdic1156);
  (ei_ebcdic1157, map_ebcdic1157, irr_ebcdic1157);
  (ei_ebcdic1158, map_ebcdic1158, irr_ebcdic1158);
  (ei_ebcdic1160, map_ebcdic1160, irr_ebcdic1160);
  (ei_ebcdic1164, map_ebcdic1164, irr_ebcdic1164);
  (ei_ebcdic1165, map_ebcdic1165, irr_ebcdic1165);
  (ei_ebcdic1166, map_ebcdic1166, irr_ebcdic1166);
  (ei_ebcdic4971, map_ebcdic4971, irr_ebcdic4971);
  (ei_ebcdic12712, map_ebcdic12712, irr_ebcdic12712);
  (ei_ebcdic16804, map_ebcdic16804, irr_ebcdic16804);
  (ei_tds565, map_tds565, irr_tds565);
  (ei_atarist, map_atarist, irr_atarist);
  (ei_riscos1, map_riscos1, irr_riscos1)].
Lemma maps_sb4_ok : Forall table_ok maps_sb4.
Proof.
  repeat apply Forall_cons; [exact (ex_intro _ enc_ebcdic1112 (conj eq_refl (conj dec_map_ebcdic1112 enc_map_ebcdic1112))) |
   exact (ex_intro _ enc_ebcdic1122 (conj eq_refl (conj dec_map_ebcdic1122 enc_map_ebcdic1122))) |
   exact (ex_intro _ enc_ebcdic1123 (conj eq_refl (conj dec_map_ebcdic1123 enc_map_ebcdic1123))) |
   exact (ex_intro _ enc_ebcdic1130 (conj eq_refl (conj dec_map_ebcdic1130 enc_map_ebcdic1130))) |
   exact (ex_intro _ enc_ebcdic1132 (conj eq_refl (conj dec_map_ebcdic1132 enc_map_ebcdic1132))) |
   exact (ex_intro _ enc_ebcdic1137 (conj eq_refl (conj dec_map_ebcdic1137 enc_map_ebcdic1137))) |
   exact (ex_intro _ enc_ebcdic1140 (conj eq_refl (conj dec_map_ebcdic1140 enc_map_ebcdic1140))) |
   exact (ex_intro _ enc_ebcdic1141 (conj eq_refl (conj dec_map_ebcdic1141 enc_map_ebcdic1141))) |
   exact (ex_intro _ enc_ebcdic1142 (conj eq_refl (conj dec_map_ebcdic1142 enc_map_ebcdic1142))) |
   exact (ex_intro _ enc_ebcdic1143 (conj eq_refl (conj dec_map_ebcdic1143 enc_map_ebcdic1143))) |
   exact (ex_intro _ enc_ebcdic1144 (conj eq_refl (conj dec_map_ebcdic1144 enc_map_ebcdic1144))) |
   exact (ex_intro _ enc_ebcdic1145 (conj eq_refl (conj dec_map_ebcdic1145 enc_map_ebcdic1145))) |
   exact (ex_intro _ enc_ebcdic1146 (conj eq_refl (conj dec_map_ebcdic1146 enc_map_ebcdic1146))) |
   exact (ex_intro _ enc_ebcdic1147 (conj eq_refl (conj dec_map_ebcdic1147 enc_map_ebcdic1147))) |
   exact (ex_intro _ enc_ebcdic1148 (conj eq_refl (conj dec_map_ebcdic1148 enc_map_ebcdic1148))) |
   exact (ex_intro _ enc_ebcdic1149 (conj eq_refl (conj dec_map_ebcdic1149 enc_map_ebcdic1149))) |
   exact (ex_intro _ enc_ebcdic1153 (conj eq_refl (conj dec_map_ebcdic1153 enc_map_ebcdic1153))) |
   exact (ex_intro _ enc_ebcdic1154 (conj eq_refl (conj dec_map_ebcdic1154 enc_map_ebcdic1154))) |
   exact (ex_intro _ enc_ebcdic1155 (conj eq_refl (conj dec_map_ebcdic1155 enc_map_ebcdic1155))) |
   exact (ex_intro _ enc_ebcdic1156 (conj eq_refl (conj dec_map_ebcdic1156 enc_map_ebcdic1156))) |
   exact (ex_intro _ enc_ebcdic1157 (conj eq_refl (conj dec_map_ebcdic1157 enc_map_ebcdic1157))) |
   exact (ex_intro _ enc_ebcdic1158 (conj eq_refl (conj dec_map_ebcdic1158 enc_map_ebcdic1158))) |
   exact (ex_intro _ enc_ebcdic1160 (conj eq_refl (conj dec_map_ebcdic1160 enc_map_ebcdic1160))) |
   exact (ex_intro _ enc_ebcdic1164 (conj eq_refl (conj dec_map_ebcdic1164 enc_map_ebcdic1164))) |
   exact (ex_intro _ enc_ebcdic1165 (conj eq_refl (conj dec_map_ebcdic1165 enc_map_ebcdic1165))) |
   exact (ex_intro _ enc_ebcdic1166 (conj eq_refl (conj dec_map_ebcdic1166 enc_map_ebcdic1166))) |
   exact (ex_intro _ enc_ebcdic4971 (conj eq_refl (conj dec_map_ebcdic4971 enc_map_ebcdic4971))) |
   exact (ex_intro _ enc_ebcdic12712 (conj eq_refl (conj dec_map_ebcdic12712 enc_map_ebcdic12712))) |
   exact (ex_intro _ enc_ebcdic16804 (conj eq_refl (conj dec_map_ebcdic16804 enc_map_ebcdic16804))) |
   exact (ex_intro _ enc_tds565 (conj eq_refl (conj dec_map_tds565 enc_map_tds565))) |
   exact (ex_intro _ enc_atarist (conj eq_refl (conj dec_map_atarist enc_map_atarist))) |
   exact (ex_intro _ enc_riscos1 (conj eq_refl (conj dec_map_riscos1 enc_map_riscos1)))|apply Forall_nil].
Qed.
