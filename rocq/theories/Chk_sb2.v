(** The converters agree with the charmaps; generated by tools/gencharmap.py. *)
From Coq Require Import ZArith List Bool Lia.
From Verif Require Import Base Loop Contract LoopLib DecLib Spec Sx Indexes Conv_uni Conv_sb Conv_set_ja Conv_set_zh Ok_sb1 Ok_sb2 Ok_sb3 Ok_sb4 Encodings Charmap CharLib Maps_sb2.
Import ListNotations.
Open Scope Z_scope.
Definition leads_mac_cyrillic : list (list Z) := [[]].
Definition ivs_mac_cyrillic : ranges := [(0, 0x80); (0xa0, 0xc0); (0xf7, 0xf8); (0x192, 0x193); (0x400, 0x460); (0x2010, 0x2028); (0x2110, 0x2128); (0x2200, 0x2268)].
Lemma dec_map_mac_cyrillic : decodes enc_mac_cyrillic (stands_for map_mac_cyrillic).
Proof. exact (decodes_intro _ _ (proj2 dec_mac_cyrillic) inv0_0 leads_mac_cyrillic _ ltac:(vm_cast_no_check (eq_refl true)) _ _ _ eq_refl). Qed.
Lemma enc_map_mac_cyrillic : encodes enc_mac_cyrillic (maps_to map_mac_cyrillic irr_mac_cyrillic).
Proof. apply (encodes_intro _ _ _ mac_cyrillic_wctomb ivs_mac_cyrillic _ _ eq_refl); [enc_outside|vm_cast_no_check (eq_refl true)]. Qed.
Definition leads_mac_ukraine : list (list Z) := [[]].
Definition ivs_mac_ukraine : ranges := [(0, 0x80); (0xa0, 0xc0); (0xf7, 0xf8); (0x192, 0x193); (0x400, 0x498); (0x2010, 0x2028); (0x2110, 0x2128); (0x2200, 0x2268)].
Lemma dec_map_mac_ukraine : decodes enc_mac_ukraine (stands_for map_mac_ukraine).
Proof. exact (decodes_intro _ _ (proj2 dec_mac_ukraine) inv0_0 leads_mac_ukraine _ ltac:(vm_cast_no_check (eq_refl true)) _ _ _ eq_refl). Qed.
Lemma enc_map_mac_ukraine : encodes enc_mac_ukraine (maps_to map_mac_ukraine irr_mac_ukraine).
Proof. apply (encodes_intro _ _ _ mac_ukraine_wctomb ivs_mac_ukraine _ _ eq_refl); [enc_outside|vm_cast_no_check (eq_refl true)]. Qed.
Definition leads_mac_greek : list (list Z) := [[]].
Definition ivs_mac_greek : ranges := [(0, 0x80); (0xa0, 0x100); (0x153, 0x154); (0x380, 0x3d0); (0x2010, 0x2038); (0x2122, 0x2123); (0x2248, 0x2268)].
Lemma dec_map_mac_greek : decodes enc_mac_greek (stands_for map_mac_greek).
Proof. exact (decodes_intro _ _ (proj2 dec_mac_greek) inv0_0 leads_mac_greek _ ltac:(vm_cast_no_check (eq_refl true)) _ _ _ eq_refl). Qed.
Lemma enc_map_mac_greek : encodes enc_mac_greek (maps_to map_mac_greek irr_mac_greek).
Proof. apply (encodes_intro _ _ _ mac_greek_wctomb ivs_mac_greek _ _ eq_refl); [enc_outside|vm_cast_no_check (eq_refl true)]. Qed.
Definition leads_mac_turkish : list (list Z) := [[]].
Definition ivs_mac_turkish : ranges := [(0, 0x80); (0xa0, 0x100); (0x118, 0x198); (0x2c0, 0x2e0); (0x3c0, 0x3c1); (0x2010, 0x2038); (0x2120, 0x2128); (0x2200, 0x2268); (0x25ca, 0x25cb)].
Lemma dec_map_mac_turkish : decodes enc_mac_turkish (stands_for map_mac_turkish).
Proof. exact (decodes_intro _ _ (proj2 dec_mac_turkish) inv0_0 leads_mac_turkish _ ltac:(vm_cast_no_check (eq_refl true)) _ _ _ eq_refl). Qed.
Lemma enc_map_mac_turkish : encodes enc_mac_turkish (maps_to map_mac_turkish irr_mac_turkish).
Proof. apply (encodes_intro _ _ _ mac_turkish_wctomb ivs_mac_turkish _ _ eq_refl); [enc_outside|vm_cast_no_check (eq_refl true)]. Qed.
Definition leads_mac_hebrew : list (list Z) := [[]].
Definition ivs_mac_hebrew : ranges := [(0, 0x80); (0xa0, 0x100); (0x5b0, 0x5f0); (0x2010, 0x2028); (0x20aa, 0x20ab); (0xfb18, 0xfb50)].
Lemma dec_map_mac_hebrew : decodes enc_mac_hebrew (stands_for map_mac_hebrew).
Proof. exact (decodes_intro _ _ (proj2 dec_mac_hebrew) inv0_0 leads_mac_hebrew _ ltac:(vm_cast_no_check (eq_refl true)) _ _ _ eq_refl). Qed.
Lemma enc_map_mac_hebrew : encodes enc_mac_hebrew (maps_to map_mac_hebrew irr_mac_hebrew).
Proof. apply (encodes_intro _ _ _ mac_hebrew_wctomb ivs_mac_hebrew _ _ eq_refl); [enc_outside|vm_cast_no_check (eq_refl true)]. Qed.
Definition leads_mac_arabic : list (list Z) := [[]].
Definition ivs_mac_arabic : ranges := [(0, 0x80); (0xa0, 0x100); (0x608, 0x6d8); (0x2026, 0x2027)].
Lemma dec_map_mac_arabic : decodes enc_mac_arabic (stands_for map_mac_arabic).
Proof. exact (decodes_intro _ _ (proj2 dec_mac_arabic) inv0_0 leads_mac_arabic _ ltac:(vm_cast_no_check (eq_refl true)) _ _ _ eq_refl). Qed.
Lemma enc_map_mac_arabic : encodes enc_mac_arabic (maps_to map_mac_arabic irr_mac_arabic).
Proof. apply (encodes_intro _ _ _ mac_arabic_wctomb ivs_mac_arabic _ _ eq_refl); [enc_outside|vm_cast_no_check (eq_refl true)]. Qed.
Definition leads_mac_thai : list (list Z) := [[]].
Definition ivs_mac_thai : ranges := [(0, 0x80); (0xa0, 0xc0); (0xe00, 0xe60); (0x2008, 0x2028); (0x2122, 0x2123); (0xf880, 0xf8a0); (0xfeff, 0xff00)].
Lemma dec_map_mac_thai : decodes enc_mac_thai (stands_for map_mac_thai).
Proof. exact (decodes_intro _ _ (proj2 dec_mac_thai) inv0_0 leads_mac_thai _ ltac:(vm_cast_no_check (eq_refl true)) _ _ _ eq_refl). Qed.
Lemma enc_map_mac_thai : encodes enc_mac_thai (maps_to map_mac_thai irr_mac_thai).
Proof. apply (encodes_intro _ _ _ mac_thai_wctomb ivs_mac_thai _ _ eq_refl); [enc_outside|vm_cast_no_check (eq_refl true)]. Qed.
Definition leads_hp_roman8 : list (list Z) := [[]].
Definition ivs_hp_roman8 : ranges := [(0, 0x100); (0x160, 0x198); (0x2c0, 0x2e0); (0x2014, 0x2015); (0x20a4, 0x20a5); (0x25a0, 0x25a1)].
Lemma dec_map_hp_roman8 : decodes enc_hp_roman8 (stands_for map_hp_roman8).
Proof. exact (decodes_intro _ _ (proj2 dec_hp_roman8) inv0_0 leads_hp_roman8 _ ltac:(vm_cast_no_check (eq_refl true)) _ _ _ eq_refl). Qed.
Lemma enc_map_hp_roman8 : encodes enc_hp_roman8 (maps_to map_hp_roman8 irr_hp_roman8).
Proof. apply (encodes_intro _ _ _ hp_roman8_wctomb ivs_hp_roman8 _ _ eq_refl); [enc_outside|vm_cast_no_check (eq_refl true)]. Qed.
Definition leads_nextstep : list (list Z) := [[]].
Definition ivs_nextstep : ranges := [(0, 0x80); (0xa0, 0x100); (0x130, 0x198); (0x2c0, 0x2e0); (0x2010, 0x2048); (0xfb00, 0xfb08)].
Lemma dec_map_nextstep : decodes enc_nextstep (stands_for map_nextstep).
Proof. exact (decodes_intro _ _ (proj2 dec_nextstep) inv0_0 leads_nextstep _ ltac:(vm_cast_no_check (eq_refl true)) _ _ _ eq_refl). Qed.
Lemma enc_map_nextstep : encodes enc_nextstep (maps_to map_nextstep irr_nextstep).
Proof. apply (encodes_intro _ _ _ nextstep_wctomb ivs_nextstep _ _ eq_refl); [enc_outside|vm_cast_no_check (eq_refl true)]. Qed.
Definition leads_armscii_8 : list (list Z) := [[]].
Definition ivs_armscii_8 : ranges := [(0, 0xc0); (0x530, 0x590); (0x2010, 0x2028)].
Lemma dec_map_armscii_8 : decodes enc_armscii_8 (stands_for map_armscii_8).
Proof. exact (decodes_intro _ _ (proj2 dec_armscii_8) inv0_0 leads_armscii_8 _ ltac:(vm_cast_no_check (eq_refl true)) _ _ _ eq_refl). Qed.
Lemma enc_map_armscii_8 : encodes enc_armscii_8 (maps_to map_armscii_8 irr_armscii_8).
Proof. apply (encodes_intro _ _ _ armscii_8_wctomb ivs_armscii_8 _ _ eq_refl); [enc_outside|vm_cast_no_check (eq_refl true)]. Qed.
Definition leads_georgian_academy : list (list Z) := [[]].
Definition ivs_georgian_academy : ranges := [(0, 0xc0); (0xe7, 0x100); (0x150, 0x198); (0x2c0, 0x2e0); (0x10d0, 0x10f7); (0x2010, 0x2040); (0x2122, 0x2123)].
Lemma dec_map_georgian_academy : decodes enc_georgian_academy (stands_for map_georgian_academy).
Proof. exact (decodes_intro _ _ (proj2 dec_georgian_academy) inv0_0 leads_georgian_academy _ ltac:(vm_cast_no_check (eq_refl true)) _ _ _ eq_refl). Qed.
Lemma enc_map_georgian_academy : encodes enc_georgian_academy (maps_to map_georgian_academy irr_georgian_academy).
Proof. apply (encodes_intro _ _ _ georgian_academy_wctomb ivs_georgian_academy _ _ eq_refl); [enc_outside|vm_cast_no_check (eq_refl true)]. Qed.
Definition leads_georgian_ps : list (list Z) := [[]].
Definition ivs_georgian_ps : ranges := [(0, 0xc0); (0xe6, 0x100); (0x150, 0x198); (0x2c0, 0x2e0); (0x10d0, 0x10f8); (0x2010, 0x2040); (0x2122, 0x2123)].
Lemma dec_map_georgian_ps : decodes enc_georgian_ps (stands_for map_georgian_ps).
Proof. exact (decodes_intro _ _ (proj2 dec_georgian_ps) inv0_0 leads_georgian_ps _ ltac:(vm_cast_no_check (eq_refl true)) _ _ _ eq_refl). Qed.
Lemma enc_map_georgian_ps : encodes enc_georgian_ps (maps_to map_georgian_ps irr_georgian_ps).
Proof. apply (encodes_intro _ _ _ georgian_ps_wctomb ivs_georgian_ps _ _ eq_refl); [enc_outside|vm_cast_no_check (eq_refl true)]. Qed.
Definition leads_koi8_t : list (list Z) := [[]].
Definition ivs_koi8_t : ranges := [(0, 0x80); (0xa0, 0xc0); (0x400, 0x4f0); (0x2010, 0x2040); (0x2110, 0x2128)].
Lemma dec_map_koi8_t : decodes enc_koi8_t (stands_for map_koi8_t).
Proof. exact (decodes_intro _ _ (proj2 dec_koi8_t) inv0_0 leads_koi8_t _ ltac:(vm_cast_no_check (eq_refl true)) _ _ _ eq_refl). Qed.
Lemma enc_map_koi8_t : encodes enc_koi8_t (maps_to map_koi8_t irr_koi8_t).
Proof. apply (encodes_intro _ _ _ koi8_t_wctomb ivs_koi8_t _ _ eq_refl); [enc_outside|vm_cast_no_check (eq_refl true)]. Qed.
Definition leads_pt154 : list (list Z) := [[]].
Definition ivs_pt154 : ranges := [(0, 0x80); (0xa0, 0xc0); (0x400, 0x4f0); (0x2010, 0x2028); (0x2116, 0x2117)].
Lemma dec_map_pt154 : decodes enc_pt154 (stands_for map_pt154).
Proof. exact (decodes_intro _ _ (proj2 dec_pt154) inv0_0 leads_pt154 _ ltac:(vm_cast_no_check (eq_refl true)) _ _ _ eq_refl). Qed.
Lemma enc_map_pt154 : encodes enc_pt154 (maps_to map_pt154 irr_pt154).
Proof. apply (encodes_intro _ _ _ pt154_wctomb ivs_pt154 _ _ eq_refl); [enc_outside|vm_cast_no_check (eq_refl true)]. Qed.
Definition leads_rk1048 : list (list Z) := [[]].
Definition ivs_rk1048 : ranges := [(0, 0x80); (0xa0, 0xc0); (0x400, 0x4f0); (0x2010, 0x2040); (0x20ac, 0x20ad); (0x2110, 0x2128)].
Lemma dec_map_rk1048 : decodes enc_rk1048 (stands_for map_rk1048).
Proof. exact (decodes_intro _ _ (proj2 dec_rk1048) inv0_0 leads_rk1048 _ ltac:(vm_cast_no_check (eq_refl true)) _ _ _ eq_refl). Qed.
Lemma enc_map_rk1048 : encodes enc_rk1048 (maps_to map_rk1048 irr_rk1048).
Proof. apply (encodes_intro _ _ _ rk1048_wctomb ivs_rk1048 _ _ eq_refl); [enc_outside|vm_cast_no_check (eq_refl true)]. Qed.
Definition leads_mulelao : list (list Z) := [[]].
Definition ivs_mulelao : ranges := [(0, 0xa1); (0xe80, 0xee0)].
Lemma dec_map_mulelao : decodes enc_mulelao (stands_for map_mulelao).
Proof. exact (decodes_intro _ _ (proj2 dec_mulelao) inv0_0 leads_mulelao _ ltac:(vm_cast_no_check (eq_refl true)) _ _ _ eq_refl). Qed.
Lemma enc_map_mulelao : encodes enc_mulelao (maps_to map_mulelao irr_mulelao).
Proof. apply (encodes_intro _ _ _ mulelao_wctomb ivs_mulelao _ _ eq_refl); [enc_outside|vm_cast_no_check (eq_refl true)]. Qed.
Definition leads_cp1133 : list (list Z) := [[]].
Definition ivs_cp1133 : ranges := [(0, 0xb0); (0xe80, 0xee0); (0x20ad, 0x20ae)].
Lemma dec_map_cp1133 : decodes enc_cp1133 (stands_for map_cp1133).
Proof. exact (decodes_intro _ _ (proj2 dec_cp1133) inv0_0 leads_cp1133 _ ltac:(vm_cast_no_check (eq_refl true)) _ _ _ eq_refl). Qed.
Lemma enc_map_cp1133 : encodes enc_cp1133 (maps_to map_cp1133 irr_cp1133).
Proof. apply (encodes_intro _ _ _ cp1133_wctomb ivs_cp1133 _ _ eq_refl); [enc_outside|vm_cast_no_check (eq_refl true)]. Qed.
Definition leads_tis620 : list (list Z) := [[]].
Definition ivs_tis620 : ranges := [(0, 0x80); (0xe01, 0xe5c)].
Lemma dec_map_tis620 : decodes enc_tis620 (stands_for map_tis620).
Proof. exact (decodes_intro _ _ (proj2 dec_tis620) inv0_0 leads_tis620 _ ltac:(vm_cast_no_check (eq_refl true)) _ _ _ eq_refl). Qed.
Lemma enc_map_tis620 : encodes enc_tis620 (maps_to map_tis620 irr_tis620).
Proof. apply (encodes_intro _ _ _ tis620_wctomb ivs_tis620 _ _ eq_refl); [enc_outside|vm_cast_no_check (eq_refl true)]. Qed.
Definition leads_cp874 : list (list Z) := [[]].
Definition ivs_cp874 : ranges := [(0, 0x80); (0xa0, 0xa1); (0xe00, 0xe60); (0x2010, 0x2028); (0x20ac, 0x20ad)].
Lemma dec_map_cp874 : decodes enc_cp874 (stands_for map_cp874).
Proof. exact (decodes_intro _ _ (proj2 dec_cp874) inv0_0 leads_cp874 _ ltac:(vm_cast_no_check (eq_refl true)) _ _ _ eq_refl). Qed.
Lemma enc_map_cp874 : encodes enc_cp874 (maps_to map_cp874 irr_cp874).
Proof. apply (encodes_intro _ _ _ cp874_wctomb ivs_cp874 _ _ eq_refl); [enc_outside|vm_cast_no_check (eq_refl true)]. Qed.
Definition leads_viscii : list (list Z) := [[]].
Definition ivs_viscii : ranges := [(0, 0x80); (0xc0, 0x1b8); (0x1ea0, 0x1f00)].
Lemma dec_map_viscii : decodes enc_viscii (stands_for map_viscii).
Proof. exact (decodes_intro _ _ (proj2 dec_viscii) inv0_0 leads_viscii _ ltac:(vm_cast_no_check (eq_refl true)) _ _ _ eq_refl). Qed.
Lemma enc_map_viscii : encodes enc_viscii (maps_to map_viscii irr_viscii).
Proof. apply (encodes_intro _ _ _ viscii_wctomb ivs_viscii _ _ eq_refl); [enc_outside|vm_cast_no_check (eq_refl true)]. Qed.
Definition leads_iso646_jp : list (list Z) := [[]].
Definition ivs_iso646_jp : ranges := [(0, 0x80); (0xa5, 0xa6); (0x203e, 0x203f)].
Lemma dec_map_iso646_jp : decodes enc_iso646_jp (stands_for map_iso646_jp).
Proof. exact (decodes_intro _ _ (proj2 dec_iso646_jp) inv0_0 leads_iso646_jp _ ltac:(vm_cast_no_check (eq_refl true)) _ _ _ eq_refl). Qed.
Lemma enc_map_iso646_jp : encodes enc_iso646_jp (maps_to map_iso646_jp irr_iso646_jp).
Proof. apply (encodes_intro _ _ _ iso646_jp_wctomb ivs_iso646_jp _ _ eq_refl); [enc_outside|vm_cast_no_check (eq_refl true)]. Qed.
Definition leads_jisx0201 : list (list Z) := [[]].
Definition ivs_jisx0201 : ranges := [(0, 0x80); (0xa5, 0xa6); (0x203e, 0x203f); (0xff61, 0xffa0)].
Lemma dec_map_jisx0201 : decodes enc_jisx0201 (stands_for map_jisx0201).
Proof. exact (decodes_intro _ _ (proj2 dec_jisx0201) inv0_0 leads_jisx0201 _ ltac:(vm_cast_no_check (eq_refl true)) _ _ _ eq_refl). Qed.
Lemma enc_map_jisx0201 : encodes enc_jisx0201 (maps_to map_jisx0201 irr_jisx0201).
Proof. apply (encodes_intro _ _ _ jisx0201_wctomb ivs_jisx0201 _ _ eq_refl); [enc_outside|vm_cast_no_check (eq_refl true)]. Qed.
Definition leads_iso646_cn : list (list Z) := [[]].
Definition ivs_iso646_cn : ranges := [(0, 0x80); (0xa5, 0xa6); (0x203e, 0x203f)].
Lemma dec_map_iso646_cn : decodes enc_iso646_cn (stands_for map_iso646_cn).
Proof. exact (decodes_intro _ _ (proj2 dec_iso646_cn) inv0_0 leads_iso646_cn _ ltac:(vm_cast_no_check (eq_refl true)) _ _ _ eq_refl). Qed.
Lemma enc_map_iso646_cn : encodes enc_iso646_cn (maps_to map_iso646_cn irr_iso646_cn).
Proof. apply (encodes_intro _ _ _ iso646_cn_wctomb ivs_iso646_cn _ _ eq_refl); [enc_outside|vm_cast_no_check (eq_refl true)]. Qed.
Definition leads_cp856 : list (list Z) := [[]].
Definition ivs_cp856 : ranges := [(0, 0x80); (0xa0, 0xf8); (0x5d0, 0x5f0); (0x2017, 0x2018); (0x2500, 0x25a8)].
Lemma dec_map_cp856 : decodes enc_cp856 (stands_for map_cp856).
Proof. exact (decodes_intro _ _ (proj2 dec_cp856) inv0_0 leads_cp856 _ ltac:(vm_cast_no_check (eq_refl true)) _ _ _ eq_refl). Qed.
Lemma enc_map_cp856 : encodes enc_cp856 (maps_to map_cp856 irr_cp856).
Proof. apply (encodes_intro _ _ _ cp856_wctomb ivs_cp856 _ _ eq_refl); [enc_outside|vm_cast_no_check (eq_refl true)]. Qed.
Definition leads_cp922 : list (list Z) := [[]].
Definition ivs_cp922 : ranges := [(0, 0x100); (0x160, 0x180); (0x203e, 0x203f)].
Lemma dec_map_cp922 : decodes enc_cp922 (stands_for map_cp922).
Proof. exact (decodes_intro _ _ (proj2 dec_cp922) inv0_0 leads_cp922 _ ltac:(vm_cast_no_check (eq_refl true)) _ _ _ eq_refl). Qed.
Lemma enc_map_cp922 : encodes enc_cp922 (maps_to map_cp922 irr_cp922).
Proof. apply (encodes_intro _ _ _ cp922_wctomb ivs_cp922 _ _ eq_refl); [enc_outside|vm_cast_no_check (eq_refl true)]. Qed.
Definition leads_cp1046 : list (list Z) := [[]].
Definition ivs_cp1046 : ranges := [(0, 0x80); (0x88, 0xf8); (0x608, 0x670); (0x2500, 0x2520); (0x25a0, 0x25a1); (0xf8f0, 0xf900); (0xfe70, 0xff00)].
Lemma dec_map_cp1046 : decodes enc_cp1046 (stands_for map_cp1046).
Proof. exact (decodes_intro _ _ (proj2 dec_cp1046) inv0_0 leads_cp1046 _ ltac:(vm_cast_no_check (eq_refl true)) _ _ _ eq_refl). Qed.
Lemma enc_map_cp1046 : encodes enc_cp1046 (maps_to map_cp1046 irr_cp1046).
Proof. apply (encodes_intro _ _ _ cp1046_wctomb ivs_cp1046 _ _ eq_refl); [enc_outside|vm_cast_no_check (eq_refl true)]. Qed.
Definition leads_cp1124 : list (list Z) := [[]].
Definition ivs_cp1124 : ranges := [(0, 0xb0); (0x400, 0x498); (0x2116, 0x2117)].
Lemma dec_map_cp1124 : decodes enc_cp1124 (stands_for map_cp1124).
Proof. exact (decodes_intro _ _ (proj2 dec_cp1124) inv0_0 leads_cp1124 _ ltac:(vm_cast_no_check (eq_refl true)) _ _ _ eq_refl). Qed.
Lemma enc_map_cp1124 : encodes enc_cp1124 (maps_to map_cp1124 irr_cp1124).
Proof. apply (encodes_intro _ _ _ cp1124_wctomb ivs_cp1124 _ _ eq_refl); [enc_outside|vm_cast_no_check (eq_refl true)]. Qed.
Definition leads_cp1129 : list (list Z) := [[]].
Definition ivs_cp1129 : ranges := [(0, 0x1b8); (0x300, 0x328); (0x20ab, 0x20ac)].
Lemma dec_map_cp1129 : decodes enc_cp1129 (stands_for map_cp1129).
Proof. exact (decodes_intro _ _ (proj2 dec_cp1129) inv0_0 leads_cp1129 _ ltac:(vm_cast_no_check (eq_refl true)) _ _ _ eq_refl). Qed.
Lemma enc_map_cp1129 : encodes enc_cp1129 (maps_to map_cp1129 irr_cp1129).
Proof. apply (encodes_intro _ _ _ cp1129_wctomb ivs_cp1129 _ _ eq_refl); [enc_outside|vm_cast_no_check (eq_refl true)]. Qed.
Definition leads_cp1161 : list (list Z) := [[]].
Definition ivs_cp1161 : ranges := [(0, 0x80); (0xa0, 0xb0); (0xe00, 0xe60); (0x20ac, 0x20ad)].
Lemma dec_map_cp1161 : decodes enc_cp1161 (stands_for map_cp1161).
Proof. exact (decodes_intro _ _ (proj2 dec_cp1161) inv0_0 leads_cp1161 _ ltac:(vm_cast_no_check (eq_refl true)) _ _ _ eq_refl). Qed.
Lemma enc_map_cp1161 : encodes enc_cp1161 (maps_to map_cp1161 irr_cp1161).
Proof. apply (encodes_intro _ _ _ cp1161_wctomb ivs_cp1161 _ _ eq_refl); [enc_outside|vm_cast_no_check (eq_refl true)]. Qed.
Definition leads_cp1162 : list (list Z) := [[]].
Definition ivs_cp1162 : ranges := [(0, 0xa1); (0xe00, 0xe60); (0x2010, 0x2028); (0x20ac, 0x20ad)].
Lemma dec_map_cp1162 : decodes enc_cp1162 (stands_for map_cp1162).
Proof. exact (decodes_intro _ _ (proj2 dec_cp1162) inv0_0 leads_cp1162 _ ltac:(vm_cast_no_check (eq_refl true)) _ _ _ eq_refl). Qed.
Lemma enc_map_cp1162 : encodes enc_cp1162 (maps_to map_cp1162 irr_cp1162).
Proof. apply (encodes_intro _ _ _ cp1162_wctomb ivs_cp1162 _ _ eq_refl); [enc_outside|vm_cast_no_check (eq_refl true)]. Qed.
Definition leads_cp1163 : list (list Z) := [[]].
Definition ivs_cp1163 : ranges := [(0, 0x1b8); (0x300, 0x328); (0x203e, 0x203f); (0x20a8, 0x20b0)].
Lemma dec_map_cp1163 : decodes enc_cp1163 (stands_for map_cp1163).
Proof. exact (decodes_intro _ _ (proj2 dec_cp1163) inv0_0 leads_cp1163 _ ltac:(vm_cast_no_check (eq_refl true)) _ _ _ eq_refl). Qed.
Lemma enc_map_cp1163 : encodes enc_cp1163 (maps_to map_cp1163 irr_cp1163).
Proof. apply (encodes_intro _ _ _ cp1163_wctomb ivs_cp1163 _ _ eq_refl); [enc_outside|vm_cast_no_check (eq_refl true)]. Qed.
Definition leads_cp437 : list (list Z) := [[]].
Definition ivs_cp437 : ranges := [(0, 0x80); (0xa0, 0x100); (0x192, 0x193); (0x390, 0x3c8); (0x207f, 0x2080); (0x20a7, 0x20a8); (0x2218, 0x2268); (0x2310, 0x2328); (0x2500, 0x25a8)].
Lemma dec_map_cp437 : decodes enc_cp437 (stands_for map_cp437).
Proof. exact (decodes_intro _ _ (proj2 dec_cp437) inv0_0 leads_cp437 _ ltac:(vm_cast_no_check (eq_refl true)) _ _ _ eq_refl). Qed.
Lemma enc_map_cp437 : encodes enc_cp437 (maps_to map_cp437 irr_cp437).
Proof. apply (encodes_intro _ _ _ cp437_wctomb ivs_cp437 _ _ eq_refl); [enc_outside|vm_cast_no_check (eq_refl true)]. Qed.
Definition leads_cp737 : list (list Z) := [[]].
Definition ivs_cp737 : ranges := [(0, 0x80); (0xa0, 0xb8); (0xf7, 0xf8); (0x380, 0x3d0); (0x207f, 0x2080); (0x2218, 0x2268); (0x2500, 0x25a8)].
Lemma dec_map_cp737 : decodes enc_cp737 (stands_for map_cp737).
Proof. exact (decodes_intro _ _ (proj2 dec_cp737) inv0_0 leads_cp737 _ ltac:(vm_cast_no_check (eq_refl true)) _ _ _ eq_refl). Qed.
Lemma enc_map_cp737 : encodes enc_cp737 (maps_to map_cp737 irr_cp737).
Proof. apply (encodes_intro _ _ _ cp737_wctomb ivs_cp737 _ _ eq_refl); [enc_outside|vm_cast_no_check (eq_refl true)]. Qed.
Definition leads_cp775 : list (list Z) := [[]].
Definition ivs_cp775 : ranges := [(0, 0x80); (0xa0, 0x180); (0x2018, 0x2020); (0x2219, 0x221a); (0x2500, 0x25a8)].
Lemma dec_map_cp775 : decodes enc_cp775 (stands_for map_cp775).
Proof. exact (decodes_intro _ _ (proj2 dec_cp775) inv0_0 leads_cp775 _ ltac:(vm_cast_no_check (eq_refl true)) _ _ _ eq_refl). Qed.
Lemma enc_map_cp775 : encodes enc_cp775 (maps_to map_cp775 irr_cp775).
Proof. apply (encodes_intro _ _ _ cp775_wctomb ivs_cp775 _ _ eq_refl); [enc_outside|vm_cast_no_check (eq_refl true)]. Qed.
Definition leads_cp852 : list (list Z) := [[]].
Definition ivs_cp852 : ranges := [(0, 0x80); (0xa0, 0x180); (0x2c0, 0x2e0); (0x2500, 0x25a8)].
Lemma dec_map_cp852 : decodes enc_cp852 (stands_for map_cp852).
Proof. exact (decodes_intro _ _ (proj2 dec_cp852) inv0_0 leads_cp852 _ ltac:(vm_cast_no_check (eq_refl true)) _ _ _ eq_refl). Qed.
Lemma enc_map_cp852 : encodes enc_cp852 (maps_to map_cp852 irr_cp852).
Proof. apply (encodes_intro _ _ _ cp852_wctomb ivs_cp852 _ _ eq_refl); [enc_outside|vm_cast_no_check (eq_refl true)]. Qed.
Definition maps_sb2 : list (Z * charmap * pairs) :=
 [(ei_mac_cyrillic, map_mac_cyrillic, irr_mac_cyrillic);
  (ei_mac_ukraine, map_mac_ukraine, irr_mac_ukraine);
  (ei_mac_greek, map_mac_greek, irr_mac_greek);
  (ei_mac_turkish, map_mac_turkish, irr_mac_turkish);
  (ei_mac_hebrew, map_mac_hebrew, irr_mac_hebrew);
  (ei_mac_arabic, map_mac_arabic, irr_mac_arabic);
  (ei_mac_thai, map_mac_thai, irr_mac_thai);
  (ei_hp_roman8, map_hp_roman8, irr_hp_roman8);
  (ei_nextstep, map_nextstep, irr_nextstep);
  (ei_armscii_8, map_armscii_8, irr_armscii_8);
  (ei_georgian_academy, map_georgian_academy, irr_georgian_academy);
  (ei_georgian_ps, map_georgian_ps, irr_georgian_ps);
  (ei_koi8_t, map_koi8_t, irr_koi8_t);
  (ei_pt154, map_pt154, irr_pt154);
  (ei_rk1048, map_rk1048, irr_rk1048);
  (ei_mulelao, map_mulelao, irr_mulelao);
  (ei_cp1133, map_cp1133, irr_cp1133);
  (ei_tis620, map_tis620, irr_tis620);
  (ei_cp874, map_cp874, irr_cp874);
  (ei_viscii, map_viscii, irr_viscii);
  (ei_iso646_jp, map_iso646_jp, irr_iso646_jp);
  (ei_jisx0201, map_jisx0201, irr_jisx0201);
  (ei_iso646_cn, map_iso646_cn, irr_iso646_cn);
  (ei_cp856, map_cp856, irr_cp856);
  (ei_cp922, map_cp922, irr_cp922);
  (ei_cp1046, map_cp1046, irr_cp1046);
  (ei_cp1124, map_cp1124, irr_cp1124);
  (ei_cp1129, map_cp1129, irr_cp1129);
  (ei_cp1161, map_cp1161, irr_cp1161);
  (ei_cp1162, map_cp1162, irr_cp1162);
  (ei_cp1163, map_cp1163, irr_cp1163);
  (ei_cp437, map_cp437, irr_cp437);
  (ei_cp737, map_cp737, irr_cp737);
  (ei_cp775, map_cp775, irr_cp775);
  (ei_cp852, map_cp852, irr_cp852)].
Lemma maps_sb2_ok : Forall table_ok maps_sb2.
Proof.
  repeat apply Forall_cons; [exact (ex_intro _ enc_mac_cyrillic (conj eq_refl (conj dec_map_mac_cyrillic enc_map_mac_cyrillic))) |
   exact (ex_intro _ enc_mac_ukraine (conj eq_refl (conj dec_map_mac_ukraine enc_map_mac_ukraine))) |
   exact (ex_intro _ enc_mac_greek (conj eq_refl (conj dec_map_mac_greek enc_map_mac_greek))) |
   exact (ex_intro _ enc_mac_turkish (conj eq_refl (conj dec_map_mac_turkish enc_map_mac_turkish))) |
   exact (ex_intro _ enc_mac_hebrew (conj eq_refl (conj dec_map_mac_hebrew enc_map_mac_hebrew))) |
   exact (ex_intro _ enc_mac_arabic (conj eq_refl (conj dec_map_mac_arabic enc_map_mac_arabic))) |
   exact (ex_intro _ enc_mac_thai (conj eq_refl (conj dec_map_mac_thai enc_map_mac_thai))) |
   exact (ex_intro _ enc_hp_roman8 (conj eq_refl (conj dec_map_hp_roman8 enc_map_hp_roman8))) |
   exact (ex_intro _ enc_nextstep (conj eq_refl (conj dec_map_nextstep enc_map_nextstep))) |
   exact (ex_intro _ enc_armscii_8 (conj eq_refl (conj dec_map_armscii_8 enc_map_armscii_8))) |
   exact (ex_intro _ enc_georgian_academy (conj eq_refl (conj dec_map_georgian_academy enc_map_georgian_academy))) |
   exact (ex_intro _ enc_georgian_ps (conj eq_refl (conj dec_map_georgian_ps enc_map_georgian_ps))) |
   exact (ex_intro _ enc_koi8_t (conj eq_refl (conj dec_map_koi8_t enc_map_koi8_t))) |
   exact (ex_intro _ enc_pt154 (conj eq_refl (conj dec_map_pt154 enc_map_pt154))) |
   exact (ex_intro _ enc_rk1048 (conj eq_refl (conj dec_map_rk1048 enc_map_rk1048))) |
   exact (ex_intro _ enc_mulelao (conj eq_refl (conj dec_map_mulelao enc_map_mulelao))) |
   exact (ex_intro _ enc_cp1133 (conj eq_refl (conj dec_map_cp1133 enc_map_cp1133))) |
   exact (ex_intro _ enc_tis620 (conj eq_refl (conj dec_map_tis620 enc_map_tis620))) |
   exact (ex_intro _ enc_cp874 (conj eq_refl (conj dec_map_cp874 enc_map_cp874))) |
   exact (ex_intro _ enc_viscii (conj eq_refl (conj dec_map_viscii enc_map_viscii))) |
   exact (ex_intro _ enc_iso646_jp (conj eq_refl (conj dec_map_iso646_jp enc_map_iso646_jp))) |
   exact (ex_intro _ enc_jisx0201 (conj eq_refl (conj dec_map_jisx0201 enc_map_jisx0201))) |
   exact (ex_intro _ enc_iso646_cn (conj eq_refl (conj dec_map_iso646_cn enc_map_iso646_cn))) |
   exact (ex_intro _ enc_cp856 (conj eq_refl (conj dec_map_cp856 enc_map_cp856))) |
   exact (ex_intro _ enc_cp922 (conj eq_refl (conj dec_map_cp922 enc_map_cp922))) |
   exact (ex_intro _ enc_cp1046 (conj eq_refl (conj dec_map_cp1046 enc_map_cp1046))) |
   exact (ex_intro _ enc_cp1124 (conj eq_refl (conj dec_map_cp1124 enc_map_cp1124))) |
   exact (ex_intro _ enc_cp1129 (conj eq_refl (conj dec_map_cp1129 enc_map_cp1129))) |
   exact (ex_intro _ enc_cp1161 (conj eq_refl (conj dec_map_cp1161 enc_map_cp1161))) |
   exact (ex_intro _ enc_cp1162 (conj eq_refl (conj dec_map_cp1162 enc_map_cp1162))) |
   exact (ex_intro _ enc_cp1163 (conj eq_refl (conj dec_map_cp1163 enc_map_cp1163))) |
   exact (ex_intro _ enc_cp437 (conj eq_refl (conj dec_map_cp437 enc_map_cp437))) |
   exact (ex_intro _ enc_cp737 (conj eq_refl (conj dec_map_cp737 enc_map_cp737))) |
   exact (ex_intro _ enc_cp775 (conj eq_refl (conj dec_map_cp775 enc_map_cp775))) |
   exact (ex_intro _ enc_cp852 (conj eq_refl (conj dec_map_cp852 enc_map_cp852)))|apply Forall_nil].
Qed.
