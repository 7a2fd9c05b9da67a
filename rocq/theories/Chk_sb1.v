(** The converters agree with the charmaps; generated by tools/gencharmap.py. *)
From Coq Require Import ZArith List Bool Lia.
From Verif Require Import Base Loop Contract LoopLib DecLib Spec Sx Indexes Conv_uni Conv_sb Ok_sb1 Ok_sb2 Encodings Charmap CharLib Maps_sb1.
Import ListNotations.
Open Scope Z_scope.
Definition leads_ascii : list (list Z) := [[]].
Definition ivs_ascii : ranges := [(0, 0x80)].
Lemma dec_map_ascii : decodes enc_ascii (stands_for map_ascii).
Proof. exact (decodes_intro _ _ (proj2 dec_ascii) inv0_0 leads_ascii _ ltac:(vm_cast_no_check (eq_refl true)) _ _ _ eq_refl). Qed.
Lemma enc_map_ascii : encodes enc_ascii (maps_to map_ascii irr_ascii).
Proof. apply (encodes_intro _ _ _ ascii_wctomb ivs_ascii _ _ eq_refl); [enc_outside|vm_cast_no_check (eq_refl true)]. Qed.
Definition leads_iso8859_1 : list (list Z) := [[]].
Definition ivs_iso8859_1 : ranges := [(0, 0x100)].
Lemma dec_map_iso8859_1 : decodes enc_iso8859_1 (stands_for map_iso8859_1).
Proof. exact (decodes_intro _ _ (proj2 dec_iso8859_1) inv0_0 leads_iso8859_1 _ ltac:(vm_cast_no_check (eq_refl true)) _ _ _ eq_refl). Qed.
Lemma enc_map_iso8859_1 : encodes enc_iso8859_1 (maps_to map_iso8859_1 irr_iso8859_1).
Proof. apply (encodes_intro _ _ _ iso8859_1_wctomb ivs_iso8859_1 _ _ eq_refl); [enc_outside|vm_cast_no_check (eq_refl true)]. Qed.
Definition leads_iso8859_2 : list (list Z) := [[]].
Definition ivs_iso8859_2 : ranges := [(0, 0x180); (0x2c0, 0x2e0)].
Lemma dec_map_iso8859_2 : decodes enc_iso8859_2 (stands_for map_iso8859_2).
Proof. exact (decodes_intro _ _ (proj2 dec_iso8859_2) inv0_0 leads_iso8859_2 _ ltac:(vm_cast_no_check (eq_refl true)) _ _ _ eq_refl). Qed.
Lemma enc_map_iso8859_2 : encodes enc_iso8859_2 (maps_to map_iso8859_2 irr_iso8859_2).
Proof. apply (encodes_intro _ _ _ iso8859_2_wctomb ivs_iso8859_2 _ _ eq_refl); [enc_outside|vm_cast_no_check (eq_refl true)]. Qed.
Definition leads_iso8859_3 : list (list Z) := [[]].
Definition ivs_iso8859_3 : ranges := [(0, 0x100); (0x108, 0x180); (0x2d8, 0x2e0)].
Lemma dec_map_iso8859_3 : decodes enc_iso8859_3 (stands_for map_iso8859_3).
Proof. exact (decodes_intro _ _ (proj2 dec_iso8859_3) inv0_0 leads_iso8859_3 _ ltac:(vm_cast_no_check (eq_refl true)) _ _ _ eq_refl). Qed.
Lemma enc_map_iso8859_3 : encodes enc_iso8859_3 (maps_to map_iso8859_3 irr_iso8859_3).
Proof. apply (encodes_intro _ _ _ iso8859_3_wctomb ivs_iso8859_3 _ _ eq_refl); [enc_outside|vm_cast_no_check (eq_refl true)]. Qed.
Definition leads_iso8859_4 : list (list Z) := [[]].
Definition ivs_iso8859_4 : ranges := [(0, 0x180); (0x2c0, 0x2e0)].
Lemma dec_map_iso8859_4 : decodes enc_iso8859_4 (stands_for map_iso8859_4).
Proof. exact (decodes_intro _ _ (proj2 dec_iso8859_4) inv0_0 leads_iso8859_4 _ ltac:(vm_cast_no_check (eq_refl true)) _ _ _ eq_refl). Qed.
Lemma enc_map_iso8859_4 : encodes enc_iso8859_4 (maps_to map_iso8859_4 irr_iso8859_4).
Proof. apply (encodes_intro _ _ _ iso8859_4_wctomb ivs_iso8859_4 _ _ eq_refl); [enc_outside|vm_cast_no_check (eq_refl true)]. Qed.
Definition leads_iso8859_5 : list (list Z) := [[]].
Definition ivs_iso8859_5 : ranges := [(0, 0xb0); (0x400, 0x460); (0x2116, 0x2117)].
Lemma dec_map_iso8859_5 : decodes enc_iso8859_5 (stands_for map_iso8859_5).
Proof. exact (decodes_intro _ _ (proj2 dec_iso8859_5) inv0_0 leads_iso8859_5 _ ltac:(vm_cast_no_check (eq_refl true)) _ _ _ eq_refl). Qed.
Lemma enc_map_iso8859_5 : encodes enc_iso8859_5 (maps_to map_iso8859_5 irr_iso8859_5).
Proof. apply (encodes_intro _ _ _ iso8859_5_wctomb ivs_iso8859_5 _ _ eq_refl); [enc_outside|vm_cast_no_check (eq_refl true)]. Qed.
Definition leads_iso8859_6 : list (list Z) := [[]].
Definition ivs_iso8859_6 : ranges := [(0, 0xb0); (0x608, 0x658)].
Lemma dec_map_iso8859_6 : decodes enc_iso8859_6 (stands_for map_iso8859_6).
Proof. exact (decodes_intro _ _ (proj2 dec_iso8859_6) inv0_0 leads_iso8859_6 _ ltac:(vm_cast_no_check (eq_refl true)) _ _ _ eq_refl). Qed.
Lemma enc_map_iso8859_6 : encodes enc_iso8859_6 (maps_to map_iso8859_6 irr_iso8859_6).
Proof. apply (encodes_intro _ _ _ iso8859_6_wctomb ivs_iso8859_6 _ _ eq_refl); [enc_outside|vm_cast_no_check (eq_refl true)]. Qed.
Definition leads_iso8859_7 : list (list Z) := [[]].
Definition ivs_iso8859_7 : ranges := [(0, 0xc0); (0x378, 0x3d0); (0x2010, 0x2020); (0x20ac, 0x20ad); (0x20af, 0x20b0)].
Lemma dec_map_iso8859_7 : decodes enc_iso8859_7 (stands_for map_iso8859_7).
Proof. exact (decodes_intro _ _ (proj2 dec_iso8859_7) inv0_0 leads_iso8859_7 _ ltac:(vm_cast_no_check (eq_refl true)) _ _ _ eq_refl). Qed.
Lemma enc_map_iso8859_7 : encodes enc_iso8859_7 (maps_to map_iso8859_7 irr_iso8859_7).
Proof. apply (encodes_intro _ _ _ iso8859_7_wctomb ivs_iso8859_7 _ _ eq_refl); [enc_outside|vm_cast_no_check (eq_refl true)]. Qed.
Definition leads_iso8859_8 : list (list Z) := [[]].
Definition ivs_iso8859_8 : ranges := [(0, 0xf8); (0x5d0, 0x5f0); (0x2008, 0x2018)].
Lemma dec_map_iso8859_8 : decodes enc_iso8859_8 (stands_for map_iso8859_8).
Proof. exact (decodes_intro _ _ (proj2 dec_iso8859_8) inv0_0 leads_iso8859_8 _ ltac:(vm_cast_no_check (eq_refl true)) _ _ _ eq_refl). Qed.
Lemma enc_map_iso8859_8 : encodes enc_iso8859_8 (maps_to map_iso8859_8 irr_iso8859_8).
Proof. apply (encodes_intro _ _ _ iso8859_8_wctomb ivs_iso8859_8 _ _ eq_refl); [enc_outside|vm_cast_no_check (eq_refl true)]. Qed.
Definition leads_iso8859_9 : list (list Z) := [[]].
Definition ivs_iso8859_9 : ranges := [(0, 0x100); (0x118, 0x160)].
Lemma dec_map_iso8859_9 : decodes enc_iso8859_9 (stands_for map_iso8859_9).
Proof. exact (decodes_intro _ _ (proj2 dec_iso8859_9) inv0_0 leads_iso8859_9 _ ltac:(vm_cast_no_check (eq_refl true)) _ _ _ eq_refl). Qed.
Lemma enc_map_iso8859_9 : encodes enc_iso8859_9 (maps_to map_iso8859_9 irr_iso8859_9).
Proof. apply (encodes_intro _ _ _ iso8859_9_wctomb ivs_iso8859_9 _ _ eq_refl); [enc_outside|vm_cast_no_check (eq_refl true)]. Qed.
Definition leads_iso8859_10 : list (list Z) := [[]].
Definition ivs_iso8859_10 : ranges := [(0, 0x180); (0x2015, 0x2016)].
Lemma dec_map_iso8859_10 : decodes enc_iso8859_10 (stands_for map_iso8859_10).
Proof. exact (decodes_intro _ _ (proj2 dec_iso8859_10) inv0_0 leads_iso8859_10 _ ltac:(vm_cast_no_check (eq_refl true)) _ _ _ eq_refl). Qed.
Lemma enc_map_iso8859_10 : encodes enc_iso8859_10 (maps_to map_iso8859_10 irr_iso8859_10).
Proof. apply (encodes_intro _ _ _ iso8859_10_wctomb ivs_iso8859_10 _ _ eq_refl); [enc_outside|vm_cast_no_check (eq_refl true)]. Qed.
Definition leads_iso8859_11 : list (list Z) := [[]].
Definition ivs_iso8859_11 : ranges := [(0, 0xa1); (0xe01, 0xe5c)].
Lemma dec_map_iso8859_11 : decodes enc_iso8859_11 (stands_for map_iso8859_11).
Proof. exact (decodes_intro _ _ (proj2 dec_iso8859_11) inv0_0 leads_iso8859_11 _ ltac:(vm_cast_no_check (eq_refl true)) _ _ _ eq_refl). Qed.
Lemma enc_map_iso8859_11 : encodes enc_iso8859_11 (maps_to map_iso8859_11 irr_iso8859_11).
Proof. apply (encodes_intro _ _ _ iso8859_11_wctomb ivs_iso8859_11 _ _ eq_refl); [enc_outside|vm_cast_no_check (eq_refl true)]. Qed.
Definition leads_iso8859_13 : list (list Z) := [[]].
Definition ivs_iso8859_13 : ranges := [(0, 0x180); (0x2018, 0x2020)].
Lemma dec_map_iso8859_13 : decodes enc_iso8859_13 (stands_for map_iso8859_13).
Proof. exact (decodes_intro _ _ (proj2 dec_iso8859_13) inv0_0 leads_iso8859_13 _ ltac:(vm_cast_no_check (eq_refl true)) _ _ _ eq_refl). Qed.
Lemma enc_map_iso8859_13 : encodes enc_iso8859_13 (maps_to map_iso8859_13 irr_iso8859_13).
Proof. apply (encodes_intro _ _ _ iso8859_13_wctomb ivs_iso8859_13 _ _ eq_refl); [enc_outside|vm_cast_no_check (eq_refl true)]. Qed.
Definition leads_iso8859_14 : list (list Z) := [[]].
Definition ivs_iso8859_14 : ranges := [(0, 0x100); (0x108, 0x128); (0x170, 0x180); (0x1e00, 0x1e88); (0x1ef0, 0x1ef8)].
Lemma dec_map_iso8859_14 : decodes enc_iso8859_14 (stands_for map_iso8859_14).
Proof. exact (decodes_intro _ _ (proj2 dec_iso8859_14) inv0_0 leads_iso8859_14 _ ltac:(vm_cast_no_check (eq_refl true)) _ _ _ eq_refl). Qed.
Lemma enc_map_iso8859_14 : encodes enc_iso8859_14 (maps_to map_iso8859_14 irr_iso8859_14).
Proof. apply (encodes_intro _ _ _ iso8859_14_wctomb ivs_iso8859_14 _ _ eq_refl); [enc_outside|vm_cast_no_check (eq_refl true)]. Qed.
Definition leads_iso8859_15 : list (list Z) := [[]].
Definition ivs_iso8859_15 : ranges := [(0, 0x100); (0x150, 0x180); (0x20ac, 0x20ad)].
Lemma dec_map_iso8859_15 : decodes enc_iso8859_15 (stands_for map_iso8859_15).
Proof. exact (decodes_intro _ _ (proj2 dec_iso8859_15) inv0_0 leads_iso8859_15 _ ltac:(vm_cast_no_check (eq_refl true)) _ _ _ eq_refl). Qed.
Lemma enc_map_iso8859_15 : encodes enc_iso8859_15 (maps_to map_iso8859_15 irr_iso8859_15).
Proof. apply (encodes_intro _ _ _ iso8859_15_wctomb ivs_iso8859_15 _ _ eq_refl); [enc_outside|vm_cast_no_check (eq_refl true)]. Qed.
Definition leads_iso8859_16 : list (list Z) := [[]].
Definition ivs_iso8859_16 : ranges := [(0, 0x180); (0x218, 0x220); (0x2018, 0x2020); (0x20ac, 0x20ad)].
Lemma dec_map_iso8859_16 : decodes enc_iso8859_16 (stands_for map_iso8859_16).
Proof. exact (decodes_intro _ _ (proj2 dec_iso8859_16) inv0_0 leads_iso8859_16 _ ltac:(vm_cast_no_check (eq_refl true)) _ _ _ eq_refl). Qed.
Lemma enc_map_iso8859_16 : encodes enc_iso8859_16 (maps_to map_iso8859_16 irr_iso8859_16).
Proof. apply (encodes_intro _ _ _ iso8859_16_wctomb ivs_iso8859_16 _ _ eq_refl); [enc_outside|vm_cast_no_check (eq_refl true)]. Qed.
Definition leads_koi8_r : list (list Z) := [[]].
Definition ivs_koi8_r : ranges := [(0, 0x80); (0xa0, 0xf8); (0x400, 0x458); (0x2218, 0x2268); (0x2320, 0x2328); (0x2500, 0x25a8)].
Lemma dec_map_koi8_r : decodes enc_koi8_r (stands_for map_koi8_r).
Proof. exact (decodes_intro _ _ (proj2 dec_koi8_r) inv0_0 leads_koi8_r _ ltac:(vm_cast_no_check (eq_refl true)) _ _ _ eq_refl). Qed.
Lemma enc_map_koi8_r : encodes enc_koi8_r (maps_to map_koi8_r irr_koi8_r).
Proof. apply (encodes_intro _ _ _ koi8_r_wctomb ivs_koi8_r _ _ eq_refl); [enc_outside|vm_cast_no_check (eq_refl true)]. Qed.
Definition leads_koi8_u : list (list Z) := [[]].
Definition ivs_koi8_u : ranges := [(0, 0x80); (0xa0, 0xf8); (0x400, 0x498); (0x2218, 0x2268); (0x2320, 0x2328); (0x2500, 0x25a8)].
Lemma dec_map_koi8_u : decodes enc_koi8_u (stands_for map_koi8_u).
Proof. exact (decodes_intro _ _ (proj2 dec_koi8_u) inv0_0 leads_koi8_u _ ltac:(vm_cast_no_check (eq_refl true)) _ _ _ eq_refl). Qed.
Lemma enc_map_koi8_u : encodes enc_koi8_u (maps_to map_koi8_u irr_koi8_u).
Proof. apply (encodes_intro _ _ _ koi8_u_wctomb ivs_koi8_u _ _ eq_refl); [enc_outside|vm_cast_no_check (eq_refl true)]. Qed.
Definition leads_koi8_ru : list (list Z) := [[]].
Definition ivs_koi8_ru : ranges := [(0, 0x80); (0xa0, 0xf8); (0x400, 0x498); (0x2218, 0x2268); (0x2320, 0x2328); (0x2500, 0x25a8)].
Lemma dec_map_koi8_ru : decodes enc_koi8_ru (stands_for map_koi8_ru).
Proof. exact (decodes_intro _ _ (proj2 dec_koi8_ru) inv0_0 leads_koi8_ru _ ltac:(vm_cast_no_check (eq_refl true)) _ _ _ eq_refl). Qed.
Lemma enc_map_koi8_ru : encodes enc_koi8_ru (maps_to map_koi8_ru irr_koi8_ru).
Proof. apply (encodes_intro _ _ _ koi8_ru_wctomb ivs_koi8_ru _ _ eq_refl); [enc_outside|vm_cast_no_check (eq_refl true)]. Qed.
Definition leads_cp1250 : list (list Z) := [[]].
Definition ivs_cp1250 : ranges := [(0, 0x80); (0xa0, 0x180); (0x2c0, 0x2e0); (0x2010, 0x2040); (0x20ac, 0x20ad); (0x2122, 0x2123)].
Lemma dec_map_cp1250 : decodes enc_cp1250 (stands_for map_cp1250).
Proof. exact (decodes_intro _ _ (proj2 dec_cp1250) inv0_0 leads_cp1250 _ ltac:(vm_cast_no_check (eq_refl true)) _ _ _ eq_refl). Qed.
Lemma enc_map_cp1250 : encodes enc_cp1250 (maps_to map_cp1250 irr_cp1250).
Proof. apply (encodes_intro _ _ _ cp1250_wctomb ivs_cp1250 _ _ eq_refl); [enc_outside|vm_cast_no_check (eq_refl true)]. Qed.
Definition leads_cp1251 : list (list Z) := [[]].
Definition ivs_cp1251 : ranges := [(0, 0x80); (0xa0, 0xc0); (0x400, 0x498); (0x2010, 0x2040); (0x20ac, 0x20ad); (0x2116, 0x2117); (0x2122, 0x2123)].
Lemma dec_map_cp1251 : decodes enc_cp1251 (stands_for map_cp1251).
Proof. exact (decodes_intro _ _ (proj2 dec_cp1251) inv0_0 leads_cp1251 _ ltac:(vm_cast_no_check (eq_refl true)) _ _ _ eq_refl). Qed.
Lemma enc_map_cp1251 : encodes enc_cp1251 (maps_to map_cp1251 irr_cp1251).
Proof. apply (encodes_intro _ _ _ cp1251_wctomb ivs_cp1251 _ _ eq_refl); [enc_outside|vm_cast_no_check (eq_refl true)]. Qed.
Definition leads_cp1252 : list (list Z) := [[]].
Definition ivs_cp1252 : ranges := [(0, 0x80); (0xa0, 0x100); (0x150, 0x198); (0x2c0, 0x2e0); (0x2010, 0x2040); (0x20ac, 0x20ad); (0x2122, 0x2123)].
Lemma dec_map_cp1252 : decodes enc_cp1252 (stands_for map_cp1252).
Proof. exact (decodes_intro _ _ (proj2 dec_cp1252) inv0_0 leads_cp1252 _ ltac:(vm_cast_no_check (eq_refl true)) _ _ _ eq_refl). Qed.
Lemma enc_map_cp1252 : encodes enc_cp1252 (maps_to map_cp1252 irr_cp1252).
Proof. apply (encodes_intro _ _ _ cp1252_wctomb ivs_cp1252 _ _ eq_refl); [enc_outside|vm_cast_no_check (eq_refl true)]. Qed.
Definition leads_cp1253 : list (list Z) := [[]].
Definition ivs_cp1253 : ranges := [(0, 0x80); (0xa0, 0xc0); (0x192, 0x193); (0x380, 0x3d0); (0x2010, 0x2040); (0x20ac, 0x20ad); (0x2122, 0x2123)].
Lemma dec_map_cp1253 : decodes enc_cp1253 (stands_for map_cp1253).
Proof. exact (decodes_intro _ _ (proj2 dec_cp1253) inv0_0 leads_cp1253 _ ltac:(vm_cast_no_check (eq_refl true)) _ _ _ eq_refl). Qed.
Lemma enc_map_cp1253 : encodes enc_cp1253 (maps_to map_cp1253 irr_cp1253).
Proof. apply (encodes_intro _ _ _ cp1253_wctomb ivs_cp1253 _ _ eq_refl); [enc_outside|vm_cast_no_check (eq_refl true)]. Qed.
Definition leads_cp1254 : list (list Z) := [[]].
Definition ivs_cp1254 : ranges := [(0, 0x80); (0xa0, 0x100); (0x118, 0x198); (0x2c0, 0x2e0); (0x2010, 0x2040); (0x20ac, 0x20ad); (0x2122, 0x2123)].
Lemma dec_map_cp1254 : decodes enc_cp1254 (stands_for map_cp1254).
Proof. exact (decodes_intro _ _ (proj2 dec_cp1254) inv0_0 leads_cp1254 _ ltac:(vm_cast_no_check (eq_refl true)) _ _ _ eq_refl). Qed.
Lemma enc_map_cp1254 : encodes enc_cp1254 (maps_to map_cp1254 irr_cp1254).
Proof. apply (encodes_intro _ _ _ cp1254_wctomb ivs_cp1254 _ _ eq_refl); [enc_outside|vm_cast_no_check (eq_refl true)]. Qed.
Definition leads_cp1256 : list (list Z) := [[]].
Definition ivs_cp1256 : ranges := [(0, 0x80); (0xa0, 0x100); (0x150, 0x198); (0x2c6, 0x2c7); (0x608, 0x6d8); (0x2008, 0x2040); (0x20ac, 0x20ad); (0x2122, 0x2123)].
Lemma dec_map_cp1256 : decodes enc_cp1256 (stands_for map_cp1256).
Proof. exact (decodes_intro _ _ (proj2 dec_cp1256) inv0_0 leads_cp1256 _ ltac:(vm_cast_no_check (eq_refl true)) _ _ _ eq_refl). Qed.
Lemma enc_map_cp1256 : encodes enc_cp1256 (maps_to map_cp1256 irr_cp1256).
Proof. apply (encodes_intro _ _ _ cp1256_wctomb ivs_cp1256 _ _ eq_refl); [enc_outside|vm_cast_no_check (eq_refl true)]. Qed.
Definition leads_cp1257 : list (list Z) := [[]].
Definition ivs_cp1257 : ranges := [(0, 0x80); (0xa0, 0x180); (0x2c0, 0x2e0); (0x2010, 0x2040); (0x20ac, 0x20ad); (0x2122, 0x2123)].
Lemma dec_map_cp1257 : decodes enc_cp1257 (stands_for map_cp1257).
Proof. exact (decodes_intro _ _ (proj2 dec_cp1257) inv0_0 leads_cp1257 _ ltac:(vm_cast_no_check (eq_refl true)) _ _ _ eq_refl). Qed.
Lemma enc_map_cp1257 : encodes enc_cp1257 (maps_to map_cp1257 irr_cp1257).
Proof. apply (encodes_intro _ _ _ cp1257_wctomb ivs_cp1257 _ _ eq_refl); [enc_outside|vm_cast_no_check (eq_refl true)]. Qed.
Definition leads_cp850 : list (list Z) := [[]].
Definition ivs_cp850 : ranges := [(0, 0x80); (0xa0, 0x100); (0x131, 0x132); (0x192, 0x193); (0x2017, 0x2018); (0x2500, 0x25a8)].
Lemma dec_map_cp850 : decodes enc_cp850 (stands_for map_cp850).
Proof. exact (decodes_intro _ _ (proj2 dec_cp850) inv0_0 leads_cp850 _ ltac:(vm_cast_no_check (eq_refl true)) _ _ _ eq_refl). Qed.
Lemma enc_map_cp850 : encodes enc_cp850 (maps_to map_cp850 irr_cp850).
Proof. apply (encodes_intro _ _ _ cp850_wctomb ivs_cp850 _ _ eq_refl); [enc_outside|vm_cast_no_check (eq_refl true)]. Qed.
Definition leads_cp862 : list (list Z) := [[]].
Definition ivs_cp862 : ranges := [(0, 0x80); (0xa0, 0x100); (0x192, 0x193); (0x390, 0x3c8); (0x5d0, 0x5eb); (0x207f, 0x2080); (0x20a7, 0x20a8); (0x2218, 0x2268); (0x2310, 0x2311);
   (0x2320, 0x2322); (0x2500, 0x25a8)].
Lemma dec_map_cp862 : decodes enc_cp862 (stands_for map_cp862).
Proof. exact (decodes_intro _ _ (proj2 dec_cp862) inv0_0 leads_cp862 _ ltac:(vm_cast_no_check (eq_refl true)) _ _ _ eq_refl). Qed.
Lemma enc_map_cp862 : encodes enc_cp862 (maps_to map_cp862 irr_cp862).
Proof. apply (encodes_intro _ _ _ cp862_wctomb ivs_cp862 _ _ eq_refl); [enc_outside|vm_cast_no_check (eq_refl true)]. Qed.
Definition leads_cp866 : list (list Z) := [[]].
Definition ivs_cp866 : ranges := [(0, 0x80); (0xa0, 0xb8); (0x400, 0x460); (0x2116, 0x2117); (0x2218, 0x2220); (0x2500, 0x25a8)].
Lemma dec_map_cp866 : decodes enc_cp866 (stands_for map_cp866).
Proof. exact (decodes_intro _ _ (proj2 dec_cp866) inv0_0 leads_cp866 _ ltac:(vm_cast_no_check (eq_refl true)) _ _ _ eq_refl). Qed.
Lemma enc_map_cp866 : encodes enc_cp866 (maps_to map_cp866 irr_cp866).
Proof. apply (encodes_intro _ _ _ cp866_wctomb ivs_cp866 _ _ eq_refl); [enc_outside|vm_cast_no_check (eq_refl true)]. Qed.
Definition leads_cp1131 : list (list Z) := [[]].
Definition ivs_cp1131 : ranges := [(0, 0x80); (0xa0, 0xb8); (0x400, 0x498); (0x2219, 0x221a); (0x2500, 0x2598)].
Lemma dec_map_cp1131 : decodes enc_cp1131 (stands_for map_cp1131).
Proof. exact (decodes_intro _ _ (proj2 dec_cp1131) inv0_0 leads_cp1131 _ ltac:(vm_cast_no_check (eq_refl true)) _ _ _ eq_refl). Qed.
Lemma enc_map_cp1131 : encodes enc_cp1131 (maps_to map_cp1131 irr_cp1131).
Proof. apply (encodes_intro _ _ _ cp1131_wctomb ivs_cp1131 _ _ eq_refl); [enc_outside|vm_cast_no_check (eq_refl true)]. Qed.
Definition leads_mac_roman : list (list Z) := [[]].
Definition ivs_mac_roman : ranges := [(0, 0x80); (0xa0, 0x100); (0x130, 0x198); (0x2c0, 0x2e0); (0x3c0, 0x3c1); (0x2010, 0x2048); (0x2120, 0x2128); (0x2200, 0x2268); (0x25ca, 0x25cb);
   (0xfb00, 0xfb08)].
Lemma dec_map_mac_roman : decodes enc_mac_roman (stands_for map_mac_roman).
Proof. exact (decodes_intro _ _ (proj2 dec_mac_roman) inv0_0 leads_mac_roman _ ltac:(vm_cast_no_check (eq_refl true)) _ _ _ eq_refl). Qed.
Lemma enc_map_mac_roman : encodes enc_mac_roman (maps_to map_mac_roman irr_mac_roman).
Proof. apply (encodes_intro _ _ _ mac_roman_wctomb ivs_mac_roman _ _ eq_refl); [enc_outside|vm_cast_no_check (eq_refl true)]. Qed.
Definition leads_mac_centraleurope : list (list Z) := [[]].
Definition ivs_mac_centraleurope : ranges := [(0, 0x80); (0xa0, 0x180); (0x2c7, 0x2c8); (0x2010, 0x2040); (0x2122, 0x2123); (0x2200, 0x2220); (0x2260, 0x2268); (0x25ca, 0x25cb)].
Lemma dec_map_mac_centraleurope : decodes enc_mac_centraleurope (stands_for map_mac_centraleurope).
Proof. exact (decodes_intro _ _ (proj2 dec_mac_centraleurope) inv0_0 leads_mac_centraleurope _ ltac:(vm_cast_no_check (eq_refl true)) _ _ _ eq_refl). Qed.
Lemma enc_map_mac_centraleurope : encodes enc_mac_centraleurope (maps_to map_mac_centraleurope irr_mac_centraleurope).
Proof. apply (encodes_intro _ _ _ mac_centraleurope_wctomb ivs_mac_centraleurope _ _ eq_refl); [enc_outside|vm_cast_no_check (eq_refl true)]. Qed.
Definition leads_mac_iceland : list (list Z) := [[]].
Definition ivs_mac_iceland : ranges := [(0, 0x80); (0xa0, 0x100); (0x130, 0x198); (0x2c0, 0x2e0); (0x3c0, 0x3c1); (0x2010, 0x2048); (0x2120, 0x2128); (0x2200, 0x2268); (0x25ca, 0x25cb)].
Lemma dec_map_mac_iceland : decodes enc_mac_iceland (stands_for map_mac_iceland).
Proof. exact (decodes_intro _ _ (proj2 dec_mac_iceland) inv0_0 leads_mac_iceland _ ltac:(vm_cast_no_check (eq_refl true)) _ _ _ eq_refl). Qed.
Lemma enc_map_mac_iceland : encodes enc_mac_iceland (maps_to map_mac_iceland irr_mac_iceland).
Proof. apply (encodes_intro _ _ _ mac_iceland_wctomb ivs_mac_iceland _ _ eq_refl); [enc_outside|vm_cast_no_check (eq_refl true)]. Qed.
Definition leads_mac_croatian : list (list Z) := [[]].
Definition ivs_mac_croatian : ranges := [(0, 0x80); (0xa0, 0x198); (0x2c0, 0x2e0); (0x3c0, 0x3c1); (0x2010, 0x2048); (0x2120, 0x2128); (0x2200, 0x2268); (0x25ca, 0x25cb)].
Lemma dec_map_mac_croatian : decodes enc_mac_croatian (stands_for map_mac_croatian).
Proof. exact (decodes_intro _ _ (proj2 dec_mac_croatian) inv0_0 leads_mac_croatian _ ltac:(vm_cast_no_check (eq_refl true)) _ _ _ eq_refl). Qed.
Lemma enc_map_mac_croatian : encodes enc_mac_croatian (maps_to map_mac_croatian irr_mac_croatian).
Proof. apply (encodes_intro _ _ _ mac_croatian_wctomb ivs_mac_croatian _ _ eq_refl); [enc_outside|vm_cast_no_check (eq_refl true)]. Qed.
Definition leads_mac_romania : list (list Z) := [[]].
Definition ivs_mac_romania : ranges := [(0, 0x80); (0xa0, 0x198); (0x2c0, 0x2e0); (0x3c0, 0x3c1); (0x2010, 0x2048); (0x2120, 0x2128); (0x2200, 0x2268); (0x25ca, 0x25cb)].
Lemma dec_map_mac_romania : decodes enc_mac_romania (stands_for map_mac_romania).
Proof. exact (decodes_intro _ _ (proj2 dec_mac_romania) inv0_0 leads_mac_romania _ ltac:(vm_cast_no_check (eq_refl true)) _ _ _ eq_refl). Qed.
Lemma enc_map_mac_romania : encodes enc_mac_romania (maps_to map_mac_romania irr_mac_romania).
Proof. apply (encodes_intro _ _ _ mac_romania_wctomb ivs_mac_romania _ _ eq_refl); [enc_outside|vm_cast_no_check (eq_refl true)]. Qed.
Definition maps_sb1 : list (Z * charmap * pairs) :=
 [(ei_ascii, map_ascii, irr_ascii);
  (ei_iso8859_1, map_iso8859_1, irr_iso8859_1);
  (ei_iso8859_2, map_iso8859_2, irr_iso8859_2);
  (ei_iso8859_3, map_iso8859_3, irr_iso8859_3);
  (ei_iso8859_4, map_iso8859_4, irr_iso8859_4);
  (ei_iso8859_5, map_iso8859_5, irr_iso8859_5);
  (ei_iso8859_6, map_iso8859_6, irr_iso8859_6);
  (ei_iso8859_7, map_iso8859_7, irr_iso8859_7);
  (ei_iso8859_8, map_iso8859_8, irr_iso8859_8);
  (ei_iso8859_9, map_iso8859_9, irr_iso8859_9);
  (ei_iso8859_10, map_iso8859_10, irr_iso8859_10);
  (ei_iso8859_11, map_iso8859_11, irr_iso8859_11);
  (ei_iso8859_13, map_iso8859_13, irr_iso8859_13);
  (ei_iso8859_14, map_iso8859_14, irr_iso8859_14);
  (ei_iso8859_15, map_iso8859_15, irr_iso8859_15);
  (ei_iso8859_16, map_iso8859_16, irr_iso8859_16);
  (ei_koi8_r, map_koi8_r, irr_koi8_r);
  (ei_koi8_u, map_koi8_u, irr_koi8_u);
  (ei_koi8_ru, map_koi8_ru, irr_koi8_ru);
  (ei_cp1250, map_cp1250, irr_cp1250);
  (ei_cp1251, map_cp1251, irr_cp1251);
  (ei_cp1252, map_cp1252, irr_cp1252);
  (ei_cp1253, map_cp1253, irr_cp1253);
  (ei_cp1254, map_cp1254, irr_cp1254);
  (ei_cp1256, map_cp1256, irr_cp1256);
  (ei_cp1257, map_cp1257, irr_cp1257);
  (ei_cp850, map_cp850, irr_cp850);
  (ei_cp862, map_cp862, irr_cp862);
  (ei_cp866, map_cp866, irr_cp866);
  (ei_cp1131, map_cp1131, irr_cp1131);
  (ei_mac_roman, map_mac_roman, irr_mac_roman);
  (ei_mac_centraleurope, map_mac_centraleurope, irr_mac_centraleurope);
  (ei_mac_iceland, map_mac_iceland, irr_mac_iceland);
  (ei_mac_croatian, map_mac_croatian, irr_mac_croatian);
  (ei_mac_romania, map_mac_romania, irr_mac_romania)].
Lemma maps_sb1_ok : Forall table_ok maps_sb1.
Proof.
  repeat apply Forall_cons; [exact (ex_intro _ enc_ascii (conj eq_refl (conj dec_map_ascii enc_map_ascii))) |
   exact (ex_intro _ enc_iso8859_1 (conj eq_refl (conj dec_map_iso8859_1 enc_map_iso8859_1))) |
   exact (ex_intro _ enc_iso8859_2 (conj eq_refl (conj dec_map_iso8859_2 enc_map_iso8859_2))) |
   exact (ex_intro _ enc_iso8859_3 (conj eq_refl (conj dec_map_iso8859_3 enc_map_iso8859_3))) |
   exact (ex_intro _ enc_iso8859_4 (conj eq_refl (conj dec_map_iso8859_4 enc_map_iso8859_4))) |
   exact (ex_intro _ enc_iso8859_5 (conj eq_refl (conj dec_map_iso8859_5 enc_map_iso8859_5))) |
   exact (ex_intro _ enc_iso8859_6 (conj eq_refl (conj dec_map_iso8859_6 enc_map_iso8859_6))) |
   exact (ex_intro _ enc_iso8859_7 (conj eq_refl (conj dec_map_iso8859_7 enc_map_iso8859_7))) |
   exact (ex_intro _ enc_iso8859_8 (conj eq_refl (conj dec_map_iso8859_8 enc_map_iso8859_8))) |
   exact (ex_intro _ enc_iso8859_9 (conj eq_refl (conj dec_map_iso8859_9 enc_map_iso8859_9))) |
   exact (ex_intro _ enc_iso8859_10 (conj eq_refl (conj dec_map_iso8859_10 enc_map_iso8859_10))) |
   exact (ex_intro _ enc_iso8859_11 (conj eq_refl (conj dec_map_iso8859_11 enc_map_iso8859_11))) |
   exact (ex_intro _ enc_iso8859_13 (conj eq_refl (conj dec_map_iso8859_13 enc_map_iso8859_13))) |
   exact (ex_intro _ enc_iso8859_14 (conj eq_refl (conj dec_map_iso8859_14 enc_map_iso8859_14))) |
   exact (ex_intro _ enc_iso8859_15 (conj eq_refl (conj dec_map_iso8859_15 enc_map_iso8859_15))) |
   exact (ex_intro _ enc_iso8859_16 (conj eq_refl (conj dec_map_iso8859_16 enc_map_iso8859_16))) |
   exact (ex_intro _ enc_koi8_r (conj eq_refl (conj dec_map_koi8_r enc_map_koi8_r))) |
   exact (ex_intro _ enc_koi8_u (conj eq_refl (conj dec_map_koi8_u enc_map_koi8_u))) |
   exact (ex_intro _ enc_koi8_ru (conj eq_refl (conj dec_map_koi8_ru enc_map_koi8_ru))) |
   exact (ex_intro _ enc_cp1250 (conj eq_refl (conj dec_map_cp1250 enc_map_cp1250))) |
   exact (ex_intro _ enc_cp1251 (conj eq_refl (conj dec_map_cp1251 enc_map_cp1251))) |
   exact (ex_intro _ enc_cp1252 (conj eq_refl (conj dec_map_cp1252 enc_map_cp1252))) |
   exact (ex_intro _ enc_cp1253 (conj eq_refl (conj dec_map_cp1253 enc_map_cp1253))) |
   exact (ex_intro _ enc_cp1254 (conj eq_refl (conj dec_map_cp1254 enc_map_cp1254))) |
   exact (ex_intro _ enc_cp1256 (conj eq_refl (conj dec_map_cp1256 enc_map_cp1256))) |
   exact (ex_intro _ enc_cp1257 (conj eq_refl (conj dec_map_cp1257 enc_map_cp1257))) |
   exact (ex_intro _ enc_cp850 (conj eq_refl (conj dec_map_cp850 enc_map_cp850))) |
   exact (ex_intro _ enc_cp862 (conj eq_refl (conj dec_map_cp862 enc_map_cp862))) |
   exact (ex_intro _ enc_cp866 (conj eq_refl (conj dec_map_cp866 enc_map_cp866))) |
   exact (ex_intro _ enc_cp1131 (conj eq_refl (conj dec_map_cp1131 enc_map_cp1131))) |
   exact (ex_intro _ enc_mac_roman (conj eq_refl (conj dec_map_mac_roman enc_map_mac_roman))) |
   exact (ex_intro _ enc_mac_centraleurope (conj eq_refl (conj dec_map_mac_centraleurope enc_map_mac_centraleurope))) |
   exact (ex_intro _ enc_mac_iceland (conj eq_refl (conj dec_map_mac_iceland enc_map_mac_iceland))) |
   exact (ex_intro _ enc_mac_croatian (conj eq_refl (conj dec_map_mac_croatian enc_map_mac_croatian))) |
   exact (ex_intro _ enc_mac_romania (conj eq_refl (conj dec_map_mac_romania enc_map_mac_romania)))|apply Forall_nil].
Qed.
