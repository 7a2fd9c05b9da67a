(** The converters agree with the charmaps; generated by tools/gencharmap.py. *)
From Coq Require Import ZArith List Bool Lia.
From Verif Require Import Base Loop Contract LoopLib DecLib Spec Sx Indexes Conv_uni Conv_sb Conv_ebcdic Ok_eb1 Ok_sb4 Encodings Charmap CharLib Maps_sb3.
Import ListNotations.
Open Scope Z_scope.
Definition leads_cp853 : list (list Z) := [[]].
Definition ivs_cp853 : ranges := [(0, 0x80); (0xa0, 0x100); (0x108, 0x180); (0x2d8, 0x2e0); (0x2113, 0x2114); (0x2500, 0x25a8)].
Lemma dec_map_cp853 : decodes enc_cp853 (stands_for map_cp853).
Proof. exact (decodes_intro _ _ (proj2 dec_cp853) inv0_0 leads_cp853 _ ltac:(vm_cast_no_check (eq_refl true)) _ _ _ eq_refl). Qed.
Lemma enc_map_cp853 : encodes enc_cp853 (maps_to map_cp853 irr_cp853).
Proof. apply (encodes_intro _ _ _ cp853_wctomb ivs_cp853 _ _ eq_refl); [enc_outside|vm_cast_no_check (eq_refl true)]. Qed.
Definition leads_cp855 : list (list Z) := [[]].
Definition ivs_cp855 : ranges := [(0, 0x80); (0xa0, 0xc0); (0x400, 0x460); (0x2116, 0x2117); (0x2500, 0x25a8)].
Lemma dec_map_cp855 : decodes enc_cp855 (stands_for map_cp855).
Proof. exact (decodes_intro _ _ (proj2 dec_cp855) inv0_0 leads_cp855 _ ltac:(vm_cast_no_check (eq_refl true)) _ _ _ eq_refl). Qed.
Lemma enc_map_cp855 : encodes enc_cp855 (maps_to map_cp855 irr_cp855).
Proof. apply (encodes_intro _ _ _ cp855_wctomb ivs_cp855 _ _ eq_refl); [enc_outside|vm_cast_no_check (eq_refl true)]. Qed.
Definition leads_cp857 : list (list Z) := [[]].
Definition ivs_cp857 : ranges := [(0, 0x80); (0xa0, 0x100); (0x118, 0x160); (0x2500, 0x25a8)].
Lemma dec_map_cp857 : decodes enc_cp857 (stands_for map_cp857).
Proof. exact (decodes_intro _ _ (proj2 dec_cp857) inv0_0 leads_cp857 _ ltac:(vm_cast_no_check (eq_refl true)) _ _ _ eq_refl). Qed.
Lemma enc_map_cp857 : encodes enc_cp857 (maps_to map_cp857 irr_cp857).
Proof. apply (encodes_intro _ _ _ cp857_wctomb ivs_cp857 _ _ eq_refl); [enc_outside|vm_cast_no_check (eq_refl true)]. Qed.
Definition leads_cp858 : list (list Z) := [[]].
Definition ivs_cp858 : ranges := [(0, 0x80); (0xa0, 0x100); (0x192, 0x193); (0x2017, 0x2018); (0x20ac, 0x20ad); (0x2500, 0x25a8)].
Lemma dec_map_cp858 : decodes enc_cp858 (stands_for map_cp858).
Proof. exact (decodes_intro _ _ (proj2 dec_cp858) inv0_0 leads_cp858 _ ltac:(vm_cast_no_check (eq_refl true)) _ _ _ eq_refl). Qed.
Lemma enc_map_cp858 : encodes enc_cp858 (maps_to map_cp858 irr_cp858).
Proof. apply (encodes_intro _ _ _ cp858_wctomb ivs_cp858 _ _ eq_refl); [enc_outside|vm_cast_no_check (eq_refl true)]. Qed.
Definition leads_cp860 : list (list Z) := [[]].
Definition ivs_cp860 : ranges := [(0, 0x80); (0xa0, 0x100); (0x390, 0x3c8); (0x207f, 0x2080); (0x20a7, 0x20a8); (0x2218, 0x2268); (0x2320, 0x2322); (0x2500, 0x25a8)].
Lemma dec_map_cp860 : decodes enc_cp860 (stands_for map_cp860).
Proof. exact (decodes_intro _ _ (proj2 dec_cp860) inv0_0 leads_cp860 _ ltac:(vm_cast_no_check (eq_refl true)) _ _ _ eq_refl). Qed.
Lemma enc_map_cp860 : encodes enc_cp860 (maps_to map_cp860 irr_cp860).
Proof. apply (encodes_intro _ _ _ cp860_wctomb ivs_cp860 _ _ eq_refl); [enc_outside|vm_cast_no_check (eq_refl true)]. Qed.
Definition leads_cp861 : list (list Z) := [[]].
Definition ivs_cp861 : ranges := [(0, 0x80); (0xa0, 0x100); (0x192, 0x193); (0x390, 0x3c8); (0x207f, 0x2080); (0x20a7, 0x20a8); (0x2218, 0x2268); (0x2310, 0x2328); (0x2500, 0x25a8)].
Lemma dec_map_cp861 : decodes enc_cp861 (stands_for map_cp861).
Proof. exact (decodes_intro _ _ (proj2 dec_cp861) inv0_0 leads_cp861 _ ltac:(vm_cast_no_check (eq_refl true)) _ _ _ eq_refl). Qed.
Lemma enc_map_cp861 : encodes enc_cp861 (maps_to map_cp861 irr_cp861).
Proof. apply (encodes_intro _ _ _ cp861_wctomb ivs_cp861 _ _ eq_refl); [enc_outside|vm_cast_no_check (eq_refl true)]. Qed.
Definition leads_cp863 : list (list Z) := [[]].
Definition ivs_cp863 : ranges := [(0, 0x80); (0xa0, 0x100); (0x192, 0x193); (0x390, 0x3c8); (0x2017, 0x2018); (0x207f, 0x2080); (0x2218, 0x2268); (0x2310, 0x2328); (0x2500, 0x25a8)].
Lemma dec_map_cp863 : decodes enc_cp863 (stands_for map_cp863).
Proof. exact (decodes_intro _ _ (proj2 dec_cp863) inv0_0 leads_cp863 _ ltac:(vm_cast_no_check (eq_refl true)) _ _ _ eq_refl). Qed.
Lemma enc_map_cp863 : encodes enc_cp863 (maps_to map_cp863 irr_cp863).
Proof. apply (encodes_intro _ _ _ cp863_wctomb ivs_cp863 _ _ eq_refl); [enc_outside|vm_cast_no_check (eq_refl true)]. Qed.
Definition leads_cp864 : list (list Z) := [[]].
Definition ivs_cp864 : ranges := [(0, 0x80); (0xa0, 0xf8); (0x3b2, 0x3b3); (0x3c6, 0x3c7); (0x608, 0x670); (0x2218, 0x2250); (0x2500, 0x2540); (0x2592, 0x2593); (0x25a0, 0x25a1);
   (0xfe78, 0xff00)].
Lemma dec_map_cp864 : decodes enc_cp864 (stands_for map_cp864).
Proof. exact (decodes_intro _ _ (proj2 dec_cp864) inv0_0 leads_cp864 _ ltac:(vm_cast_no_check (eq_refl true)) _ _ _ eq_refl). Qed.
Lemma enc_map_cp864 : encodes enc_cp864 (maps_to map_cp864 irr_cp864).
Proof. apply (encodes_intro _ _ _ cp864_wctomb ivs_cp864 _ _ eq_refl); [enc_outside|vm_cast_no_check (eq_refl true)]. Qed.
Definition leads_cp865 : list (list Z) := [[]].
Definition ivs_cp865 : ranges := [(0, 0x80); (0xa0, 0x100); (0x192, 0x193); (0x390, 0x3c8); (0x207f, 0x2080); (0x20a7, 0x20a8); (0x2218, 0x2268); (0x2310, 0x2328); (0x2500, 0x25a8)].
Lemma dec_map_cp865 : decodes enc_cp865 (stands_for map_cp865).
Proof. exact (decodes_intro _ _ (proj2 dec_cp865) inv0_0 leads_cp865 _ ltac:(vm_cast_no_check (eq_refl true)) _ _ _ eq_refl). Qed.
Lemma enc_map_cp865 : encodes enc_cp865 (maps_to map_cp865 irr_cp865).
Proof. apply (encodes_intro _ _ _ cp865_wctomb ivs_cp865 _ _ eq_refl); [enc_outside|vm_cast_no_check (eq_refl true)]. Qed.
Definition leads_cp869 : list (list Z) := [[]].
Definition ivs_cp869 : ranges := [(0, 0x80); (0xa0, 0xc0); (0x380, 0x3d0); (0x2010, 0x2020); (0x2500, 0x25a8)].
Lemma dec_map_cp869 : decodes enc_cp869 (stands_for map_cp869).
Proof. exact (decodes_intro _ _ (proj2 dec_cp869) inv0_0 leads_cp869 _ ltac:(vm_cast_no_check (eq_refl true)) _ _ _ eq_refl). Qed.
Lemma enc_map_cp869 : encodes enc_cp869 (maps_to map_cp869 irr_cp869).
Proof. apply (encodes_intro _ _ _ cp869_wctomb ivs_cp869 _ _ eq_refl); [enc_outside|vm_cast_no_check (eq_refl true)]. Qed.
Definition leads_cp1125 : list (list Z) := [[]].
Definition ivs_cp1125 : ranges := [(0, 0x80); (0xa0, 0xb8); (0x400, 0x498); (0x2116, 0x2117); (0x221a, 0x221b); (0x2500, 0x25a8)].
Lemma dec_map_cp1125 : decodes enc_cp1125 (stands_for map_cp1125).
Proof. exact (decodes_intro _ _ (proj2 dec_cp1125) inv0_0 leads_cp1125 _ ltac:(vm_cast_no_check (eq_refl true)) _ _ _ eq_refl). Qed.
Lemma enc_map_cp1125 : encodes enc_cp1125 (maps_to map_cp1125 irr_cp1125).
Proof. apply (encodes_intro _ _ _ cp1125_wctomb ivs_cp1125 _ _ eq_refl); [enc_outside|vm_cast_no_check (eq_refl true)]. Qed.
Definition leads_ebcdic037 : list (list Z) := [[]].
Definition ivs_ebcdic037 : ranges := [(0, 0x100)].
Lemma dec_map_ebcdic037 : decodes enc_ebcdic037 (stands_for map_ebcdic037).
Proof. exact (decodes_intro _ _ (proj2 dec_ebcdic037) inv0_0 leads_ebcdic037 _ ltac:(vm_cast_no_check (eq_refl true)) _ _ _ eq_refl). Qed.
Lemma enc_map_ebcdic037 : encodes enc_ebcdic037 (maps_to map_ebcdic037 irr_ebcdic037).
Proof. apply (encodes_intro _ _ _ ebcdic037_wctomb ivs_ebcdic037 _ _ eq_refl); [enc_outside|vm_cast_no_check (eq_refl true)]. Qed.
Definition leads_ebcdic273 : list (list Z) := [[]].
Definition ivs_ebcdic273 : ranges := [(0, 0x100)].
Lemma dec_map_ebcdic273 : decodes enc_ebcdic273 (stands_for map_ebcdic273).
Proof. exact (decodes_intro _ _ (proj2 dec_ebcdic273) inv0_0 leads_ebcdic273 _ ltac:(vm_cast_no_check (eq_refl true)) _ _ _ eq_refl). Qed.
Lemma enc_map_ebcdic273 : encodes enc_ebcdic273 (maps_to map_ebcdic273 irr_ebcdic273).
Proof. apply (encodes_intro _ _ _ ebcdic273_wctomb ivs_ebcdic273 _ _ eq_refl); [enc_outside|vm_cast_no_check (eq_refl true)]. Qed.
Definition leads_ebcdic277 : list (list Z) := [[]].
Definition ivs_ebcdic277 : ranges := [(0, 0x100)].
Lemma dec_map_ebcdic277 : decodes enc_ebcdic277 (stands_for map_ebcdic277).
Proof. exact (decodes_intro _ _ (proj2 dec_ebcdic277) inv0_0 leads_ebcdic277 _ ltac:(vm_cast_no_check (eq_refl true)) _ _ _ eq_refl). Qed.
Lemma enc_map_ebcdic277 : encodes enc_ebcdic277 (maps_to map_ebcdic277 irr_ebcdic277).
Proof. apply (encodes_intro _ _ _ ebcdic277_wctomb ivs_ebcdic277 _ _ eq_refl); [enc_outside|vm_cast_no_check (eq_refl true)]. Qed.
Definition leads_ebcdic278 : list (list Z) := [[]].
Definition ivs_ebcdic278 : ranges := [(0, 0x100)].
Lemma dec_map_ebcdic278 : decodes enc_ebcdic278 (stands_for map_ebcdic278).
Proof. exact (decodes_intro _ _ (proj2 dec_ebcdic278) inv0_0 leads_ebcdic278 _ ltac:(vm_cast_no_check (eq_refl true)) _ _ _ eq_refl). Qed.
Lemma enc_map_ebcdic278 : encodes enc_ebcdic278 (maps_to map_ebcdic278 irr_ebcdic278).
Proof. apply (encodes_intro _ _ _ ebcdic278_wctomb ivs_ebcdic278 _ _ eq_refl); [enc_outside|vm_cast_no_check (eq_refl true)]. Qed.
Definition leads_ebcdic280 : list (list Z) := [[]].
Definition ivs_ebcdic280 : ranges := [(0, 0x100)].
Lemma dec_map_ebcdic280 : decodes enc_ebcdic280 (stands_for map_ebcdic280).
Proof. exact (decodes_intro _ _ (proj2 dec_ebcdic280) inv0_0 leads_ebcdic280 _ ltac:(vm_cast_no_check (eq_refl true)) _ _ _ eq_refl). Qed.
Lemma enc_map_ebcdic280 : encodes enc_ebcdic280 (maps_to map_ebcdic280 irr_ebcdic280).
Proof. apply (encodes_intro _ _ _ ebcdic280_wctomb ivs_ebcdic280 _ _ eq_refl); [enc_outside|vm_cast_no_check (eq_refl true)]. Qed.
Definition leads_ebcdic282 : list (list Z) := [[]].
Definition ivs_ebcdic282 : ranges := [(0, 0x100)].
Lemma dec_map_ebcdic282 : decodes enc_ebcdic282 (stands_for map_ebcdic282).
Proof. exact (decodes_intro _ _ (proj2 dec_ebcdic282) inv0_0 leads_ebcdic282 _ ltac:(vm_cast_no_check (eq_refl true)) _ _ _ eq_refl). Qed.
Lemma enc_map_ebcdic282 : encodes enc_ebcdic282 (maps_to map_ebcdic282 irr_ebcdic282).
Proof. apply (encodes_intro _ _ _ ebcdic282_wctomb ivs_ebcdic282 _ _ eq_refl); [enc_outside|vm_cast_no_check (eq_refl true)]. Qed.
Definition leads_ebcdic284 : list (list Z) := [[]].
Definition ivs_ebcdic284 : ranges := [(0, 0x100)].
Lemma dec_map_ebcdic284 : decodes enc_ebcdic284 (stands_for map_ebcdic284).
Proof. exact (decodes_intro _ _ (proj2 dec_ebcdic284) inv0_0 leads_ebcdic284 _ ltac:(vm_cast_no_check (eq_refl true)) _ _ _ eq_refl). Qed.
Lemma enc_map_ebcdic284 : encodes enc_ebcdic284 (maps_to map_ebcdic284 irr_ebcdic284).
Proof. apply (encodes_intro _ _ _ ebcdic284_wctomb ivs_ebcdic284 _ _ eq_refl); [enc_outside|vm_cast_no_check (eq_refl true)]. Qed.
Definition leads_ebcdic285 : list (list Z) := [[]].
Definition ivs_ebcdic285 : ranges := [(0, 0x100)].
Lemma dec_map_ebcdic285 : decodes enc_ebcdic285 (stands_for map_ebcdic285).
Proof. exact (decodes_intro _ _ (proj2 dec_ebcdic285) inv0_0 leads_ebcdic285 _ ltac:(vm_cast_no_check (eq_refl true)) _ _ _ eq_refl). Qed.
Lemma enc_map_ebcdic285 : encodes enc_ebcdic285 (maps_to map_ebcdic285 irr_ebcdic285).
Proof. apply (encodes_intro _ _ _ ebcdic285_wctomb ivs_ebcdic285 _ _ eq_refl); [enc_outside|vm_cast_no_check (eq_refl true)]. Qed.
Definition leads_ebcdic297 : list (list Z) := [[]].
Definition ivs_ebcdic297 : ranges := [(0, 0x100)].
Lemma dec_map_ebcdic297 : decodes enc_ebcdic297 (stands_for map_ebcdic297).
Proof. exact (decodes_intro _ _ (proj2 dec_ebcdic297) inv0_0 leads_ebcdic297 _ ltac:(vm_cast_no_check (eq_refl true)) _ _ _ eq_refl). Qed.
Lemma enc_map_ebcdic297 : encodes enc_ebcdic297 (maps_to map_ebcdic297 irr_ebcdic297).
Proof. apply (encodes_intro _ _ _ ebcdic297_wctomb ivs_ebcdic297 _ _ eq_refl); [enc_outside|vm_cast_no_check (eq_refl true)]. Qed.
Definition leads_ebcdic423 : list (list Z) := [[]].
Definition ivs_ebcdic423 : ranges := [(0, 0x100); (0x380, 0x3d0)].
Lemma dec_map_ebcdic423 : decodes enc_ebcdic423 (stands_for map_ebcdic423).
Proof. exact (decodes_intro _ _ (proj2 dec_ebcdic423) inv0_0 leads_ebcdic423 _ ltac:(vm_cast_no_check (eq_refl true)) _ _ _ eq_refl). Qed.
Lemma enc_map_ebcdic423 : encodes enc_ebcdic423 (maps_to map_ebcdic423 irr_ebcdic423).
Proof. apply (encodes_intro _ _ _ ebcdic423_wctomb ivs_ebcdic423 _ _ eq_refl); [enc_outside|vm_cast_no_check (eq_refl true)]. Qed.
Definition leads_ebcdic424 : list (list Z) := [[]].
Definition ivs_ebcdic424 : ranges := [(0, 0xf8); (0x5d0, 0x5f0); (0x2010, 0x2040)].
Lemma dec_map_ebcdic424 : decodes enc_ebcdic424 (stands_for map_ebcdic424).
Proof. exact (decodes_intro _ _ (proj2 dec_ebcdic424) inv0_0 leads_ebcdic424 _ ltac:(vm_cast_no_check (eq_refl true)) _ _ _ eq_refl). Qed.
Lemma enc_map_ebcdic424 : encodes enc_ebcdic424 (maps_to map_ebcdic424 irr_ebcdic424).
Proof. apply (encodes_intro _ _ _ ebcdic424_wctomb ivs_ebcdic424 _ _ eq_refl); [enc_outside|vm_cast_no_check (eq_refl true)]. Qed.
Definition leads_ebcdic425 : list (list Z) := [[]].
Definition ivs_ebcdic425 : ranges := [(0, 0x100); (0x150, 0x180); (0x608, 0x658); (0x2008, 0x2010); (0x20ac, 0x20ad)].
Lemma dec_map_ebcdic425 : decodes enc_ebcdic425 (stands_for map_ebcdic425).
Proof. exact (decodes_intro _ _ (proj2 dec_ebcdic425) inv0_0 leads_ebcdic425 _ ltac:(vm_cast_no_check (eq_refl true)) _ _ _ eq_refl). Qed.
Lemma enc_map_ebcdic425 : encodes enc_ebcdic425 (maps_to map_ebcdic425 irr_ebcdic425).
Proof. apply (encodes_intro _ _ _ ebcdic425_wctomb ivs_ebcdic425 _ _ eq_refl); [enc_outside|vm_cast_no_check (eq_refl true)]. Qed.
Definition leads_ebcdic500 : list (list Z) := [[]].
Definition ivs_ebcdic500 : ranges := [(0, 0x100)].
Lemma dec_map_ebcdic500 : decodes enc_ebcdic500 (stands_for map_ebcdic500).
Proof. exact (decodes_intro _ _ (proj2 dec_ebcdic500) inv0_0 leads_ebcdic500 _ ltac:(vm_cast_no_check (eq_refl true)) _ _ _ eq_refl). Qed.
Lemma enc_map_ebcdic500 : encodes enc_ebcdic500 (maps_to map_ebcdic500 irr_ebcdic500).
Proof. apply (encodes_intro _ _ _ ebcdic500_wctomb ivs_ebcdic500 _ _ eq_refl); [enc_outside|vm_cast_no_check (eq_refl true)]. Qed.
Definition leads_ebcdic838 : list (list Z) := [[]].
Definition ivs_ebcdic838 : ranges := [(0, 0xb0); (0xe00, 0xe60)].
Lemma dec_map_ebcdic838 : decodes enc_ebcdic838 (stands_for map_ebcdic838).
Proof. exact (decodes_intro _ _ (proj2 dec_ebcdic838) inv0_0 leads_ebcdic838 _ ltac:(vm_cast_no_check (eq_refl true)) _ _ _ eq_refl). Qed.
Lemma enc_map_ebcdic838 : encodes enc_ebcdic838 (maps_to map_ebcdic838 irr_ebcdic838).
Proof. apply (encodes_intro _ _ _ ebcdic838_wctomb ivs_ebcdic838 _ _ eq_refl); [enc_outside|vm_cast_no_check (eq_refl true)]. Qed.
Definition leads_ebcdic870 : list (list Z) := [[]].
Definition ivs_ebcdic870 : ranges := [(0, 0x180); (0x2c0, 0x2e0)].
Lemma dec_map_ebcdic870 : decodes enc_ebcdic870 (stands_for map_ebcdic870).
Proof. exact (decodes_intro _ _ (proj2 dec_ebcdic870) inv0_0 leads_ebcdic870 _ ltac:(vm_cast_no_check (eq_refl true)) _ _ _ eq_refl). Qed.
Lemma enc_map_ebcdic870 : encodes enc_ebcdic870 (maps_to map_ebcdic870 irr_ebcdic870).
Proof. apply (encodes_intro _ _ _ ebcdic870_wctomb ivs_ebcdic870 _ _ eq_refl); [enc_outside|vm_cast_no_check (eq_refl true)]. Qed.
Definition leads_ebcdic871 : list (list Z) := [[]].
Definition ivs_ebcdic871 : ranges := [(0, 0x100)].
Lemma dec_map_ebcdic871 : decodes enc_ebcdic871 (stands_for map_ebcdic871).
Proof. exact (decodes_intro _ _ (proj2 dec_ebcdic871) inv0_0 leads_ebcdic871 _ ltac:(vm_cast_no_check (eq_refl true)) _ _ _ eq_refl). Qed.
Lemma enc_map_ebcdic871 : encodes enc_ebcdic871 (maps_to map_ebcdic871 irr_ebcdic871).
Proof. apply (encodes_intro _ _ _ ebcdic871_wctomb ivs_ebcdic871 _ _ eq_refl); [enc_outside|vm_cast_no_check (eq_refl true)]. Qed.
Definition leads_ebcdic875 : list (list Z) := [[]].
Definition ivs_ebcdic875 : ranges := [(0, 0xc0); (0x380, 0x3d0); (0x2010, 0x2020)].
Lemma dec_map_ebcdic875 : decodes enc_ebcdic875 (stands_for map_ebcdic875).
Proof. exact (decodes_intro _ _ (proj2 dec_ebcdic875) inv0_0 leads_ebcdic875 _ ltac:(vm_cast_no_check (eq_refl true)) _ _ _ eq_refl). Qed.
Lemma enc_map_ebcdic875 : encodes enc_ebcdic875 (maps_to map_ebcdic875 irr_ebcdic875).
Proof. apply (encodes_intro _ _ _ ebcdic875_wctomb ivs_ebcdic875 _ _ eq_refl); [enc_outside|vm_cast_no_check (eq_refl true)]. Qed.
Definition leads_ebcdic880 : list (list Z) := [[]].
Definition ivs_ebcdic880 : ranges := [(0, 0xb0); (0x400, 0x460); (0x2116, 0x2117)].
Lemma dec_map_ebcdic880 : decodes enc_ebcdic880 (stands_for map_ebcdic880).
Proof. exact (decodes_intro _ _ (proj2 dec_ebcdic880) inv0_0 leads_ebcdic880 _ ltac:(vm_cast_no_check (eq_refl true)) _ _ _ eq_refl). Qed.
Lemma enc_map_ebcdic880 : encodes enc_ebcdic880 (maps_to map_ebcdic880 irr_ebcdic880).
Proof. apply (encodes_intro _ _ _ ebcdic880_wctomb ivs_ebcdic880 _ _ eq_refl); [enc_outside|vm_cast_no_check (eq_refl true)]. Qed.
Definition leads_ebcdic905 : list (list Z) := [[]].
Definition ivs_ebcdic905 : ranges := [(0, 0x100); (0x108, 0x180); (0x2d8, 0x2e0)].
Lemma dec_map_ebcdic905 : decodes enc_ebcdic905 (stands_for map_ebcdic905).
Proof. exact (decodes_intro _ _ (proj2 dec_ebcdic905) inv0_0 leads_ebcdic905 _ ltac:(vm_cast_no_check (eq_refl true)) _ _ _ eq_refl). Qed.
Lemma enc_map_ebcdic905 : encodes enc_ebcdic905 (maps_to map_ebcdic905 irr_ebcdic905).
Proof. apply (encodes_intro _ _ _ ebcdic905_wctomb ivs_ebcdic905 _ _ eq_refl); [enc_outside|vm_cast_no_check (eq_refl true)]. Qed.
Definition leads_ebcdic924 : list (list Z) := [[]].
Definition ivs_ebcdic924 : ranges := [(0, 0x100); (0x150, 0x180); (0x20ac, 0x20ad)].
Lemma dec_map_ebcdic924 : decodes enc_ebcdic924 (stands_for map_ebcdic924).
Proof. exact (decodes_intro _ _ (proj2 dec_ebcdic924) inv0_0 leads_ebcdic924 _ ltac:(vm_cast_no_check (eq_refl true)) _ _ _ eq_refl). Qed.
Lemma enc_map_ebcdic924 : encodes enc_ebcdic924 (maps_to map_ebcdic924 irr_ebcdic924).
Proof. apply (encodes_intro _ _ _ ebcdic924_wctomb ivs_ebcdic924 _ _ eq_refl); [enc_outside|vm_cast_no_check (eq_refl true)]. Qed.
Definition leads_ebcdic1025 : list (list Z) := [[]].
Definition ivs_ebcdic1025 : ranges := [(0, 0xb0); (0x400, 0x460); (0x2116, 0x2117)].
Lemma dec_map_ebcdic1025 : decodes enc_ebcdic1025 (stands_for map_ebcdic1025).
Proof. exact (decodes_intro _ _ (proj2 dec_ebcdic1025) inv0_0 leads_ebcdic1025 _ ltac:(vm_cast_no_check (eq_refl true)) _ _ _ eq_refl). Qed.
Lemma enc_map_ebcdic1025 : encodes enc_ebcdic1025 (maps_to map_ebcdic1025 irr_ebcdic1025).
Proof. apply (encodes_intro _ _ _ ebcdic1025_wctomb ivs_ebcdic1025 _ _ eq_refl); [enc_outside|vm_cast_no_check (eq_refl true)]. Qed.
Definition leads_ebcdic1026 : list (list Z) := [[]].
Definition ivs_ebcdic1026 : ranges := [(0, 0x100); (0x118, 0x160)].
Lemma dec_map_ebcdic1026 : decodes enc_ebcdic1026 (stands_for map_ebcdic1026).
Proof. exact (decodes_intro _ _ (proj2 dec_ebcdic1026) inv0_0 leads_ebcdic1026 _ ltac:(vm_cast_no_check (eq_refl true)) _ _ _ eq_refl). Qed.
Lemma enc_map_ebcdic1026 : encodes enc_ebcdic1026 (maps_to map_ebcdic1026 irr_ebcdic1026).
Proof. apply (encodes_intro _ _ _ ebcdic1026_wctomb ivs_ebcdic1026 _ _ eq_refl); [enc_outside|vm_cast_no_check (eq_refl true)]. Qed.
Definition leads_ebcdic1047 : list (list Z) := [[]].
Definition ivs_ebcdic1047 : ranges := [(0, 0x100)].
Lemma dec_map_ebcdic1047 : decodes enc_ebcdic1047 (stands_for map_ebcdic1047).
Proof. exact (decodes_intro _ _ (proj2 dec_ebcdic1047) inv0_0 leads_ebcdic1047 _ ltac:(vm_cast_no_check (eq_refl true)) _ _ _ eq_refl). Qed.
Lemma enc_map_ebcdic1047 : encodes enc_ebcdic1047 (maps_to map_ebcdic1047 irr_ebcdic1047).
Proof. apply (encodes_intro _ _ _ ebcdic1047_wctomb ivs_ebcdic1047 _ _ eq_refl); [enc_outside|vm_cast_no_check (eq_refl true)]. Qed.
Definition leads_ebcdic1097 : list (list Z) := [[]].
Definition ivs_ebcdic1097 : ranges := [(0, 0xd8); (0x608, 0x650); (0x6f0, 0x700); (0xf8f8, 0xf900); (0xfb50, 0xfba8); (0xfbf8, 0xfc00); (0xfe80, 0xfef0)].
Lemma dec_map_ebcdic1097 : decodes enc_ebcdic1097 (stands_for map_ebcdic1097).
Proof. exact (decodes_intro _ _ (proj2 dec_ebcdic1097) inv0_0 leads_ebcdic1097 _ ltac:(vm_cast_no_check (eq_refl true)) _ _ _ eq_refl). Qed.
Lemma enc_map_ebcdic1097 : encodes enc_ebcdic1097 (maps_to map_ebcdic1097 irr_ebcdic1097).
Proof. apply (encodes_intro _ _ _ ebcdic1097_wctomb ivs_ebcdic1097 _ _ eq_refl); [enc_outside|vm_cast_no_check (eq_refl true)]. Qed.
Definition maps_sb3 : list (Z * charmap * pairs) :=
 [(ei_cp853, map_cp853, irr_cp853);
  (ei_cp855, map_cp855, irr_cp855);
  (ei_cp857, map_cp857, irr_cp857);
  (ei_cp858, map_cp858, irr_cp858);
  (ei_cp860, map_cp860, irr_cp860);
  (ei_cp861, map_cp861, irr_cp861);
  (ei_cp863, map_cp863, irr_cp863);
  (ei_cp864, map_cp864, irr_cp864);
  (ei_cp865, map_cp865, irr_cp865);
  (ei_cp869, map_cp869, irr_cp869);
  (ei_cp1125, map_cp1125, irr_cp1125);
  (ei_ebcdic037, map_ebcdic037, irr_ebcdic037);
  (ei_ebcdic273, map_ebcdic273, irr_ebcdic273);
  (ei_ebcdic277, map_ebcdic277, irr_ebcdic277);
  (ei_ebcdic278, map_ebcdic278, irr_ebcdic278);
  (ei_ebcdic280, map_ebcdic280, irr_ebcdic280);
  (ei_ebcdic282, map_ebcdic282, irr_ebcdic282);
  (ei_ebcdic284, map_ebcdic284, irr_ebcdic284);
  (ei_ebcdic285, map_ebcdic285, irr_ebcdic285);
  (ei_ebcdic297, map_ebcdic297, irr_ebcdic297);
  (ei_ebcdic423, map_ebcdic423, irr_ebcdic423);
  (ei_ebcdic424, map_ebcdic424, irr_ebcdic424);
  (ei_ebcdic425, map_ebcdic425, irr_ebcdic425);
  (ei_ebcdic500, map_ebcdic500, irr_ebcdic500);
  (ei_ebcdic838, map_ebcdic838, irr_ebcdic838);
  (ei_ebcdic870, map_ebcdic870, irr_ebcdic870);
  (ei_ebcdic871, map_ebcdic871, irr_ebcdic871);
  (ei_ebcdic875, map_ebcdic875, irr_ebcdic875);
  (ei_ebcdic880, map_ebcdic880, irr_ebcdic880);
  (ei_ebcdic905, map_ebcdic905, irr_ebcdic905);
  (ei_ebcdic924, map_ebcdic924, irr_ebcdic924);
  (ei_ebcdic1025, map_ebcdic1025, irr_ebcdic1025);
  (ei_ebcdic1026, map_ebcdic1026, irr_ebcdic1026);
  (ei_ebcdic1047, map_ebcdic1047, irr_ebcdic1047);
  (ei_ebcdic1097, map_ebcdic1097, irr_ebcdic1097)].
Lemma maps_sb3_ok : Forall table_ok maps_sb3.
Proof.
  repeat apply Forall_cons; [exact (ex_intro _ enc_cp853 (conj eq_refl (conj dec_map_cp853 enc_map_cp853))) |
   exact (ex_intro _ enc_cp855 (conj eq_refl (conj dec_map_cp855 enc_map_cp855))) |
   exact (ex_intro _ enc_cp857 (conj eq_refl (conj dec_map_cp857 enc_map_cp857))) |
   exact (ex_intro _ enc_cp858 (conj eq_refl (conj dec_map_cp858 enc_map_cp858))) |
   exact (ex_intro _ enc_cp860 (conj eq_refl (conj dec_map_cp860 enc_map_cp860))) |
   exact (ex_intro _ enc_cp861 (conj eq_refl (conj dec_map_cp861 enc_map_cp861))) |
   exact (ex_intro _ enc_cp863 (conj eq_refl (conj dec_map_cp863 enc_map_cp863))) |
   exact (ex_intro _ enc_cp864 (conj eq_refl (conj dec_map_cp864 enc_map_cp864))) |
   exact (ex_intro _ enc_cp865 (conj eq_refl (conj dec_map_cp865 enc_map_cp865))) |
   exact (ex_intro _ enc_cp869 (conj eq_refl (conj dec_map_cp869 enc_map_cp869))) |
   exact (ex_intro _ enc_cp1125 (conj eq_refl (conj dec_map_cp1125 enc_map_cp1125))) |
   exact (ex_intro _ enc_ebcdic037 (conj eq_refl (conj dec_map_ebcdic037 enc_map_ebcdic037))) |
   exact (ex_intro _ enc_ebcdic273 (conj eq_refl (conj dec_map_ebcdic273 enc_map_ebcdic273))) |
   exact (ex_intro _ enc_ebcdic277 (conj eq_refl (conj dec_map_ebcdic277 enc_map_ebcdic277))) |
   exact (ex_intro _ enc_ebcdic278 (conj eq_refl (conj dec_map_ebcdic278 enc_map_ebcdic278))) |
   exact (ex_intro _ enc_ebcdic280 (conj eq_refl (conj dec_map_ebcdic280 enc_map_ebcdic280))) |
   exact (ex_intro _ enc_ebcdic282 (conj eq_refl (conj dec_map_ebcdic282 enc_map_ebcdic282))) |
   exact (ex_intro _ enc_ebcdic284 (conj eq_refl (conj dec_map_ebcdic284 enc_map_ebcdic284))) |
   exact (ex_intro _ enc_ebcdic285 (conj eq_refl (conj dec_map_ebcdic285 enc_map_ebcdic285))) |
   exact (ex_intro _ enc_ebcdic297 (conj eq_refl (conj dec_map_ebcdic297 enc_map_ebcdic297))) |
   exact (ex_intro _ enc_ebcdic423 (conj eq_refl (conj dec_map_ebcdic423 enc_map_ebcdic423))) |
   exact (ex_intro _ enc_ebcdic424 (conj eq_refl (conj dec_map_ebcdic424 enc_map_ebcdic424))) |
   exact (ex_intro _ enc_ebcdic425 (conj eq_refl (conj dec_map_ebcdic425 enc_map_ebcdic425))) |
   exact (ex_intro _ enc_ebcdic500 (conj eq_refl (conj dec_map_ebcdic500 enc_map_ebcdic500))) |
   exact (ex_intro _ enc_ebcdic838 (conj eq_refl (conj dec_map_ebcdic838 enc_map_ebcdic838))) |
   exact (ex_intro _ enc_ebcdic870 (conj eq_refl (conj dec_map_ebcdic870 enc_map_ebcdic870))) |
   exact (ex_intro _ enc_ebcdic871 (conj eq_refl (conj dec_map_ebcdic871 enc_map_ebcdic871))) |
   exact (ex_intro _ enc_ebcdic875 (conj eq_refl (conj dec_map_ebcdic875 enc_map_ebcdic875))) |
   exact (ex_intro _ enc_ebcdic880 (conj eq_refl (conj dec_map_ebcdic880 enc_map_ebcdic880))) |
   exact (ex_intro _ enc_ebcdic905 (conj eq_refl (conj dec_map_ebcdic905 enc_map_ebcdic905))) |
   exact (ex_intro _ enc_ebcdic924 (conj eq_refl (conj dec_map_ebcdic924 enc_map_ebcdic924))) |
   exact (ex_intro _ enc_ebcdic1025 (conj eq_refl (conj dec_map_ebcdic1025 enc_map_ebcdic1025))) |
   exact (ex_intro _ enc_ebcdic1026 (conj eq_refl (conj dec_map_ebcdic1026 enc_map_ebcdic1026))) |
   exact (ex_intro _ enc_ebcdic1047 (conj eq_refl (conj dec_map_ebcdic1047 enc_map_ebcdic1047))) |
   exact (ex_intro _ enc_ebcdic1097 (conj eq_refl (conj dec_map_ebcdic1097 enc_map_ebcdic1097)))|apply Forall_nil].
Qed.
