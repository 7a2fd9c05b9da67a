(** GENERATED by tools/gentabin.py; do not edit.
    Sizes and ranges of the tables of the single-byte encodings. *)
From Coq Require Import ZArith List Bool.
From Verif Require Import Base Reflect EncLib TabLib.
From Verif Require Import Conv_uni Conv_sb Conv_ebcdic.
Import ListNotations.
Open Scope Z_scope.

Lemma ti_direct_tab : tabin direct_tab 16 (0) 255.
Proof. apply tabin_chk. vm_cast_no_check (eq_refl true). Qed.
Lemma ti_xdirect_tab : tabin xdirect_tab 16 (0) 255.
Proof. apply tabin_chk. vm_cast_no_check (eq_refl true). Qed.
Lemma ti_xbase64_tab : tabin xbase64_tab 16 (0) 255.
Proof. apply tabin_chk. vm_cast_no_check (eq_refl true). Qed.
Lemma ti_viet_comp_table_data : tabin viet_comp_table_data 404 (65) 8173.
Proof. apply tabin_chk. vm_cast_no_check (eq_refl true). Qed.
Lemma ti_viet_comp_table : tabin viet_comp_table 10 (0) 152.
Proof. apply tabin_chk. vm_cast_no_check (eq_refl true). Qed.
Lemma ti_viet_decomp_table : tabin viet_decomp_table 603 (0) 8174.
Proof. apply tabin_chk. vm_cast_no_check (eq_refl true). Qed.
Lemma ti_armscii_8_2uni : tabin armscii_8_2uni 96 (40) 65533.
Proof. apply tabin_chk. vm_cast_no_check (eq_refl true). Qed.
Lemma ti_armscii_8_page00 : tabin armscii_8_page00 8 (42) 172.
Proof. apply tabin_chk. vm_cast_no_check (eq_refl true). Qed.
Lemma ti_armscii_8_page00_1 : tabin armscii_8_page00_1 32 (0) 167.
Proof. apply tabin_chk. vm_cast_no_check (eq_refl true). Qed.
Lemma ti_armscii_8_page05 : tabin armscii_8_page05 96 (0) 254.
Proof. apply tabin_chk. vm_cast_no_check (eq_refl true). Qed.
Lemma ti_armscii_8_page20 : tabin armscii_8_page20 24 (0) 174.
Proof. apply tabin_chk. vm_cast_no_check (eq_refl true). Qed.
Lemma ti_cp1131_2uni : tabin cp1131_2uni 128 (160) 9619.
Proof. apply tabin_chk. vm_cast_no_check (eq_refl true). Qed.
Lemma ti_cp1131_page00 : tabin cp1131_page00 24 (0) 255.
Proof. apply tabin_chk. vm_cast_no_check (eq_refl true). Qed.
Lemma ti_cp1131_page04 : tabin cp1131_page04 152 (0) 253.
Proof. apply tabin_chk. vm_cast_no_check (eq_refl true). Qed.
Lemma ti_cp1131_page25 : tabin cp1131_page25 152 (0) 223.
Proof. apply tabin_chk. vm_cast_no_check (eq_refl true). Qed.
Lemma ti_cp1133_2uni_1 : tabin cp1133_2uni_1 64 (160) 65533.
Proof. apply tabin_chk. vm_cast_no_check (eq_refl true). Qed.
Lemma ti_cp1133_2uni_2 : tabin cp1133_2uni_2 16 (162) 65533.
Proof. apply tabin_chk. vm_cast_no_check (eq_refl true). Qed.
Lemma ti_cp1133_page00 : tabin cp1133_page00 16 (0) 254.
Proof. apply tabin_chk. vm_cast_no_check (eq_refl true). Qed.
Lemma ti_cp1133_page0e : tabin cp1133_page0e 96 (0) 249.
Proof. apply tabin_chk. vm_cast_no_check (eq_refl true). Qed.
Lemma ti_cp1250_2uni : tabin cp1250_2uni 128 (160) 65533.
Proof. apply tabin_chk. vm_cast_no_check (eq_refl true). Qed.
Lemma ti_cp1250_page00 : tabin cp1250_page00 224 (0) 254.
Proof. apply tabin_chk. vm_cast_no_check (eq_refl true). Qed.
Lemma ti_cp1250_page02 : tabin cp1250_page02 32 (0) 255.
Proof. apply tabin_chk. vm_cast_no_check (eq_refl true). Qed.
Lemma ti_cp1250_page20 : tabin cp1250_page20 48 (0) 155.
Proof. apply tabin_chk. vm_cast_no_check (eq_refl true). Qed.
Lemma ti_cp1251_2uni : tabin cp1251_2uni 128 (160) 65533.
Proof. apply tabin_chk. vm_cast_no_check (eq_refl true). Qed.
Lemma ti_cp1251_page00 : tabin cp1251_page00 32 (0) 187.
Proof. apply tabin_chk. vm_cast_no_check (eq_refl true). Qed.
Lemma ti_cp1251_page04 : tabin cp1251_page04 152 (0) 255.
Proof. apply tabin_chk. vm_cast_no_check (eq_refl true). Qed.
Lemma ti_cp1251_page20 : tabin cp1251_page20 48 (0) 155.
Proof. apply tabin_chk. vm_cast_no_check (eq_refl true). Qed.
Lemma ti_cp1252_2uni : tabin cp1252_2uni 32 (338) 65533.
Proof. apply tabin_chk. vm_cast_no_check (eq_refl true). Qed.
Lemma ti_cp1252_page01 : tabin cp1252_page01 72 (0) 159.
Proof. apply tabin_chk. vm_cast_no_check (eq_refl true). Qed.
Lemma ti_cp1252_page02 : tabin cp1252_page02 32 (0) 152.
Proof. apply tabin_chk. vm_cast_no_check (eq_refl true). Qed.
Lemma ti_cp1252_page20 : tabin cp1252_page20 48 (0) 155.
Proof. apply tabin_chk. vm_cast_no_check (eq_refl true). Qed.
Lemma ti_cp1253_2uni : tabin cp1253_2uni 128 (160) 65533.
Proof. apply tabin_chk. vm_cast_no_check (eq_refl true). Qed.
Lemma ti_cp1253_page00 : tabin cp1253_page00 32 (0) 189.
Proof. apply tabin_chk. vm_cast_no_check (eq_refl true). Qed.
Lemma ti_cp1253_page03 : tabin cp1253_page03 80 (0) 254.
Proof. apply tabin_chk. vm_cast_no_check (eq_refl true). Qed.
Lemma ti_cp1253_page20 : tabin cp1253_page20 48 (0) 175.
Proof. apply tabin_chk. vm_cast_no_check (eq_refl true). Qed.
Lemma ti_cp1254_2uni_1 : tabin cp1254_2uni_1 32 (338) 65533.
Proof. apply tabin_chk. vm_cast_no_check (eq_refl true). Qed.
Lemma ti_cp1254_2uni_2 : tabin cp1254_2uni_2 16 (209) 350.
Proof. apply tabin_chk. vm_cast_no_check (eq_refl true). Qed.
Lemma ti_cp1254_2uni_3 : tabin cp1254_2uni_3 16 (241) 351.
Proof. apply tabin_chk. vm_cast_no_check (eq_refl true). Qed.
Lemma ti_cp1254_page00 : tabin cp1254_page00 48 (0) 255.
Proof. apply tabin_chk. vm_cast_no_check (eq_refl true). Qed.
Lemma ti_cp1254_page01 : tabin cp1254_page01 128 (0) 254.
Proof. apply tabin_chk. vm_cast_no_check (eq_refl true). Qed.
Lemma ti_cp1254_page02 : tabin cp1254_page02 32 (0) 152.
Proof. apply tabin_chk. vm_cast_no_check (eq_refl true). Qed.
Lemma ti_cp1254_page20 : tabin cp1254_page20 48 (0) 155.
Proof. apply tabin_chk. vm_cast_no_check (eq_refl true). Qed.
Lemma ti_cp1255_comp_table_data : tabin cp1255_comp_table_data 72 (1488) 64334.
Proof. apply tabin_chk. vm_cast_no_check (eq_refl true). Qed.
Lemma ti_cp1255_comp_table : tabin cp1255_comp_table 16 (0) 34.
Proof. apply tabin_chk. vm_cast_no_check (eq_refl true). Qed.
Lemma ti_cp1255_decomp_table : tabin cp1255_decomp_table 136 (-1) 64334.
Proof. apply tabin_chk. vm_cast_no_check (eq_refl true). Qed.
Lemma ti_cp1255_comb_table : tabin cp1255_comb_table 8 (196) 210.
Proof. apply tabin_chk. vm_cast_no_check (eq_refl true). Qed.
Lemma ti_cp1255_2uni : tabin cp1255_2uni 128 (160) 65533.
Proof. apply tabin_chk. vm_cast_no_check (eq_refl true). Qed.
Lemma ti_cp1255_page00 : tabin cp1255_page00 88 (0) 191.
Proof. apply tabin_chk. vm_cast_no_check (eq_refl true). Qed.
Lemma ti_cp1255_page02 : tabin cp1255_page02 32 (0) 152.
Proof. apply tabin_chk. vm_cast_no_check (eq_refl true). Qed.
Lemma ti_cp1255_page05 : tabin cp1255_page05 72 (0) 250.
Proof. apply tabin_chk. vm_cast_no_check (eq_refl true). Qed.
Lemma ti_cp1255_page20 : tabin cp1255_page20 56 (0) 254.
Proof. apply tabin_chk. vm_cast_no_check (eq_refl true). Qed.
Lemma ti_cp1256_2uni : tabin cp1256_2uni 128 (160) 8482.
Proof. apply tabin_chk. vm_cast_no_check (eq_refl true). Qed.
Lemma ti_cp1256_page00 : tabin cp1256_page00 96 (0) 252.
Proof. apply tabin_chk. vm_cast_no_check (eq_refl true). Qed.
Lemma ti_cp1256_page01 : tabin cp1256_page01 72 (0) 156.
Proof. apply tabin_chk. vm_cast_no_check (eq_refl true). Qed.
Lemma ti_cp1256_page06 : tabin cp1256_page06 208 (0) 255.
Proof. apply tabin_chk. vm_cast_no_check (eq_refl true). Qed.
Lemma ti_cp1256_page20 : tabin cp1256_page20 56 (0) 254.
Proof. apply tabin_chk. vm_cast_no_check (eq_refl true). Qed.
Lemma ti_cp1257_2uni : tabin cp1257_2uni 128 (160) 65533.
Proof. apply tabin_chk. vm_cast_no_check (eq_refl true). Qed.
Lemma ti_cp1257_page00 : tabin cp1257_page00 224 (0) 254.
Proof. apply tabin_chk. vm_cast_no_check (eq_refl true). Qed.
Lemma ti_cp1257_page02 : tabin cp1257_page02 32 (0) 255.
Proof. apply tabin_chk. vm_cast_no_check (eq_refl true). Qed.
Lemma ti_cp1257_page20 : tabin cp1257_page20 48 (0) 155.
Proof. apply tabin_chk. vm_cast_no_check (eq_refl true). Qed.
Lemma ti_cp1258_comb_table : tabin cp1258_comb_table 5 (204) 242.
Proof. apply tabin_chk. vm_cast_no_check (eq_refl true). Qed.
Lemma ti_cp1258_comp_bases : tabin cp1258_comp_bases 12 (0) 358122724.
Proof. apply tabin_chk. vm_cast_no_check (eq_refl true). Qed.
Lemma ti_cp1258_2uni : tabin cp1258_2uni 128 (160) 65533.
Proof. apply tabin_chk. vm_cast_no_check (eq_refl true). Qed.
Lemma ti_cp1258_page00 : tabin cp1258_page00 88 (0) 255.
Proof. apply tabin_chk. vm_cast_no_check (eq_refl true). Qed.
Lemma ti_cp1258_page01 : tabin cp1258_page01 104 (0) 253.
Proof. apply tabin_chk. vm_cast_no_check (eq_refl true). Qed.
Lemma ti_cp1258_page02 : tabin cp1258_page02 32 (0) 152.
Proof. apply tabin_chk. vm_cast_no_check (eq_refl true). Qed.
Lemma ti_cp1258_page03 : tabin cp1258_page03 40 (0) 242.
Proof. apply tabin_chk. vm_cast_no_check (eq_refl true). Qed.
Lemma ti_cp1258_page20 : tabin cp1258_page20 48 (0) 155.
Proof. apply tabin_chk. vm_cast_no_check (eq_refl true). Qed.
Lemma ti_cp850_2uni : tabin cp850_2uni 128 (160) 9632.
Proof. apply tabin_chk. vm_cast_no_check (eq_refl true). Qed.
Lemma ti_cp850_page00 : tabin cp850_page00 96 (128) 255.
Proof. apply tabin_chk. vm_cast_no_check (eq_refl true). Qed.
Lemma ti_cp850_page25 : tabin cp850_page25 168 (0) 254.
Proof. apply tabin_chk. vm_cast_no_check (eq_refl true). Qed.
Lemma ti_cp862_2uni : tabin cp862_2uni 128 (160) 9632.
Proof. apply tabin_chk. vm_cast_no_check (eq_refl true). Qed.
Lemma ti_cp862_page00 : tabin cp862_page00 96 (0) 255.
Proof. apply tabin_chk. vm_cast_no_check (eq_refl true). Qed.
Lemma ti_cp862_page03 : tabin cp862_page03 56 (0) 238.
Proof. apply tabin_chk. vm_cast_no_check (eq_refl true). Qed.
Lemma ti_cp862_page22 : tabin cp862_page22 80 (0) 251.
Proof. apply tabin_chk. vm_cast_no_check (eq_refl true). Qed.
Lemma ti_cp862_page25 : tabin cp862_page25 168 (0) 254.
Proof. apply tabin_chk. vm_cast_no_check (eq_refl true). Qed.
Lemma ti_cp866_2uni : tabin cp866_2uni 80 (160) 9632.
Proof. apply tabin_chk. vm_cast_no_check (eq_refl true). Qed.
Lemma ti_cp866_page00 : tabin cp866_page00 24 (0) 255.
Proof. apply tabin_chk. vm_cast_no_check (eq_refl true). Qed.
Lemma ti_cp866_page04 : tabin cp866_page04 96 (0) 247.
Proof. apply tabin_chk. vm_cast_no_check (eq_refl true). Qed.
Lemma ti_cp866_page22 : tabin cp866_page22 8 (0) 251.
Proof. apply tabin_chk. vm_cast_no_check (eq_refl true). Qed.
Lemma ti_cp866_page25 : tabin cp866_page25 168 (0) 254.
Proof. apply tabin_chk. vm_cast_no_check (eq_refl true). Qed.
Lemma ti_cp874_2uni : tabin cp874_2uni 128 (160) 65533.
Proof. apply tabin_chk. vm_cast_no_check (eq_refl true). Qed.
Lemma ti_cp874_page0e : tabin cp874_page0e 96 (0) 251.
Proof. apply tabin_chk. vm_cast_no_check (eq_refl true). Qed.
Lemma ti_cp874_page20 : tabin cp874_page20 24 (0) 151.
Proof. apply tabin_chk. vm_cast_no_check (eq_refl true). Qed.
Lemma ti_georgian_academy_2uni : tabin georgian_academy_2uni 32 (128) 8482.
Proof. apply tabin_chk. vm_cast_no_check (eq_refl true). Qed.
Lemma ti_georgian_academy_page00 : tabin georgian_academy_page00 32 (0) 158.
Proof. apply tabin_chk. vm_cast_no_check (eq_refl true). Qed.
Lemma ti_georgian_academy_page01 : tabin georgian_academy_page01 72 (0) 159.
Proof. apply tabin_chk. vm_cast_no_check (eq_refl true). Qed.
Lemma ti_georgian_academy_page02 : tabin georgian_academy_page02 32 (0) 152.
Proof. apply tabin_chk. vm_cast_no_check (eq_refl true). Qed.
Lemma ti_georgian_academy_page20 : tabin georgian_academy_page20 48 (0) 155.
Proof. apply tabin_chk. vm_cast_no_check (eq_refl true). Qed.
Lemma ti_georgian_ps_2uni_1 : tabin georgian_ps_2uni_1 32 (128) 8482.
Proof. apply tabin_chk. vm_cast_no_check (eq_refl true). Qed.
Lemma ti_georgian_ps_2uni_2 : tabin georgian_ps_2uni_2 39 (0) 4341.
Proof. apply tabin_chk. vm_cast_no_check (eq_refl true). Qed.
Lemma ti_georgian_ps_page00 : tabin georgian_ps_page00 32 (0) 158.
Proof. apply tabin_chk. vm_cast_no_check (eq_refl true). Qed.
Lemma ti_georgian_ps_page01 : tabin georgian_ps_page01 72 (0) 159.
Proof. apply tabin_chk. vm_cast_no_check (eq_refl true). Qed.
Lemma ti_georgian_ps_page02 : tabin georgian_ps_page02 32 (0) 152.
Proof. apply tabin_chk. vm_cast_no_check (eq_refl true). Qed.
Lemma ti_georgian_ps_page10 : tabin georgian_ps_page10 40 (0) 229.
Proof. apply tabin_chk. vm_cast_no_check (eq_refl true). Qed.
Lemma ti_georgian_ps_page20 : tabin georgian_ps_page20 48 (0) 155.
Proof. apply tabin_chk. vm_cast_no_check (eq_refl true). Qed.
Lemma ti_hp_roman8_2uni : tabin hp_roman8_2uni 96 (160) 65533.
Proof. apply tabin_chk. vm_cast_no_check (eq_refl true). Qed.
Lemma ti_hp_roman8_page00 : tabin hp_roman8_page00 96 (0) 254.
Proof. apply tabin_chk. vm_cast_no_check (eq_refl true). Qed.
Lemma ti_hp_roman8_page01 : tabin hp_roman8_page01 56 (0) 238.
Proof. apply tabin_chk. vm_cast_no_check (eq_refl true). Qed.
Lemma ti_hp_roman8_page02 : tabin hp_roman8_page02 32 (0) 172.
Proof. apply tabin_chk. vm_cast_no_check (eq_refl true). Qed.
Lemma ti_iso8859_10_2uni : tabin iso8859_10_2uni 96 (160) 8213.
Proof. apply tabin_chk. vm_cast_no_check (eq_refl true). Qed.
Lemma ti_iso8859_10_page00 : tabin iso8859_10_page00 224 (0) 255.
Proof. apply tabin_chk. vm_cast_no_check (eq_refl true). Qed.
Lemma ti_iso8859_13_2uni : tabin iso8859_13_2uni 96 (160) 8222.
Proof. apply tabin_chk. vm_cast_no_check (eq_refl true). Qed.
Lemma ti_iso8859_13_page00 : tabin iso8859_13_page00 224 (0) 254.
Proof. apply tabin_chk. vm_cast_no_check (eq_refl true). Qed.
Lemma ti_iso8859_13_page20 : tabin iso8859_13_page20 8 (0) 255.
Proof. apply tabin_chk. vm_cast_no_check (eq_refl true). Qed.
Lemma ti_iso8859_14_2uni : tabin iso8859_14_2uni 96 (160) 7923.
Proof. apply tabin_chk. vm_cast_no_check (eq_refl true). Qed.
Lemma ti_iso8859_14_page00 : tabin iso8859_14_page00 96 (0) 255.
Proof. apply tabin_chk. vm_cast_no_check (eq_refl true). Qed.
Lemma ti_iso8859_14_page01_0 : tabin iso8859_14_page01_0 32 (0) 179.
Proof. apply tabin_chk. vm_cast_no_check (eq_refl true). Qed.
Lemma ti_iso8859_14_page01_1 : tabin iso8859_14_page01_1 16 (0) 254.
Proof. apply tabin_chk. vm_cast_no_check (eq_refl true). Qed.
Lemma ti_iso8859_14_page1e_0 : tabin iso8859_14_page1e_0 136 (0) 247.
Proof. apply tabin_chk. vm_cast_no_check (eq_refl true). Qed.
Lemma ti_iso8859_14_page1e_1 : tabin iso8859_14_page1e_1 8 (0) 188.
Proof. apply tabin_chk. vm_cast_no_check (eq_refl true). Qed.
Lemma ti_iso8859_15_2uni : tabin iso8859_15_2uni 32 (160) 8364.
Proof. apply tabin_chk. vm_cast_no_check (eq_refl true). Qed.
Lemma ti_iso8859_15_page00 : tabin iso8859_15_page00 32 (0) 191.
Proof. apply tabin_chk. vm_cast_no_check (eq_refl true). Qed.
Lemma ti_iso8859_15_page01 : tabin iso8859_15_page01 48 (0) 190.
Proof. apply tabin_chk. vm_cast_no_check (eq_refl true). Qed.
Lemma ti_iso8859_16_2uni : tabin iso8859_16_2uni 96 (160) 8364.
Proof. apply tabin_chk. vm_cast_no_check (eq_refl true). Qed.
Lemma ti_iso8859_16_page00 : tabin iso8859_16_page00 224 (0) 255.
Proof. apply tabin_chk. vm_cast_no_check (eq_refl true). Qed.
Lemma ti_iso8859_16_page02 : tabin iso8859_16_page02 8 (0) 254.
Proof. apply tabin_chk. vm_cast_no_check (eq_refl true). Qed.
Lemma ti_iso8859_16_page20 : tabin iso8859_16_page20 8 (0) 181.
Proof. apply tabin_chk. vm_cast_no_check (eq_refl true). Qed.
Lemma ti_iso8859_2_2uni : tabin iso8859_2_2uni 96 (160) 733.
Proof. apply tabin_chk. vm_cast_no_check (eq_refl true). Qed.
Lemma ti_iso8859_2_page00 : tabin iso8859_2_page00 224 (0) 254.
Proof. apply tabin_chk. vm_cast_no_check (eq_refl true). Qed.
Lemma ti_iso8859_2_page02 : tabin iso8859_2_page02 32 (0) 255.
Proof. apply tabin_chk. vm_cast_no_check (eq_refl true). Qed.
Lemma ti_iso8859_3_2uni : tabin iso8859_3_2uni 96 (160) 65533.
Proof. apply tabin_chk. vm_cast_no_check (eq_refl true). Qed.
Lemma ti_iso8859_3_page00 : tabin iso8859_3_page00 96 (0) 252.
Proof. apply tabin_chk. vm_cast_no_check (eq_refl true). Qed.
Lemma ti_iso8859_3_page01 : tabin iso8859_3_page01 120 (0) 254.
Proof. apply tabin_chk. vm_cast_no_check (eq_refl true). Qed.
Lemma ti_iso8859_3_page02 : tabin iso8859_3_page02 8 (0) 255.
Proof. apply tabin_chk. vm_cast_no_check (eq_refl true). Qed.
Lemma ti_iso8859_4_2uni : tabin iso8859_4_2uni 96 (160) 731.
Proof. apply tabin_chk. vm_cast_no_check (eq_refl true). Qed.
Lemma ti_iso8859_4_page00 : tabin iso8859_4_page00 224 (0) 254.
Proof. apply tabin_chk. vm_cast_no_check (eq_refl true). Qed.
Lemma ti_iso8859_4_page02 : tabin iso8859_4_page02 32 (0) 255.
Proof. apply tabin_chk. vm_cast_no_check (eq_refl true). Qed.
Lemma ti_iso8859_5_2uni : tabin iso8859_5_2uni 96 (160) 8470.
Proof. apply tabin_chk. vm_cast_no_check (eq_refl true). Qed.
Lemma ti_iso8859_5_page00 : tabin iso8859_5_page00 16 (0) 253.
Proof. apply tabin_chk. vm_cast_no_check (eq_refl true). Qed.
Lemma ti_iso8859_5_page04 : tabin iso8859_5_page04 96 (0) 255.
Proof. apply tabin_chk. vm_cast_no_check (eq_refl true). Qed.
Lemma ti_iso8859_6_2uni : tabin iso8859_6_2uni 96 (160) 65533.
Proof. apply tabin_chk. vm_cast_no_check (eq_refl true). Qed.
Lemma ti_iso8859_6_page00 : tabin iso8859_6_page00 16 (0) 173.
Proof. apply tabin_chk. vm_cast_no_check (eq_refl true). Qed.
Lemma ti_iso8859_6_page06 : tabin iso8859_6_page06 80 (0) 242.
Proof. apply tabin_chk. vm_cast_no_check (eq_refl true). Qed.
Lemma ti_iso8859_7_2uni : tabin iso8859_7_2uni 96 (160) 65533.
Proof. apply tabin_chk. vm_cast_no_check (eq_refl true). Qed.
Lemma ti_iso8859_7_page00 : tabin iso8859_7_page00 32 (0) 189.
Proof. apply tabin_chk. vm_cast_no_check (eq_refl true). Qed.
Lemma ti_iso8859_7_page03 : tabin iso8859_7_page03 88 (0) 254.
Proof. apply tabin_chk. vm_cast_no_check (eq_refl true). Qed.
Lemma ti_iso8859_7_page20 : tabin iso8859_7_page20 16 (0) 175.
Proof. apply tabin_chk. vm_cast_no_check (eq_refl true). Qed.
Lemma ti_iso8859_8_2uni : tabin iso8859_8_2uni 96 (160) 65533.
Proof. apply tabin_chk. vm_cast_no_check (eq_refl true). Qed.
Lemma ti_iso8859_8_page00 : tabin iso8859_8_page00 88 (0) 190.
Proof. apply tabin_chk. vm_cast_no_check (eq_refl true). Qed.
Lemma ti_iso8859_8_page05 : tabin iso8859_8_page05 32 (0) 250.
Proof. apply tabin_chk. vm_cast_no_check (eq_refl true). Qed.
Lemma ti_iso8859_8_page20 : tabin iso8859_8_page20 16 (0) 254.
Proof. apply tabin_chk. vm_cast_no_check (eq_refl true). Qed.
Lemma ti_iso8859_9_2uni : tabin iso8859_9_2uni 48 (209) 351.
Proof. apply tabin_chk. vm_cast_no_check (eq_refl true). Qed.
Lemma ti_iso8859_9_page00 : tabin iso8859_9_page00 48 (0) 255.
Proof. apply tabin_chk. vm_cast_no_check (eq_refl true). Qed.
Lemma ti_iso8859_9_page01 : tabin iso8859_9_page01 72 (0) 254.
Proof. apply tabin_chk. vm_cast_no_check (eq_refl true). Qed.
Lemma ti_koi8_r_2uni : tabin koi8_r_2uni 128 (160) 9632.
Proof. apply tabin_chk. vm_cast_no_check (eq_refl true). Qed.
Lemma ti_koi8_r_page00 : tabin koi8_r_page00 88 (0) 191.
Proof. apply tabin_chk. vm_cast_no_check (eq_refl true). Qed.
Lemma ti_koi8_r_page04 : tabin koi8_r_page04 88 (0) 255.
Proof. apply tabin_chk. vm_cast_no_check (eq_refl true). Qed.
Lemma ti_koi8_r_page22 : tabin koi8_r_page22 80 (0) 153.
Proof. apply tabin_chk. vm_cast_no_check (eq_refl true). Qed.
Lemma ti_koi8_r_page23 : tabin koi8_r_page23 8 (0) 155.
Proof. apply tabin_chk. vm_cast_no_check (eq_refl true). Qed.
Lemma ti_koi8_r_page25 : tabin koi8_r_page25 168 (0) 190.
Proof. apply tabin_chk. vm_cast_no_check (eq_refl true). Qed.
Lemma ti_koi8_ru_2uni : tabin koi8_ru_2uni 128 (160) 9632.
Proof. apply tabin_chk. vm_cast_no_check (eq_refl true). Qed.
Lemma ti_koi8_ru_page00 : tabin koi8_ru_page00 88 (0) 191.
Proof. apply tabin_chk. vm_cast_no_check (eq_refl true). Qed.
Lemma ti_koi8_ru_page04 : tabin koi8_ru_page04 152 (0) 255.
Proof. apply tabin_chk. vm_cast_no_check (eq_refl true). Qed.
Lemma ti_koi8_ru_page22 : tabin koi8_ru_page22 80 (0) 153.
Proof. apply tabin_chk. vm_cast_no_check (eq_refl true). Qed.
Lemma ti_koi8_ru_page23 : tabin koi8_ru_page23 8 (0) 155.
Proof. apply tabin_chk. vm_cast_no_check (eq_refl true). Qed.
Lemma ti_koi8_ru_page25 : tabin koi8_ru_page25 168 (0) 188.
Proof. apply tabin_chk. vm_cast_no_check (eq_refl true). Qed.
Lemma ti_koi8_t_2uni : tabin koi8_t_2uni 128 (164) 65533.
Proof. apply tabin_chk. vm_cast_no_check (eq_refl true). Qed.
Lemma ti_koi8_t_page00 : tabin koi8_t_page00 32 (0) 191.
Proof. apply tabin_chk. vm_cast_no_check (eq_refl true). Qed.
Lemma ti_koi8_t_page04 : tabin koi8_t_page04 240 (0) 255.
Proof. apply tabin_chk. vm_cast_no_check (eq_refl true). Qed.
Lemma ti_koi8_t_page20 : tabin koi8_t_page20 48 (0) 155.
Proof. apply tabin_chk. vm_cast_no_check (eq_refl true). Qed.
Lemma ti_koi8_t_page21 : tabin koi8_t_page21 24 (0) 185.
Proof. apply tabin_chk. vm_cast_no_check (eq_refl true). Qed.
Lemma ti_koi8_u_2uni : tabin koi8_u_2uni 128 (160) 9632.
Proof. apply tabin_chk. vm_cast_no_check (eq_refl true). Qed.
Lemma ti_koi8_u_page00 : tabin koi8_u_page00 88 (0) 191.
Proof. apply tabin_chk. vm_cast_no_check (eq_refl true). Qed.
Lemma ti_koi8_u_page04 : tabin koi8_u_page04 152 (0) 255.
Proof. apply tabin_chk. vm_cast_no_check (eq_refl true). Qed.
Lemma ti_koi8_u_page22 : tabin koi8_u_page22 80 (0) 153.
Proof. apply tabin_chk. vm_cast_no_check (eq_refl true). Qed.
Lemma ti_koi8_u_page23 : tabin koi8_u_page23 8 (0) 155.
Proof. apply tabin_chk. vm_cast_no_check (eq_refl true). Qed.
Lemma ti_koi8_u_page25 : tabin koi8_u_page25 168 (0) 190.
Proof. apply tabin_chk. vm_cast_no_check (eq_refl true). Qed.
Lemma ti_mac_arabic_2uni : tabin mac_arabic_2uni 128 (160) 65533.
Proof. apply tabin_chk. vm_cast_no_check (eq_refl true). Qed.
Lemma ti_mac_arabic_page00 : tabin mac_arabic_page00 96 (0) 159.
Proof. apply tabin_chk. vm_cast_no_check (eq_refl true). Qed.
Lemma ti_mac_arabic_page06 : tabin mac_arabic_page06 208 (0) 255.
Proof. apply tabin_chk. vm_cast_no_check (eq_refl true). Qed.
Lemma ti_mac_centraleurope_2uni : tabin mac_centraleurope_2uni 128 (160) 9674.
Proof. apply tabin_chk. vm_cast_no_check (eq_refl true). Qed.
Lemma ti_mac_centraleurope_page00 : tabin mac_centraleurope_page00 224 (0) 254.
Proof. apply tabin_chk. vm_cast_no_check (eq_refl true). Qed.
Lemma ti_mac_centraleurope_page20 : tabin mac_centraleurope_page20 48 (0) 227.
Proof. apply tabin_chk. vm_cast_no_check (eq_refl true). Qed.
Lemma ti_mac_centraleurope_page22 : tabin mac_centraleurope_page22 32 (0) 198.
Proof. apply tabin_chk. vm_cast_no_check (eq_refl true). Qed.
Lemma ti_mac_centraleurope_page22_1 : tabin mac_centraleurope_page22_1 8 (0) 179.
Proof. apply tabin_chk. vm_cast_no_check (eq_refl true). Qed.
Lemma ti_mac_croatian_2uni : tabin mac_croatian_2uni 128 (160) 65533.
Proof. apply tabin_chk. vm_cast_no_check (eq_refl true). Qed.
Lemma ti_mac_croatian_page00 : tabin mac_croatian_page00 248 (0) 254.
Proof. apply tabin_chk. vm_cast_no_check (eq_refl true). Qed.
Lemma ti_mac_croatian_page02 : tabin mac_croatian_page02 32 (0) 255.
Proof. apply tabin_chk. vm_cast_no_check (eq_refl true). Qed.
Lemma ti_mac_croatian_page20 : tabin mac_croatian_page20 56 (0) 228.
Proof. apply tabin_chk. vm_cast_no_check (eq_refl true). Qed.
Lemma ti_mac_croatian_page21 : tabin mac_croatian_page21 8 (0) 189.
Proof. apply tabin_chk. vm_cast_no_check (eq_refl true). Qed.
Lemma ti_mac_croatian_page22 : tabin mac_croatian_page22 104 (0) 197.
Proof. apply tabin_chk. vm_cast_no_check (eq_refl true). Qed.
Lemma ti_mac_cyrillic_2uni : tabin mac_cyrillic_2uni 128 (160) 8805.
Proof. apply tabin_chk. vm_cast_no_check (eq_refl true). Qed.
Lemma ti_mac_cyrillic_page00 : tabin mac_cyrillic_page00 32 (0) 255.
Proof. apply tabin_chk. vm_cast_no_check (eq_refl true). Qed.
Lemma ti_mac_cyrillic_page04 : tabin mac_cyrillic_page04 96 (0) 254.
Proof. apply tabin_chk. vm_cast_no_check (eq_refl true). Qed.
Lemma ti_mac_cyrillic_page20 : tabin mac_cyrillic_page20 24 (0) 215.
Proof. apply tabin_chk. vm_cast_no_check (eq_refl true). Qed.
Lemma ti_mac_cyrillic_page21 : tabin mac_cyrillic_page21 24 (0) 220.
Proof. apply tabin_chk. vm_cast_no_check (eq_refl true). Qed.
Lemma ti_mac_cyrillic_page22 : tabin mac_cyrillic_page22 104 (0) 198.
Proof. apply tabin_chk. vm_cast_no_check (eq_refl true). Qed.
Lemma ti_mac_greek_2uni : tabin mac_greek_2uni 128 (160) 65533.
Proof. apply tabin_chk. vm_cast_no_check (eq_refl true). Qed.
Lemma ti_mac_greek_page00 : tabin mac_greek_page00 96 (0) 214.
Proof. apply tabin_chk. vm_cast_no_check (eq_refl true). Qed.
Lemma ti_mac_greek_page03 : tabin mac_greek_page03 80 (0) 254.
Proof. apply tabin_chk. vm_cast_no_check (eq_refl true). Qed.
Lemma ti_mac_greek_page20 : tabin mac_greek_page20 40 (0) 213.
Proof. apply tabin_chk. vm_cast_no_check (eq_refl true). Qed.
Lemma ti_mac_greek_page22 : tabin mac_greek_page22 32 (0) 197.
Proof. apply tabin_chk. vm_cast_no_check (eq_refl true). Qed.
Lemma ti_mac_hebrew_2uni : tabin mac_hebrew_2uni 128 (160) 65533.
Proof. apply tabin_chk. vm_cast_no_check (eq_refl true). Qed.
Lemma ti_mac_hebrew_page00 : tabin mac_hebrew_page00 96 (0) 202.
Proof. apply tabin_chk. vm_cast_no_check (eq_refl true). Qed.
Lemma ti_mac_hebrew_page05 : tabin mac_hebrew_page05 64 (0) 250.
Proof. apply tabin_chk. vm_cast_no_check (eq_refl true). Qed.
Lemma ti_mac_hebrew_page20 : tabin mac_hebrew_page20 24 (0) 213.
Proof. apply tabin_chk. vm_cast_no_check (eq_refl true). Qed.
Lemma ti_mac_hebrew_pagefb : tabin mac_hebrew_pagefb 56 (0) 215.
Proof. apply tabin_chk. vm_cast_no_check (eq_refl true). Qed.
Lemma ti_mac_iceland_2uni : tabin mac_iceland_2uni 128 (160) 65533.
Proof. apply tabin_chk. vm_cast_no_check (eq_refl true). Qed.
Lemma ti_mac_iceland_page00 : tabin mac_iceland_page00 96 (0) 252.
Proof. apply tabin_chk. vm_cast_no_check (eq_refl true). Qed.
Lemma ti_mac_iceland_page01 : tabin mac_iceland_page01 104 (0) 245.
Proof. apply tabin_chk. vm_cast_no_check (eq_refl true). Qed.
Lemma ti_mac_iceland_page02 : tabin mac_iceland_page02 32 (0) 255.
Proof. apply tabin_chk. vm_cast_no_check (eq_refl true). Qed.
Lemma ti_mac_iceland_page20 : tabin mac_iceland_page20 56 (0) 228.
Proof. apply tabin_chk. vm_cast_no_check (eq_refl true). Qed.
Lemma ti_mac_iceland_page21 : tabin mac_iceland_page21 8 (0) 189.
Proof. apply tabin_chk. vm_cast_no_check (eq_refl true). Qed.
Lemma ti_mac_iceland_page22 : tabin mac_iceland_page22 104 (0) 198.
Proof. apply tabin_chk. vm_cast_no_check (eq_refl true). Qed.
Lemma ti_mac_roman_2uni : tabin mac_roman_2uni 128 (160) 65533.
Proof. apply tabin_chk. vm_cast_no_check (eq_refl true). Qed.
Lemma ti_mac_roman_page00 : tabin mac_roman_page00 96 (0) 252.
Proof. apply tabin_chk. vm_cast_no_check (eq_refl true). Qed.
Lemma ti_mac_roman_page01 : tabin mac_roman_page01 104 (0) 245.
Proof. apply tabin_chk. vm_cast_no_check (eq_refl true). Qed.
Lemma ti_mac_roman_page02 : tabin mac_roman_page02 32 (0) 255.
Proof. apply tabin_chk. vm_cast_no_check (eq_refl true). Qed.
Lemma ti_mac_roman_page20 : tabin mac_roman_page20 56 (0) 228.
Proof. apply tabin_chk. vm_cast_no_check (eq_refl true). Qed.
Lemma ti_mac_roman_page21 : tabin mac_roman_page21 8 (0) 189.
Proof. apply tabin_chk. vm_cast_no_check (eq_refl true). Qed.
Lemma ti_mac_roman_page22 : tabin mac_roman_page22 104 (0) 198.
Proof. apply tabin_chk. vm_cast_no_check (eq_refl true). Qed.
Lemma ti_mac_roman_pagefb : tabin mac_roman_pagefb 8 (0) 223.
Proof. apply tabin_chk. vm_cast_no_check (eq_refl true). Qed.
Lemma ti_mac_romania_2uni : tabin mac_romania_2uni 128 (160) 65533.
Proof. apply tabin_chk. vm_cast_no_check (eq_refl true). Qed.
Lemma ti_mac_romania_page00 : tabin mac_romania_page00 248 (0) 252.
Proof. apply tabin_chk. vm_cast_no_check (eq_refl true). Qed.
Lemma ti_mac_romania_page02 : tabin mac_romania_page02 32 (0) 255.
Proof. apply tabin_chk. vm_cast_no_check (eq_refl true). Qed.
Lemma ti_mac_romania_page20 : tabin mac_romania_page20 56 (0) 228.
Proof. apply tabin_chk. vm_cast_no_check (eq_refl true). Qed.
Lemma ti_mac_romania_page21 : tabin mac_romania_page21 8 (0) 189.
Proof. apply tabin_chk. vm_cast_no_check (eq_refl true). Qed.
Lemma ti_mac_romania_page22 : tabin mac_romania_page22 104 (0) 198.
Proof. apply tabin_chk. vm_cast_no_check (eq_refl true). Qed.
Lemma ti_mac_thai_2uni : tabin mac_thai_2uni 128 (160) 65533.
Proof. apply tabin_chk. vm_cast_no_check (eq_refl true). Qed.
Lemma ti_mac_thai_page00 : tabin mac_thai_page00 32 (0) 251.
Proof. apply tabin_chk. vm_cast_no_check (eq_refl true). Qed.
Lemma ti_mac_thai_page0e : tabin mac_thai_page0e 96 (0) 249.
Proof. apply tabin_chk. vm_cast_no_check (eq_refl true). Qed.
Lemma ti_mac_thai_page20 : tabin mac_thai_page20 32 (0) 222.
Proof. apply tabin_chk. vm_cast_no_check (eq_refl true). Qed.
Lemma ti_mac_thai_pagef8 : tabin mac_thai_pagef8 32 (0) 156.
Proof. apply tabin_chk. vm_cast_no_check (eq_refl true). Qed.
Lemma ti_mac_turkish_2uni : tabin mac_turkish_2uni 128 (160) 65533.
Proof. apply tabin_chk. vm_cast_no_check (eq_refl true). Qed.
Lemma ti_mac_turkish_page00 : tabin mac_turkish_page00 96 (0) 252.
Proof. apply tabin_chk. vm_cast_no_check (eq_refl true). Qed.
Lemma ti_mac_turkish_page01 : tabin mac_turkish_page01 128 (0) 223.
Proof. apply tabin_chk. vm_cast_no_check (eq_refl true). Qed.
Lemma ti_mac_turkish_page02 : tabin mac_turkish_page02 32 (0) 255.
Proof. apply tabin_chk. vm_cast_no_check (eq_refl true). Qed.
Lemma ti_mac_turkish_page20 : tabin mac_turkish_page20 40 (0) 228.
Proof. apply tabin_chk. vm_cast_no_check (eq_refl true). Qed.
Lemma ti_mac_turkish_page21 : tabin mac_turkish_page21 8 (0) 189.
Proof. apply tabin_chk. vm_cast_no_check (eq_refl true). Qed.
Lemma ti_mac_turkish_page22 : tabin mac_turkish_page22 104 (0) 198.
Proof. apply tabin_chk. vm_cast_no_check (eq_refl true). Qed.
Lemma ti_mac_ukraine_2uni : tabin mac_ukraine_2uni 128 (160) 8805.
Proof. apply tabin_chk. vm_cast_no_check (eq_refl true). Qed.
Lemma ti_mac_ukraine_page00 : tabin mac_ukraine_page00 32 (0) 255.
Proof. apply tabin_chk. vm_cast_no_check (eq_refl true). Qed.
Lemma ti_mac_ukraine_page04 : tabin mac_ukraine_page04 152 (0) 254.
Proof. apply tabin_chk. vm_cast_no_check (eq_refl true). Qed.
Lemma ti_mac_ukraine_page20 : tabin mac_ukraine_page20 24 (0) 215.
Proof. apply tabin_chk. vm_cast_no_check (eq_refl true). Qed.
Lemma ti_mac_ukraine_page21 : tabin mac_ukraine_page21 24 (0) 220.
Proof. apply tabin_chk. vm_cast_no_check (eq_refl true). Qed.
Lemma ti_mac_ukraine_page22 : tabin mac_ukraine_page22 104 (0) 198.
Proof. apply tabin_chk. vm_cast_no_check (eq_refl true). Qed.
Lemma ti_mulelao_2uni : tabin mulelao_2uni 96 (160) 65533.
Proof. apply tabin_chk. vm_cast_no_check (eq_refl true). Qed.
Lemma ti_mulelao_page0e : tabin mulelao_page0e 96 (0) 253.
Proof. apply tabin_chk. vm_cast_no_check (eq_refl true). Qed.
Lemma ti_nextstep_2uni : tabin nextstep_2uni 128 (160) 65533.
Proof. apply tabin_chk. vm_cast_no_check (eq_refl true). Qed.
Lemma ti_nextstep_page00 : tabin nextstep_page00 96 (0) 253.
Proof. apply tabin_chk. vm_cast_no_check (eq_refl true). Qed.
Lemma ti_nextstep_page01 : tabin nextstep_page01 104 (0) 250.
Proof. apply tabin_chk. vm_cast_no_check (eq_refl true). Qed.
Lemma ti_nextstep_page02 : tabin nextstep_page02 32 (0) 207.
Proof. apply tabin_chk. vm_cast_no_check (eq_refl true). Qed.
Lemma ti_nextstep_page20 : tabin nextstep_page20 56 (0) 208.
Proof. apply tabin_chk. vm_cast_no_check (eq_refl true). Qed.
Lemma ti_nextstep_pagefb : tabin nextstep_pagefb 8 (0) 175.
Proof. apply tabin_chk. vm_cast_no_check (eq_refl true). Qed.
Lemma ti_pt154_2uni : tabin pt154_2uni 64 (160) 8470.
Proof. apply tabin_chk. vm_cast_no_check (eq_refl true). Qed.
Lemma ti_pt154_page00 : tabin pt154_page00 32 (0) 187.
Proof. apply tabin_chk. vm_cast_no_check (eq_refl true). Qed.
Lemma ti_pt154_page04 : tabin pt154_page04 240 (0) 255.
Proof. apply tabin_chk. vm_cast_no_check (eq_refl true). Qed.
Lemma ti_pt154_page20 : tabin pt154_page20 24 (0) 151.
Proof. apply tabin_chk. vm_cast_no_check (eq_refl true). Qed.
Lemma ti_rk1048_2uni : tabin rk1048_2uni 128 (160) 65533.
Proof. apply tabin_chk. vm_cast_no_check (eq_refl true). Qed.
Lemma ti_rk1048_page00 : tabin rk1048_page00 32 (0) 187.
Proof. apply tabin_chk. vm_cast_no_check (eq_refl true). Qed.
Lemma ti_rk1048_page04 : tabin rk1048_page04 240 (0) 255.
Proof. apply tabin_chk. vm_cast_no_check (eq_refl true). Qed.
Lemma ti_rk1048_page20 : tabin rk1048_page20 48 (0) 155.
Proof. apply tabin_chk. vm_cast_no_check (eq_refl true). Qed.
Lemma ti_rk1048_page21 : tabin rk1048_page21 24 (0) 185.
Proof. apply tabin_chk. vm_cast_no_check (eq_refl true). Qed.
Lemma ti_tcvn_comb_table : tabin tcvn_comb_table 5 (176) 180.
Proof. apply tabin_chk. vm_cast_no_check (eq_refl true). Qed.
Lemma ti_tcvn_comp_bases : tabin tcvn_comp_bases 12 (0) 117308350.
Proof. apply tabin_chk. vm_cast_no_check (eq_refl true). Qed.
Lemma ti_tcvn_2uni_1 : tabin tcvn_2uni_1 24 (0) 7928.
Proof. apply tabin_chk. vm_cast_no_check (eq_refl true). Qed.
Lemma ti_tcvn_2uni_2 : tabin tcvn_2uni_2 128 (160) 7929.
Proof. apply tabin_chk. vm_cast_no_check (eq_refl true). Qed.
Lemma ti_tcvn_page00 : tabin tcvn_page00 280 (0) 253.
Proof. apply tabin_chk. vm_cast_no_check (eq_refl true). Qed.
Lemma ti_tcvn_page03 : tabin tcvn_page03 40 (0) 180.
Proof. apply tabin_chk. vm_cast_no_check (eq_refl true). Qed.
Lemma ti_tcvn_page1e : tabin tcvn_page1e 96 (0) 255.
Proof. apply tabin_chk. vm_cast_no_check (eq_refl true). Qed.
Lemma ti_viscii_2uni_1 : tabin viscii_2uni_1 32 (0) 7928.
Proof. apply tabin_chk. vm_cast_no_check (eq_refl true). Qed.
Lemma ti_viscii_2uni_2 : tabin viscii_2uni_2 128 (192) 7929.
Proof. apply tabin_chk. vm_cast_no_check (eq_refl true). Qed.
Lemma ti_viscii_page00 : tabin viscii_page00 248 (0) 253.
Proof. apply tabin_chk. vm_cast_no_check (eq_refl true). Qed.
Lemma ti_viscii_page1e : tabin viscii_page1e 96 (0) 255.
Proof. apply tabin_chk. vm_cast_no_check (eq_refl true). Qed.
Lemma ti_cp1046_2uni : tabin cp1046_2uni 128 (136) 65533.
Proof. apply tabin_chk. vm_cast_no_check (eq_refl true). Qed.
Lemma ti_cp1046_page00 : tabin cp1046_page00 112 (0) 173.
Proof. apply tabin_chk. vm_cast_no_check (eq_refl true). Qed.
Lemma ti_cp1046_page06 : tabin cp1046_page06 104 (0) 242.
Proof. apply tabin_chk. vm_cast_no_check (eq_refl true). Qed.
Lemma ti_cp1046_page25 : tabin cp1046_page25 32 (0) 143.
Proof. apply tabin_chk. vm_cast_no_check (eq_refl true). Qed.
Lemma ti_cp1046_pagef8 : tabin cp1046_pagef8 16 (0) 246.
Proof. apply tabin_chk. vm_cast_no_check (eq_refl true). Qed.
Lemma ti_cp1046_pagefe : tabin cp1046_pagefe 144 (0) 254.
Proof. apply tabin_chk. vm_cast_no_check (eq_refl true). Qed.
Lemma ti_cp1124_2uni : tabin cp1124_2uni 96 (160) 8470.
Proof. apply tabin_chk. vm_cast_no_check (eq_refl true). Qed.
Lemma ti_cp1124_page00 : tabin cp1124_page00 16 (0) 253.
Proof. apply tabin_chk. vm_cast_no_check (eq_refl true). Qed.
Lemma ti_cp1124_page04 : tabin cp1124_page04 152 (0) 255.
Proof. apply tabin_chk. vm_cast_no_check (eq_refl true). Qed.
Lemma ti_cp1129_2uni : tabin cp1129_2uni 96 (160) 8363.
Proof. apply tabin_chk. vm_cast_no_check (eq_refl true). Qed.
Lemma ti_cp1129_page00 : tabin cp1129_page00 272 (0) 255.
Proof. apply tabin_chk. vm_cast_no_check (eq_refl true). Qed.
Lemma ti_cp1129_page03 : tabin cp1129_page03 40 (0) 242.
Proof. apply tabin_chk. vm_cast_no_check (eq_refl true). Qed.
Lemma ti_cp1161_2uni : tabin cp1161_2uni 96 (160) 8364.
Proof. apply tabin_chk. vm_cast_no_check (eq_refl true). Qed.
Lemma ti_cp1161_page00 : tabin cp1161_page00 16 (0) 255.
Proof. apply tabin_chk. vm_cast_no_check (eq_refl true). Qed.
Lemma ti_cp1163_page20 : tabin cp1163_page20 8 (0) 254.
Proof. apply tabin_chk. vm_cast_no_check (eq_refl true). Qed.
Lemma ti_cp856_2uni : tabin cp856_2uni 128 (160) 65533.
Proof. apply tabin_chk. vm_cast_no_check (eq_refl true). Qed.
Lemma ti_cp856_page00 : tabin cp856_page00 88 (0) 255.
Proof. apply tabin_chk. vm_cast_no_check (eq_refl true). Qed.
Lemma ti_cp856_page05 : tabin cp856_page05 32 (0) 154.
Proof. apply tabin_chk. vm_cast_no_check (eq_refl true). Qed.
Lemma ti_cp856_page25 : tabin cp856_page25 168 (0) 254.
Proof. apply tabin_chk. vm_cast_no_check (eq_refl true). Qed.
Lemma ti_cp922_2uni_1 : tabin cp922_2uni_1 16 (160) 8254.
Proof. apply tabin_chk. vm_cast_no_check (eq_refl true). Qed.
Lemma ti_cp922_2uni_2 : tabin cp922_2uni_2 16 (209) 381.
Proof. apply tabin_chk. vm_cast_no_check (eq_refl true). Qed.
Lemma ti_cp922_2uni_3 : tabin cp922_2uni_3 16 (241) 382.
Proof. apply tabin_chk. vm_cast_no_check (eq_refl true). Qed.
Lemma ti_cp922_page00 : tabin cp922_page00 88 (0) 255.
Proof. apply tabin_chk. vm_cast_no_check (eq_refl true). Qed.
Lemma ti_cp922_page01 : tabin cp922_page01 32 (0) 254.
Proof. apply tabin_chk. vm_cast_no_check (eq_refl true). Qed.
Lemma ti_cp1125_2uni : tabin cp1125_2uni 80 (160) 9632.
Proof. apply tabin_chk. vm_cast_no_check (eq_refl true). Qed.
Lemma ti_cp1125_page00 : tabin cp1125_page00 24 (0) 255.
Proof. apply tabin_chk. vm_cast_no_check (eq_refl true). Qed.
Lemma ti_cp1125_page04 : tabin cp1125_page04 152 (0) 249.
Proof. apply tabin_chk. vm_cast_no_check (eq_refl true). Qed.
Lemma ti_cp1125_page25 : tabin cp1125_page25 168 (0) 254.
Proof. apply tabin_chk. vm_cast_no_check (eq_refl true). Qed.
Lemma ti_cp437_2uni : tabin cp437_2uni 128 (160) 9632.
Proof. apply tabin_chk. vm_cast_no_check (eq_refl true). Qed.
Lemma ti_cp437_page00 : tabin cp437_page00 96 (0) 255.
Proof. apply tabin_chk. vm_cast_no_check (eq_refl true). Qed.
Lemma ti_cp437_page03 : tabin cp437_page03 56 (0) 238.
Proof. apply tabin_chk. vm_cast_no_check (eq_refl true). Qed.
Lemma ti_cp437_page22 : tabin cp437_page22 80 (0) 251.
Proof. apply tabin_chk. vm_cast_no_check (eq_refl true). Qed.
Lemma ti_cp437_page23 : tabin cp437_page23 24 (0) 245.
Proof. apply tabin_chk. vm_cast_no_check (eq_refl true). Qed.
Lemma ti_cp437_page25 : tabin cp437_page25 168 (0) 254.
Proof. apply tabin_chk. vm_cast_no_check (eq_refl true). Qed.
Lemma ti_cp737_2uni : tabin cp737_2uni 128 (160) 9632.
Proof. apply tabin_chk. vm_cast_no_check (eq_refl true). Qed.
Lemma ti_cp737_page00 : tabin cp737_page00 24 (0) 255.
Proof. apply tabin_chk. vm_cast_no_check (eq_refl true). Qed.
Lemma ti_cp737_page03 : tabin cp737_page03 80 (0) 245.
Proof. apply tabin_chk. vm_cast_no_check (eq_refl true). Qed.
Lemma ti_cp737_page22 : tabin cp737_page22 80 (0) 251.
Proof. apply tabin_chk. vm_cast_no_check (eq_refl true). Qed.
Lemma ti_cp737_page25 : tabin cp737_page25 168 (0) 254.
Proof. apply tabin_chk. vm_cast_no_check (eq_refl true). Qed.
Lemma ti_cp775_2uni : tabin cp775_2uni 128 (160) 9632.
Proof. apply tabin_chk. vm_cast_no_check (eq_refl true). Qed.
Lemma ti_cp775_page00 : tabin cp775_page00 224 (0) 255.
Proof. apply tabin_chk. vm_cast_no_check (eq_refl true). Qed.
Lemma ti_cp775_page20 : tabin cp775_page20 8 (0) 247.
Proof. apply tabin_chk. vm_cast_no_check (eq_refl true). Qed.
Lemma ti_cp775_page25 : tabin cp775_page25 168 (0) 254.
Proof. apply tabin_chk. vm_cast_no_check (eq_refl true). Qed.
Lemma ti_cp852_2uni : tabin cp852_2uni 128 (160) 9632.
Proof. apply tabin_chk. vm_cast_no_check (eq_refl true). Qed.
Lemma ti_cp852_page00 : tabin cp852_page00 224 (0) 255.
Proof. apply tabin_chk. vm_cast_no_check (eq_refl true). Qed.
Lemma ti_cp852_page02 : tabin cp852_page02 32 (0) 250.
Proof. apply tabin_chk. vm_cast_no_check (eq_refl true). Qed.
Lemma ti_cp852_page25 : tabin cp852_page25 168 (0) 254.
Proof. apply tabin_chk. vm_cast_no_check (eq_refl true). Qed.
Lemma ti_cp853_2uni : tabin cp853_2uni 128 (160) 65533.
Proof. apply tabin_chk. vm_cast_no_check (eq_refl true). Qed.
Lemma ti_cp853_page00 : tabin cp853_page00 96 (0) 255.
Proof. apply tabin_chk. vm_cast_no_check (eq_refl true). Qed.
Lemma ti_cp853_page01 : tabin cp853_page01 120 (0) 243.
Proof. apply tabin_chk. vm_cast_no_check (eq_refl true). Qed.
Lemma ti_cp853_page02 : tabin cp853_page02 8 (0) 250.
Proof. apply tabin_chk. vm_cast_no_check (eq_refl true). Qed.
Lemma ti_cp853_page25 : tabin cp853_page25 168 (0) 254.
Proof. apply tabin_chk. vm_cast_no_check (eq_refl true). Qed.
Lemma ti_cp855_2uni : tabin cp855_2uni 128 (160) 9632.
Proof. apply tabin_chk. vm_cast_no_check (eq_refl true). Qed.
Lemma ti_cp855_page00 : tabin cp855_page00 32 (0) 255.
Proof. apply tabin_chk. vm_cast_no_check (eq_refl true). Qed.
Lemma ti_cp855_page04 : tabin cp855_page04 96 (0) 252.
Proof. apply tabin_chk. vm_cast_no_check (eq_refl true). Qed.
Lemma ti_cp855_page25 : tabin cp855_page25 168 (0) 254.
Proof. apply tabin_chk. vm_cast_no_check (eq_refl true). Qed.
Lemma ti_cp857_2uni : tabin cp857_2uni 128 (160) 65533.
Proof. apply tabin_chk. vm_cast_no_check (eq_refl true). Qed.
Lemma ti_cp857_page00 : tabin cp857_page00 96 (0) 255.
Proof. apply tabin_chk. vm_cast_no_check (eq_refl true). Qed.
Lemma ti_cp857_page01 : tabin cp857_page01 72 (0) 167.
Proof. apply tabin_chk. vm_cast_no_check (eq_refl true). Qed.
Lemma ti_cp857_page25 : tabin cp857_page25 168 (0) 254.
Proof. apply tabin_chk. vm_cast_no_check (eq_refl true). Qed.
Lemma ti_cp860_2uni : tabin cp860_2uni 128 (160) 9632.
Proof. apply tabin_chk. vm_cast_no_check (eq_refl true). Qed.
Lemma ti_cp860_page00 : tabin cp860_page00 96 (0) 255.
Proof. apply tabin_chk. vm_cast_no_check (eq_refl true). Qed.
Lemma ti_cp860_page03 : tabin cp860_page03 56 (0) 238.
Proof. apply tabin_chk. vm_cast_no_check (eq_refl true). Qed.
Lemma ti_cp860_page22 : tabin cp860_page22 80 (0) 251.
Proof. apply tabin_chk. vm_cast_no_check (eq_refl true). Qed.
Lemma ti_cp860_page25 : tabin cp860_page25 168 (0) 254.
Proof. apply tabin_chk. vm_cast_no_check (eq_refl true). Qed.
Lemma ti_cp861_2uni : tabin cp861_2uni 128 (160) 9632.
Proof. apply tabin_chk. vm_cast_no_check (eq_refl true). Qed.
Lemma ti_cp861_page00 : tabin cp861_page00 96 (0) 255.
Proof. apply tabin_chk. vm_cast_no_check (eq_refl true). Qed.
Lemma ti_cp861_page03 : tabin cp861_page03 56 (0) 238.
Proof. apply tabin_chk. vm_cast_no_check (eq_refl true). Qed.
Lemma ti_cp861_page22 : tabin cp861_page22 80 (0) 251.
Proof. apply tabin_chk. vm_cast_no_check (eq_refl true). Qed.
Lemma ti_cp861_page23 : tabin cp861_page23 24 (0) 245.
Proof. apply tabin_chk. vm_cast_no_check (eq_refl true). Qed.
Lemma ti_cp861_page25 : tabin cp861_page25 168 (0) 254.
Proof. apply tabin_chk. vm_cast_no_check (eq_refl true). Qed.
Lemma ti_cp863_2uni : tabin cp863_2uni 128 (160) 9632.
Proof. apply tabin_chk. vm_cast_no_check (eq_refl true). Qed.
Lemma ti_cp863_page00 : tabin cp863_page00 96 (0) 255.
Proof. apply tabin_chk. vm_cast_no_check (eq_refl true). Qed.
Lemma ti_cp863_page03 : tabin cp863_page03 56 (0) 238.
Proof. apply tabin_chk. vm_cast_no_check (eq_refl true). Qed.
Lemma ti_cp863_page22 : tabin cp863_page22 80 (0) 251.
Proof. apply tabin_chk. vm_cast_no_check (eq_refl true). Qed.
Lemma ti_cp863_page23 : tabin cp863_page23 24 (0) 245.
Proof. apply tabin_chk. vm_cast_no_check (eq_refl true). Qed.
Lemma ti_cp863_page25 : tabin cp863_page25 168 (0) 254.
Proof. apply tabin_chk. vm_cast_no_check (eq_refl true). Qed.
Lemma ti_cp864_2uni_1 : tabin cp864_2uni_1 16 (32) 1642.
Proof. apply tabin_chk. vm_cast_no_check (eq_refl true). Qed.
Lemma ti_cp864_2uni_2 : tabin cp864_2uni_2 128 (160) 65533.
Proof. apply tabin_chk. vm_cast_no_check (eq_refl true). Qed.
Lemma ti_cp864_page00 : tabin cp864_page00 8 (0) 39.
Proof. apply tabin_chk. vm_cast_no_check (eq_refl true). Qed.
Lemma ti_cp864_page00_1 : tabin cp864_page00_1 88 (0) 222.
Proof. apply tabin_chk. vm_cast_no_check (eq_refl true). Qed.
Lemma ti_cp864_page06 : tabin cp864_page06 104 (0) 241.
Proof. apply tabin_chk. vm_cast_no_check (eq_refl true). Qed.
Lemma ti_cp864_page22 : tabin cp864_page22 56 (0) 150.
Proof. apply tabin_chk. vm_cast_no_check (eq_refl true). Qed.
Lemma ti_cp864_page25 : tabin cp864_page25 64 (0) 143.
Proof. apply tabin_chk. vm_cast_no_check (eq_refl true). Qed.
Lemma ti_cp864_pagefe : tabin cp864_pagefe 136 (0) 253.
Proof. apply tabin_chk. vm_cast_no_check (eq_refl true). Qed.
Lemma ti_cp865_2uni : tabin cp865_2uni 128 (160) 9632.
Proof. apply tabin_chk. vm_cast_no_check (eq_refl true). Qed.
Lemma ti_cp865_page00 : tabin cp865_page00 96 (0) 255.
Proof. apply tabin_chk. vm_cast_no_check (eq_refl true). Qed.
Lemma ti_cp865_page03 : tabin cp865_page03 56 (0) 238.
Proof. apply tabin_chk. vm_cast_no_check (eq_refl true). Qed.
Lemma ti_cp865_page22 : tabin cp865_page22 80 (0) 251.
Proof. apply tabin_chk. vm_cast_no_check (eq_refl true). Qed.
Lemma ti_cp865_page23 : tabin cp865_page23 24 (0) 245.
Proof. apply tabin_chk. vm_cast_no_check (eq_refl true). Qed.
Lemma ti_cp865_page25 : tabin cp865_page25 168 (0) 254.
Proof. apply tabin_chk. vm_cast_no_check (eq_refl true). Qed.
Lemma ti_cp869_2uni : tabin cp869_2uni 128 (160) 65533.
Proof. apply tabin_chk. vm_cast_no_check (eq_refl true). Qed.
Lemma ti_cp869_page00 : tabin cp869_page00 32 (0) 255.
Proof. apply tabin_chk. vm_cast_no_check (eq_refl true). Qed.
Lemma ti_cp869_page03 : tabin cp869_page03 80 (0) 253.
Proof. apply tabin_chk. vm_cast_no_check (eq_refl true). Qed.
Lemma ti_cp869_page20 : tabin cp869_page20 16 (0) 142.
Proof. apply tabin_chk. vm_cast_no_check (eq_refl true). Qed.
Lemma ti_cp869_page25 : tabin cp869_page25 168 (0) 254.
Proof. apply tabin_chk. vm_cast_no_check (eq_refl true). Qed.
Lemma ti_atarist_2uni : tabin atarist_2uni 128 (161) 8993.
Proof. apply tabin_chk. vm_cast_no_check (eq_refl true). Qed.
Lemma ti_atarist_page00 : tabin atarist_page00 96 (0) 255.
Proof. apply tabin_chk. vm_cast_no_check (eq_refl true). Qed.
Lemma ti_atarist_page01 : tabin atarist_page01 104 (0) 193.
Proof. apply tabin_chk. vm_cast_no_check (eq_refl true). Qed.
Lemma ti_atarist_page03 : tabin atarist_page03 56 (0) 237.
Proof. apply tabin_chk. vm_cast_no_check (eq_refl true). Qed.
Lemma ti_atarist_page05 : tabin atarist_page05 32 (0) 220.
Proof. apply tabin_chk. vm_cast_no_check (eq_refl true). Qed.
Lemma ti_atarist_page22 : tabin atarist_page22 96 (0) 251.
Proof. apply tabin_chk. vm_cast_no_check (eq_refl true). Qed.
Lemma ti_atarist_page23 : tabin atarist_page23 24 (0) 245.
Proof. apply tabin_chk. vm_cast_no_check (eq_refl true). Qed.
Lemma ti_riscos1_2uni : tabin riscos1_2uni 32 (131) 64258.
Proof. apply tabin_chk. vm_cast_no_check (eq_refl true). Qed.
Lemma ti_riscos1_page01 : tabin riscos1_page01 40 (0) 155.
Proof. apply tabin_chk. vm_cast_no_check (eq_refl true). Qed.
Lemma ti_riscos1_page20 : tabin riscos1_page20 48 (0) 157.
Proof. apply tabin_chk. vm_cast_no_check (eq_refl true). Qed.
Lemma ti_riscos1_page21 : tabin riscos1_page21 16 (0) 139.
Proof. apply tabin_chk. vm_cast_no_check (eq_refl true). Qed.
Lemma ti_riscos1_page22 : tabin riscos1_page22 16 (0) 153.
Proof. apply tabin_chk. vm_cast_no_check (eq_refl true). Qed.
Lemma ti_tds565_2uni : tabin tds565_2uni 64 (64) 8470.
Proof. apply tabin_chk. vm_cast_no_check (eq_refl true). Qed.
Lemma ti_tds565_page00 : tabin tds565_page00 64 (0) 127.
Proof. apply tabin_chk. vm_cast_no_check (eq_refl true). Qed.
Lemma ti_tds565_page00_1 : tabin tds565_page00_1 64 (0) 125.
Proof. apply tabin_chk. vm_cast_no_check (eq_refl true). Qed.
Lemma ti_tds565_page01 : tabin tds565_page01 64 (0) 119.
Proof. apply tabin_chk. vm_cast_no_check (eq_refl true). Qed.
Lemma ti_ebcdic037_2uni : tabin ebcdic037_2uni 256 (0) 255.
Proof. apply tabin_chk. vm_cast_no_check (eq_refl true). Qed.
Lemma ti_ebcdic037_page00 : tabin ebcdic037_page00 256 (0) 255.
Proof. apply tabin_chk. vm_cast_no_check (eq_refl true). Qed.
Lemma ti_ebcdic273_2uni : tabin ebcdic273_2uni 256 (0) 255.
Proof. apply tabin_chk. vm_cast_no_check (eq_refl true). Qed.
Lemma ti_ebcdic273_page00 : tabin ebcdic273_page00 256 (0) 255.
Proof. apply tabin_chk. vm_cast_no_check (eq_refl true). Qed.
Lemma ti_ebcdic277_2uni : tabin ebcdic277_2uni 256 (0) 255.
Proof. apply tabin_chk. vm_cast_no_check (eq_refl true). Qed.
Lemma ti_ebcdic277_page00 : tabin ebcdic277_page00 256 (0) 255.
Proof. apply tabin_chk. vm_cast_no_check (eq_refl true). Qed.
Lemma ti_ebcdic278_2uni : tabin ebcdic278_2uni 256 (0) 255.
Proof. apply tabin_chk. vm_cast_no_check (eq_refl true). Qed.
Lemma ti_ebcdic278_page00 : tabin ebcdic278_page00 256 (0) 255.
Proof. apply tabin_chk. vm_cast_no_check (eq_refl true). Qed.
Lemma ti_ebcdic280_2uni : tabin ebcdic280_2uni 256 (0) 255.
Proof. apply tabin_chk. vm_cast_no_check (eq_refl true). Qed.
Lemma ti_ebcdic280_page00 : tabin ebcdic280_page00 256 (0) 255.
Proof. apply tabin_chk. vm_cast_no_check (eq_refl true). Qed.
Lemma ti_ebcdic282_2uni : tabin ebcdic282_2uni 256 (0) 255.
Proof. apply tabin_chk. vm_cast_no_check (eq_refl true). Qed.
Lemma ti_ebcdic282_page00 : tabin ebcdic282_page00 256 (0) 255.
Proof. apply tabin_chk. vm_cast_no_check (eq_refl true). Qed.
Lemma ti_ebcdic284_2uni : tabin ebcdic284_2uni 256 (0) 255.
Proof. apply tabin_chk. vm_cast_no_check (eq_refl true). Qed.
Lemma ti_ebcdic284_page00 : tabin ebcdic284_page00 256 (0) 255.
Proof. apply tabin_chk. vm_cast_no_check (eq_refl true). Qed.
Lemma ti_ebcdic285_2uni : tabin ebcdic285_2uni 256 (0) 255.
Proof. apply tabin_chk. vm_cast_no_check (eq_refl true). Qed.
Lemma ti_ebcdic285_page00 : tabin ebcdic285_page00 256 (0) 255.
Proof. apply tabin_chk. vm_cast_no_check (eq_refl true). Qed.
Lemma ti_ebcdic297_2uni : tabin ebcdic297_2uni 256 (0) 255.
Proof. apply tabin_chk. vm_cast_no_check (eq_refl true). Qed.
Lemma ti_ebcdic297_page00 : tabin ebcdic297_page00 256 (0) 255.
Proof. apply tabin_chk. vm_cast_no_check (eq_refl true). Qed.
Lemma ti_ebcdic423_2uni : tabin ebcdic423_2uni 256 (0) 65533.
Proof. apply tabin_chk. vm_cast_no_check (eq_refl true). Qed.
Lemma ti_ebcdic423_page00 : tabin ebcdic423_page00 256 (0) 255.
Proof. apply tabin_chk. vm_cast_no_check (eq_refl true). Qed.
Lemma ti_ebcdic423_page03 : tabin ebcdic423_page03 80 (0) 203.
Proof. apply tabin_chk. vm_cast_no_check (eq_refl true). Qed.
Lemma ti_ebcdic424_2uni : tabin ebcdic424_2uni 256 (0) 65533.
Proof. apply tabin_chk. vm_cast_no_check (eq_refl true). Qed.
Lemma ti_ebcdic424_page00 : tabin ebcdic424_page00 248 (0) 255.
Proof. apply tabin_chk. vm_cast_no_check (eq_refl true). Qed.
Lemma ti_ebcdic424_page05 : tabin ebcdic424_page05 32 (0) 113.
Proof. apply tabin_chk. vm_cast_no_check (eq_refl true). Qed.
Lemma ti_ebcdic424_page20 : tabin ebcdic424_page20 48 (0) 188.
Proof. apply tabin_chk. vm_cast_no_check (eq_refl true). Qed.
Lemma ti_ebcdic425_2uni : tabin ebcdic425_2uni 256 (0) 65533.
Proof. apply tabin_chk. vm_cast_no_check (eq_refl true). Qed.
Lemma ti_ebcdic425_page00 : tabin ebcdic425_page00 256 (0) 255.
Proof. apply tabin_chk. vm_cast_no_check (eq_refl true). Qed.
Lemma ti_ebcdic425_page01 : tabin ebcdic425_page01 48 (0) 185.
Proof. apply tabin_chk. vm_cast_no_check (eq_refl true). Qed.
Lemma ti_ebcdic425_page06 : tabin ebcdic425_page06 80 (0) 234.
Proof. apply tabin_chk. vm_cast_no_check (eq_refl true). Qed.
Lemma ti_ebcdic425_page20 : tabin ebcdic425_page20 8 (0) 239.
Proof. apply tabin_chk. vm_cast_no_check (eq_refl true). Qed.
Lemma ti_ebcdic500_2uni : tabin ebcdic500_2uni 256 (0) 255.
Proof. apply tabin_chk. vm_cast_no_check (eq_refl true). Qed.
Lemma ti_ebcdic500_page00 : tabin ebcdic500_page00 256 (0) 255.
Proof. apply tabin_chk. vm_cast_no_check (eq_refl true). Qed.
Lemma ti_ebcdic838_2uni : tabin ebcdic838_2uni 256 (0) 3675.
Proof. apply tabin_chk. vm_cast_no_check (eq_refl true). Qed.
Lemma ti_ebcdic838_page00 : tabin ebcdic838_page00 176 (0) 255.
Proof. apply tabin_chk. vm_cast_no_check (eq_refl true). Qed.
Lemma ti_ebcdic838_page0e : tabin ebcdic838_page0e 96 (0) 252.
Proof. apply tabin_chk. vm_cast_no_check (eq_refl true). Qed.
Lemma ti_ebcdic870_2uni : tabin ebcdic870_2uni 256 (0) 733.
Proof. apply tabin_chk. vm_cast_no_check (eq_refl true). Qed.
Lemma ti_ebcdic870_page00 : tabin ebcdic870_page00 384 (0) 255.
Proof. apply tabin_chk. vm_cast_no_check (eq_refl true). Qed.
Lemma ti_ebcdic870_page02 : tabin ebcdic870_page02 32 (0) 176.
Proof. apply tabin_chk. vm_cast_no_check (eq_refl true). Qed.
Lemma ti_ebcdic871_2uni : tabin ebcdic871_2uni 256 (0) 255.
Proof. apply tabin_chk. vm_cast_no_check (eq_refl true). Qed.
Lemma ti_ebcdic871_page00 : tabin ebcdic871_page00 256 (0) 255.
Proof. apply tabin_chk. vm_cast_no_check (eq_refl true). Qed.
Lemma ti_ebcdic875_2uni : tabin ebcdic875_2uni 256 (0) 65533.
Proof. apply tabin_chk. vm_cast_no_check (eq_refl true). Qed.
Lemma ti_ebcdic875_page00 : tabin ebcdic875_page00 192 (0) 255.
Proof. apply tabin_chk. vm_cast_no_check (eq_refl true). Qed.
Lemma ti_ebcdic875_page03 : tabin ebcdic875_page03 80 (0) 221.
Proof. apply tabin_chk. vm_cast_no_check (eq_refl true). Qed.
Lemma ti_ebcdic875_page20 : tabin ebcdic875_page20 16 (0) 222.
Proof. apply tabin_chk. vm_cast_no_check (eq_refl true). Qed.
Lemma ti_ebcdic880_2uni : tabin ebcdic880_2uni 256 (0) 8470.
Proof. apply tabin_chk. vm_cast_no_check (eq_refl true). Qed.
Lemma ti_ebcdic880_page00 : tabin ebcdic880_page00 176 (0) 255.
Proof. apply tabin_chk. vm_cast_no_check (eq_refl true). Qed.
Lemma ti_ebcdic880_page04 : tabin ebcdic880_page04 96 (0) 254.
Proof. apply tabin_chk. vm_cast_no_check (eq_refl true). Qed.
Lemma ti_ebcdic905_2uni : tabin ebcdic905_2uni 256 (0) 65533.
Proof. apply tabin_chk. vm_cast_no_check (eq_refl true). Qed.
Lemma ti_ebcdic905_page00 : tabin ebcdic905_page00 256 (0) 255.
Proof. apply tabin_chk. vm_cast_no_check (eq_refl true). Qed.
Lemma ti_ebcdic905_page01 : tabin ebcdic905_page01 120 (0) 239.
Proof. apply tabin_chk. vm_cast_no_check (eq_refl true). Qed.
Lemma ti_ebcdic905_page02 : tabin ebcdic905_page02 8 (0) 176.
Proof. apply tabin_chk. vm_cast_no_check (eq_refl true). Qed.
Lemma ti_ebcdic924_2uni : tabin ebcdic924_2uni 256 (0) 8364.
Proof. apply tabin_chk. vm_cast_no_check (eq_refl true). Qed.
Lemma ti_ebcdic924_page00 : tabin ebcdic924_page00 256 (0) 255.
Proof. apply tabin_chk. vm_cast_no_check (eq_refl true). Qed.
Lemma ti_ebcdic924_page01 : tabin ebcdic924_page01 48 (0) 190.
Proof. apply tabin_chk. vm_cast_no_check (eq_refl true). Qed.
Lemma ti_ebcdic1025_2uni : tabin ebcdic1025_2uni 256 (0) 8470.
Proof. apply tabin_chk. vm_cast_no_check (eq_refl true). Qed.
Lemma ti_ebcdic1025_page00 : tabin ebcdic1025_page00 176 (0) 255.
Proof. apply tabin_chk. vm_cast_no_check (eq_refl true). Qed.
Lemma ti_ebcdic1026_2uni : tabin ebcdic1026_2uni 256 (0) 351.
Proof. apply tabin_chk. vm_cast_no_check (eq_refl true). Qed.
Lemma ti_ebcdic1026_page00 : tabin ebcdic1026_page00 256 (0) 255.
Proof. apply tabin_chk. vm_cast_no_check (eq_refl true). Qed.
Lemma ti_ebcdic1026_page01 : tabin ebcdic1026_page01 72 (0) 208.
Proof. apply tabin_chk. vm_cast_no_check (eq_refl true). Qed.
Lemma ti_ebcdic1047_2uni : tabin ebcdic1047_2uni 256 (0) 255.
Proof. apply tabin_chk. vm_cast_no_check (eq_refl true). Qed.
Lemma ti_ebcdic1047_page00 : tabin ebcdic1047_page00 256 (0) 255.
Proof. apply tabin_chk. vm_cast_no_check (eq_refl true). Qed.
Lemma ti_ebcdic1097_2uni : tabin ebcdic1097_2uni 256 (0) 65261.
Proof. apply tabin_chk. vm_cast_no_check (eq_refl true). Qed.
Lemma ti_ebcdic1097_page00 : tabin ebcdic1097_page00 216 (0) 255.
Proof. apply tabin_chk. vm_cast_no_check (eq_refl true). Qed.
Lemma ti_ebcdic1097_page06 : tabin ebcdic1097_page06 72 (0) 234.
Proof. apply tabin_chk. vm_cast_no_check (eq_refl true). Qed.
Lemma ti_ebcdic1097_page06_1 : tabin ebcdic1097_page06_1 16 (0) 254.
Proof. apply tabin_chk. vm_cast_no_check (eq_refl true). Qed.
Lemma ti_ebcdic1097_pagef8 : tabin ebcdic1097_pagef8 8 (0) 84.
Proof. apply tabin_chk. vm_cast_no_check (eq_refl true). Qed.
Lemma ti_ebcdic1097_pagefb : tabin ebcdic1097_pagefb 88 (0) 220.
Proof. apply tabin_chk. vm_cast_no_check (eq_refl true). Qed.
Lemma ti_ebcdic1097_pagefb_2 : tabin ebcdic1097_pagefb_2 8 (0) 223.
Proof. apply tabin_chk. vm_cast_no_check (eq_refl true). Qed.
Lemma ti_ebcdic1097_pagefe : tabin ebcdic1097_pagefe 112 (0) 219.
Proof. apply tabin_chk. vm_cast_no_check (eq_refl true). Qed.
Lemma ti_ebcdic1112_2uni : tabin ebcdic1112_2uni 256 (0) 8222.
Proof. apply tabin_chk. vm_cast_no_check (eq_refl true). Qed.
Lemma ti_ebcdic1112_page00 : tabin ebcdic1112_page00 384 (0) 255.
Proof. apply tabin_chk. vm_cast_no_check (eq_refl true). Qed.
Lemma ti_ebcdic1112_page20 : tabin ebcdic1112_page20 8 (0) 223.
Proof. apply tabin_chk. vm_cast_no_check (eq_refl true). Qed.
Lemma ti_ebcdic1122_2uni : tabin ebcdic1122_2uni 256 (0) 382.
Proof. apply tabin_chk. vm_cast_no_check (eq_refl true). Qed.
Lemma ti_ebcdic1122_page00 : tabin ebcdic1122_page00 256 (0) 255.
Proof. apply tabin_chk. vm_cast_no_check (eq_refl true). Qed.
Lemma ti_ebcdic1122_page01 : tabin ebcdic1122_page01 32 (0) 174.
Proof. apply tabin_chk. vm_cast_no_check (eq_refl true). Qed.
Lemma ti_ebcdic1123_2uni : tabin ebcdic1123_2uni 256 (0) 8470.
Proof. apply tabin_chk. vm_cast_no_check (eq_refl true). Qed.
Lemma ti_ebcdic1123_page04 : tabin ebcdic1123_page04 152 (0) 254.
Proof. apply tabin_chk. vm_cast_no_check (eq_refl true). Qed.
Lemma ti_ebcdic1130_2uni : tabin ebcdic1130_2uni 256 (0) 8363.
Proof. apply tabin_chk. vm_cast_no_check (eq_refl true). Qed.
Lemma ti_ebcdic1130_page00 : tabin ebcdic1130_page00 440 (0) 255.
Proof. apply tabin_chk. vm_cast_no_check (eq_refl true). Qed.
Lemma ti_ebcdic1130_page03 : tabin ebcdic1130_page03 40 (0) 174.
Proof. apply tabin_chk. vm_cast_no_check (eq_refl true). Qed.
Lemma ti_ebcdic1132_2uni : tabin ebcdic1132_2uni 256 (0) 65533.
Proof. apply tabin_chk. vm_cast_no_check (eq_refl true). Qed.
Lemma ti_ebcdic1132_page0e : tabin ebcdic1132_page0e 96 (0) 222.
Proof. apply tabin_chk. vm_cast_no_check (eq_refl true). Qed.
Lemma ti_ebcdic1137_2uni : tabin ebcdic1137_2uni 256 (0) 65533.
Proof. apply tabin_chk. vm_cast_no_check (eq_refl true). Qed.
Lemma ti_ebcdic1137_page00 : tabin ebcdic1137_page00 168 (0) 255.
Proof. apply tabin_chk. vm_cast_no_check (eq_refl true). Qed.
Lemma ti_ebcdic1137_page09 : tabin ebcdic1137_page09 120 (0) 254.
Proof. apply tabin_chk. vm_cast_no_check (eq_refl true). Qed.
Lemma ti_ebcdic1137_page20 : tabin ebcdic1137_page20 8 (0) 225.
Proof. apply tabin_chk. vm_cast_no_check (eq_refl true). Qed.
Lemma ti_ebcdic1140_2uni : tabin ebcdic1140_2uni 256 (0) 8364.
Proof. apply tabin_chk. vm_cast_no_check (eq_refl true). Qed.
Lemma ti_ebcdic1140_page00 : tabin ebcdic1140_page00 256 (0) 255.
Proof. apply tabin_chk. vm_cast_no_check (eq_refl true). Qed.
Lemma ti_ebcdic1141_2uni : tabin ebcdic1141_2uni 256 (0) 8364.
Proof. apply tabin_chk. vm_cast_no_check (eq_refl true). Qed.
Lemma ti_ebcdic1141_page00 : tabin ebcdic1141_page00 256 (0) 255.
Proof. apply tabin_chk. vm_cast_no_check (eq_refl true). Qed.
Lemma ti_ebcdic1142_2uni : tabin ebcdic1142_2uni 256 (0) 8364.
Proof. apply tabin_chk. vm_cast_no_check (eq_refl true). Qed.
Lemma ti_ebcdic1142_page00 : tabin ebcdic1142_page00 256 (0) 255.
Proof. apply tabin_chk. vm_cast_no_check (eq_refl true). Qed.
Lemma ti_ebcdic1143_2uni : tabin ebcdic1143_2uni 256 (0) 8364.
Proof. apply tabin_chk. vm_cast_no_check (eq_refl true). Qed.
Lemma ti_ebcdic1143_page00 : tabin ebcdic1143_page00 256 (0) 255.
Proof. apply tabin_chk. vm_cast_no_check (eq_refl true). Qed.
Lemma ti_ebcdic1144_2uni : tabin ebcdic1144_2uni 256 (0) 8364.
Proof. apply tabin_chk. vm_cast_no_check (eq_refl true). Qed.
Lemma ti_ebcdic1144_page00 : tabin ebcdic1144_page00 256 (0) 255.
Proof. apply tabin_chk. vm_cast_no_check (eq_refl true). Qed.
Lemma ti_ebcdic1145_2uni : tabin ebcdic1145_2uni 256 (0) 8364.
Proof. apply tabin_chk. vm_cast_no_check (eq_refl true). Qed.
Lemma ti_ebcdic1145_page00 : tabin ebcdic1145_page00 256 (0) 255.
Proof. apply tabin_chk. vm_cast_no_check (eq_refl true). Qed.
Lemma ti_ebcdic1146_2uni : tabin ebcdic1146_2uni 256 (0) 8364.
Proof. apply tabin_chk. vm_cast_no_check (eq_refl true). Qed.
Lemma ti_ebcdic1146_page00 : tabin ebcdic1146_page00 256 (0) 255.
Proof. apply tabin_chk. vm_cast_no_check (eq_refl true). Qed.
Lemma ti_ebcdic1147_2uni : tabin ebcdic1147_2uni 256 (0) 8364.
Proof. apply tabin_chk. vm_cast_no_check (eq_refl true). Qed.
Lemma ti_ebcdic1147_page00 : tabin ebcdic1147_page00 256 (0) 255.
Proof. apply tabin_chk. vm_cast_no_check (eq_refl true). Qed.
Lemma ti_ebcdic1148_2uni : tabin ebcdic1148_2uni 256 (0) 8364.
Proof. apply tabin_chk. vm_cast_no_check (eq_refl true). Qed.
Lemma ti_ebcdic1148_page00 : tabin ebcdic1148_page00 256 (0) 255.
Proof. apply tabin_chk. vm_cast_no_check (eq_refl true). Qed.
Lemma ti_ebcdic1149_2uni : tabin ebcdic1149_2uni 256 (0) 8364.
Proof. apply tabin_chk. vm_cast_no_check (eq_refl true). Qed.
Lemma ti_ebcdic1149_page00 : tabin ebcdic1149_page00 256 (0) 255.
Proof. apply tabin_chk. vm_cast_no_check (eq_refl true). Qed.
Lemma ti_ebcdic1153_2uni : tabin ebcdic1153_2uni 256 (0) 8364.
Proof. apply tabin_chk. vm_cast_no_check (eq_refl true). Qed.
Lemma ti_ebcdic1153_page00 : tabin ebcdic1153_page00 384 (0) 255.
Proof. apply tabin_chk. vm_cast_no_check (eq_refl true). Qed.
Lemma ti_ebcdic1154_2uni : tabin ebcdic1154_2uni 256 (0) 8470.
Proof. apply tabin_chk. vm_cast_no_check (eq_refl true). Qed.
Lemma ti_ebcdic1154_page00 : tabin ebcdic1154_page00 176 (0) 255.
Proof. apply tabin_chk. vm_cast_no_check (eq_refl true). Qed.
Lemma ti_ebcdic1155_2uni : tabin ebcdic1155_2uni 256 (0) 8364.
Proof. apply tabin_chk. vm_cast_no_check (eq_refl true). Qed.
Lemma ti_ebcdic1155_page00 : tabin ebcdic1155_page00 256 (0) 255.
Proof. apply tabin_chk. vm_cast_no_check (eq_refl true). Qed.
Lemma ti_ebcdic1156_2uni : tabin ebcdic1156_2uni 256 (0) 8364.
Proof. apply tabin_chk. vm_cast_no_check (eq_refl true). Qed.
Lemma ti_ebcdic1156_page00 : tabin ebcdic1156_page00 384 (0) 255.
Proof. apply tabin_chk. vm_cast_no_check (eq_refl true). Qed.
Lemma ti_ebcdic1157_2uni : tabin ebcdic1157_2uni 256 (0) 8364.
Proof. apply tabin_chk. vm_cast_no_check (eq_refl true). Qed.
Lemma ti_ebcdic1157_page00 : tabin ebcdic1157_page00 256 (0) 255.
Proof. apply tabin_chk. vm_cast_no_check (eq_refl true). Qed.
Lemma ti_ebcdic1158_2uni : tabin ebcdic1158_2uni 256 (0) 8470.
Proof. apply tabin_chk. vm_cast_no_check (eq_refl true). Qed.
Lemma ti_ebcdic1160_2uni : tabin ebcdic1160_2uni 256 (0) 8364.
Proof. apply tabin_chk. vm_cast_no_check (eq_refl true). Qed.
Lemma ti_ebcdic1164_2uni : tabin ebcdic1164_2uni 256 (0) 8364.
Proof. apply tabin_chk. vm_cast_no_check (eq_refl true). Qed.
Lemma ti_ebcdic1164_page00 : tabin ebcdic1164_page00 440 (0) 255.
Proof. apply tabin_chk. vm_cast_no_check (eq_refl true). Qed.
Lemma ti_ebcdic1164_page20 : tabin ebcdic1164_page20 8 (0) 159.
Proof. apply tabin_chk. vm_cast_no_check (eq_refl true). Qed.
Lemma ti_ebcdic1165_2uni : tabin ebcdic1165_2uni 256 (0) 8364.
Proof. apply tabin_chk. vm_cast_no_check (eq_refl true). Qed.
Lemma ti_ebcdic1165_page00 : tabin ebcdic1165_page00 384 (0) 255.
Proof. apply tabin_chk. vm_cast_no_check (eq_refl true). Qed.
Lemma ti_ebcdic1166_2uni : tabin ebcdic1166_2uni 256 (0) 8470.
Proof. apply tabin_chk. vm_cast_no_check (eq_refl true). Qed.
Lemma ti_ebcdic1166_page04 : tabin ebcdic1166_page04 240 (0) 254.
Proof. apply tabin_chk. vm_cast_no_check (eq_refl true). Qed.
Lemma ti_ebcdic4971_2uni : tabin ebcdic4971_2uni 256 (0) 65533.
Proof. apply tabin_chk. vm_cast_no_check (eq_refl true). Qed.
Lemma ti_ebcdic12712_2uni : tabin ebcdic12712_2uni 256 (0) 65533.
Proof. apply tabin_chk. vm_cast_no_check (eq_refl true). Qed.
Lemma ti_ebcdic12712_page20 : tabin ebcdic12712_page20 56 (0) 254.
Proof. apply tabin_chk. vm_cast_no_check (eq_refl true). Qed.
Lemma ti_ebcdic12712_page20_1 : tabin ebcdic12712_page20_1 8 (0) 158.
Proof. apply tabin_chk. vm_cast_no_check (eq_refl true). Qed.
Lemma ti_ebcdic16804_2uni : tabin ebcdic16804_2uni 256 (0) 65533.
Proof. apply tabin_chk. vm_cast_no_check (eq_refl true). Qed.
Lemma ti_ebcdic16804_page00 : tabin ebcdic16804_page00 248 (0) 255.
Proof. apply tabin_chk. vm_cast_no_check (eq_refl true). Qed.
Lemma ti_ebcdic16804_page06 : tabin ebcdic16804_page06 104 (0) 254.
Proof. apply tabin_chk. vm_cast_no_check (eq_refl true). Qed.
Lemma ti_ebcdic16804_page20 : tabin ebcdic16804_page20 16 (0) 225.
Proof. apply tabin_chk. vm_cast_no_check (eq_refl true). Qed.
Lemma ti_ebcdic16804_pagefe : tabin ebcdic16804_pagefe 136 (0) 222.
Proof. apply tabin_chk. vm_cast_no_check (eq_refl true). Qed.

Ltac ti_of t := lazymatch t with
  | direct_tab => constr:(ti_direct_tab)
  | xdirect_tab => constr:(ti_xdirect_tab)
  | xbase64_tab => constr:(ti_xbase64_tab)
  | viet_comp_table_data => constr:(ti_viet_comp_table_data)
  | viet_comp_table => constr:(ti_viet_comp_table)
  | viet_decomp_table => constr:(ti_viet_decomp_table)
  | armscii_8_2uni => constr:(ti_armscii_8_2uni)
  | armscii_8_page00 => constr:(ti_armscii_8_page00)
  | armscii_8_page00_1 => constr:(ti_armscii_8_page00_1)
  | armscii_8_page05 => constr:(ti_armscii_8_page05)
  | armscii_8_page20 => constr:(ti_armscii_8_page20)
  | cp1131_2uni => constr:(ti_cp1131_2uni)
  | cp1131_page00 => constr:(ti_cp1131_page00)
  | cp1131_page04 => constr:(ti_cp1131_page04)
  | cp1131_page25 => constr:(ti_cp1131_page25)
  | cp1133_2uni_1 => constr:(ti_cp1133_2uni_1)
  | cp1133_2uni_2 => constr:(ti_cp1133_2uni_2)
  | cp1133_page00 => constr:(ti_cp1133_page00)
  | cp1133_page0e => constr:(ti_cp1133_page0e)
  | cp1250_2uni => constr:(ti_cp1250_2uni)
  | cp1250_page00 => constr:(ti_cp1250_page00)
  | cp1250_page02 => constr:(ti_cp1250_page02)
  | cp1250_page20 => constr:(ti_cp1250_page20)
  | cp1251_2uni => constr:(ti_cp1251_2uni)
  | cp1251_page00 => constr:(ti_cp1251_page00)
  | cp1251_page04 => constr:(ti_cp1251_page04)
  | cp1251_page20 => constr:(ti_cp1251_page20)
  | cp1252_2uni => constr:(ti_cp1252_2uni)
  | cp1252_page01 => constr:(ti_cp1252_page01)
  | cp1252_page02 => constr:(ti_cp1252_page02)
  | cp1252_page20 => constr:(ti_cp1252_page20)
  | cp1253_2uni => constr:(ti_cp1253_2uni)
  | cp1253_page00 => constr:(ti_cp1253_page00)
  | cp1253_page03 => constr:(ti_cp1253_page03)
  | cp1253_page20 => constr:(ti_cp1253_page20)
  | cp1254_2uni_1 => constr:(ti_cp1254_2uni_1)
  | cp1254_2uni_2 => constr:(ti_cp1254_2uni_2)
  | cp1254_2uni_3 => constr:(ti_cp1254_2uni_3)
  | cp1254_page00 => constr:(ti_cp1254_page00)
  | cp1254_page01 => constr:(ti_cp1254_page01)
  | cp1254_page02 => constr:(ti_cp1254_page02)
  | cp1254_page20 => constr:(ti_cp1254_page20)
  | cp1255_comp_table_data => constr:(ti_cp1255_comp_table_data)
  | cp1255_comp_table => constr:(ti_cp1255_comp_table)
  | cp1255_decomp_table => constr:(ti_cp1255_decomp_table)
  | cp1255_comb_table => constr:(ti_cp1255_comb_table)
  | cp1255_2uni => constr:(ti_cp1255_2uni)
  | cp1255_page00 => constr:(ti_cp1255_page00)
  | cp1255_page02 => constr:(ti_cp1255_page02)
  | cp1255_page05 => constr:(ti_cp1255_page05)
  | cp1255_page20 => constr:(ti_cp1255_page20)
  | cp1256_2uni => constr:(ti_cp1256_2uni)
  | cp1256_page00 => constr:(ti_cp1256_page00)
  | cp1256_page01 => constr:(ti_cp1256_page01)
  | cp1256_page06 => constr:(ti_cp1256_page06)
  | cp1256_page20 => constr:(ti_cp1256_page20)
  | cp1257_2uni => constr:(ti_cp1257_2uni)
  | cp1257_page00 => constr:(ti_cp1257_page00)
  | cp1257_page02 => constr:(ti_cp1257_page02)
  | cp1257_page20 => constr:(ti_cp1257_page20)
  | cp1258_comb_table => constr:(ti_cp1258_comb_table)
  | cp1258_comp_bases => constr:(ti_cp1258_comp_bases)
  | cp1258_2uni => constr:(ti_cp1258_2uni)
  | cp1258_page00 => constr:(ti_cp1258_page00)
  | cp1258_page01 => constr:(ti_cp1258_page01)
  | cp1258_page02 => constr:(ti_cp1258_page02)
  | cp1258_page03 => constr:(ti_cp1258_page03)
  | cp1258_page20 => constr:(ti_cp1258_page20)
  | cp850_2uni => constr:(ti_cp850_2uni)
  | cp850_page00 => constr:(ti_cp850_page00)
  | cp850_page25 => constr:(ti_cp850_page25)
  | cp862_2uni => constr:(ti_cp862_2uni)
  | cp862_page00 => constr:(ti_cp862_page00)
  | cp862_page03 => constr:(ti_cp862_page03)
  | cp862_page22 => constr:(ti_cp862_page22)
  | cp862_page25 => constr:(ti_cp862_page25)
  | cp866_2uni => constr:(ti_cp866_2uni)
  | cp866_page00 => constr:(ti_cp866_page00)
  | cp866_page04 => constr:(ti_cp866_page04)
  | cp866_page22 => constr:(ti_cp866_page22)
  | cp866_page25 => constr:(ti_cp866_page25)
  | cp874_2uni => constr:(ti_cp874_2uni)
  | cp874_page0e => constr:(ti_cp874_page0e)
  | cp874_page20 => constr:(ti_cp874_page20)
  | georgian_academy_2uni => constr:(ti_georgian_academy_2uni)
  | georgian_academy_page00 => constr:(ti_georgian_academy_page00)
  | georgian_academy_page01 => constr:(ti_georgian_academy_page01)
  | georgian_academy_page02 => constr:(ti_georgian_academy_page02)
  | georgian_academy_page20 => constr:(ti_georgian_academy_page20)
  | georgian_ps_2uni_1 => constr:(ti_georgian_ps_2uni_1)
  | georgian_ps_2uni_2 => constr:(ti_georgian_ps_2uni_2)
  | georgian_ps_page00 => constr:(ti_georgian_ps_page00)
  | georgian_ps_page01 => constr:(ti_georgian_ps_page01)
  | georgian_ps_page02 => constr:(ti_georgian_ps_page02)
  | georgian_ps_page10 => constr:(ti_georgian_ps_page10)
  | georgian_ps_page20 => constr:(ti_georgian_ps_page20)
  | hp_roman8_2uni => constr:(ti_hp_roman8_2uni)
  | hp_roman8_page00 => constr:(ti_hp_roman8_page00)
  | hp_roman8_page01 => constr:(ti_hp_roman8_page01)
  | hp_roman8_page02 => constr:(ti_hp_roman8_page02)
  | iso8859_10_2uni => constr:(ti_iso8859_10_2uni)
  | iso8859_10_page00 => constr:(ti_iso8859_10_page00)
  | iso8859_13_2uni => constr:(ti_iso8859_13_2uni)
  | iso8859_13_page00 => constr:(ti_iso8859_13_page00)
  | iso8859_13_page20 => constr:(ti_iso8859_13_page20)
  | iso8859_14_2uni => constr:(ti_iso8859_14_2uni)
  | iso8859_14_page00 => constr:(ti_iso8859_14_page00)
  | iso8859_14_page01_0 => constr:(ti_iso8859_14_page01_0)
  | iso8859_14_page01_1 => constr:(ti_iso8859_14_page01_1)
  | iso8859_14_page1e_0 => constr:(ti_iso8859_14_page1e_0)
  | iso8859_14_page1e_1 => constr:(ti_iso8859_14_page1e_1)
  | iso8859_15_2uni => constr:(ti_iso8859_15_2uni)
  | iso8859_15_page00 => constr:(ti_iso8859_15_page00)
  | iso8859_15_page01 => constr:(ti_iso8859_15_page01)
  | iso8859_16_2uni => constr:(ti_iso8859_16_2uni)
  | iso8859_16_page00 => constr:(ti_iso8859_16_page00)
  | iso8859_16_page02 => constr:(ti_iso8859_16_page02)
  | iso8859_16_page20 => constr:(ti_iso8859_16_page20)
  | iso8859_2_2uni => constr:(ti_iso8859_2_2uni)
  | iso8859_2_page00 => constr:(ti_iso8859_2_page00)
  | iso8859_2_page02 => constr:(ti_iso8859_2_page02)
  | iso8859_3_2uni => constr:(ti_iso8859_3_2uni)
  | iso8859_3_page00 => constr:(ti_iso8859_3_page00)
  | iso8859_3_page01 => constr:(ti_iso8859_3_page01)
  | iso8859_3_page02 => constr:(ti_iso8859_3_page02)
  | iso8859_4_2uni => constr:(ti_iso8859_4_2uni)
  | iso8859_4_page00 => constr:(ti_iso8859_4_page00)
  | iso8859_4_page02 => constr:(ti_iso8859_4_page02)
  | iso8859_5_2uni => constr:(ti_iso8859_5_2uni)
  | iso8859_5_page00 => constr:(ti_iso8859_5_page00)
  | iso8859_5_page04 => constr:(ti_iso8859_5_page04)
  | iso8859_6_2uni => constr:(ti_iso8859_6_2uni)
  | iso8859_6_page00 => constr:(ti_iso8859_6_page00)
  | iso8859_6_page06 => constr:(ti_iso8859_6_page06)
  | iso8859_7_2uni => constr:(ti_iso8859_7_2uni)
  | iso8859_7_page00 => constr:(ti_iso8859_7_page00)
  | iso8859_7_page03 => constr:(ti_iso8859_7_page03)
  | iso8859_7_page20 => constr:(ti_iso8859_7_page20)
  | iso8859_8_2uni => constr:(ti_iso8859_8_2uni)
  | iso8859_8_page00 => constr:(ti_iso8859_8_page00)
  | iso8859_8_page05 => constr:(ti_iso8859_8_page05)
  | iso8859_8_page20 => constr:(ti_iso8859_8_page20)
  | iso8859_9_2uni => constr:(ti_iso8859_9_2uni)
  | iso8859_9_page00 => constr:(ti_iso8859_9_page00)
  | iso8859_9_page01 => constr:(ti_iso8859_9_page01)
  | koi8_r_2uni => constr:(ti_koi8_r_2uni)
  | koi8_r_page00 => constr:(ti_koi8_r_page00)
  | koi8_r_page04 => constr:(ti_koi8_r_page04)
  | koi8_r_page22 => constr:(ti_koi8_r_page22)
  | koi8_r_page23 => constr:(ti_koi8_r_page23)
  | koi8_r_page25 => constr:(ti_koi8_r_page25)
  | koi8_ru_2uni => constr:(ti_koi8_ru_2uni)
  | koi8_ru_page00 => constr:(ti_koi8_ru_page00)
  | koi8_ru_page04 => constr:(ti_koi8_ru_page04)
  | koi8_ru_page22 => constr:(ti_koi8_ru_page22)
  | koi8_ru_page23 => constr:(ti_koi8_ru_page23)
  | koi8_ru_page25 => constr:(ti_koi8_ru_page25)
  | koi8_t_2uni => constr:(ti_koi8_t_2uni)
  | koi8_t_page00 => constr:(ti_koi8_t_page00)
  | koi8_t_page04 => constr:(ti_koi8_t_page04)
  | koi8_t_page20 => constr:(ti_koi8_t_page20)
  | koi8_t_page21 => constr:(ti_koi8_t_page21)
  | koi8_u_2uni => constr:(ti_koi8_u_2uni)
  | koi8_u_page00 => constr:(ti_koi8_u_page00)
  | koi8_u_page04 => constr:(ti_koi8_u_page04)
  | koi8_u_page22 => constr:(ti_koi8_u_page22)
  | koi8_u_page23 => constr:(ti_koi8_u_page23)
  | koi8_u_page25 => constr:(ti_koi8_u_page25)
  | mac_arabic_2uni => constr:(ti_mac_arabic_2uni)
  | mac_arabic_page00 => constr:(ti_mac_arabic_page00)
  | mac_arabic_page06 => constr:(ti_mac_arabic_page06)
  | mac_centraleurope_2uni => constr:(ti_mac_centraleurope_2uni)
  | mac_centraleurope_page00 => constr:(ti_mac_centraleurope_page00)
  | mac_centraleurope_page20 => constr:(ti_mac_centraleurope_page20)
  | mac_centraleurope_page22 => constr:(ti_mac_centraleurope_page22)
  | mac_centraleurope_page22_1 => constr:(ti_mac_centraleurope_page22_1)
  | mac_croatian_2uni => constr:(ti_mac_croatian_2uni)
  | mac_croatian_page00 => constr:(ti_mac_croatian_page00)
  | mac_croatian_page02 => constr:(ti_mac_croatian_page02)
  | mac_croatian_page20 => constr:(ti_mac_croatian_page20)
  | mac_croatian_page21 => constr:(ti_mac_croatian_page21)
  | mac_croatian_page22 => constr:(ti_mac_croatian_page22)
  | mac_cyrillic_2uni => constr:(ti_mac_cyrillic_2uni)
  | mac_cyrillic_page00 => constr:(ti_mac_cyrillic_page00)
  | mac_cyrillic_page04 => constr:(ti_mac_cyrillic_page04)
  | mac_cyrillic_page20 => constr:(ti_mac_cyrillic_page20)
  | mac_cyrillic_page21 => constr:(ti_mac_cyrillic_page21)
  | mac_cyrillic_page22 => constr:(ti_mac_cyrillic_page22)
  | mac_greek_2uni => constr:(ti_mac_greek_2uni)
  | mac_greek_page00 => constr:(ti_mac_greek_page00)
  | mac_greek_page03 => constr:(ti_mac_greek_page03)
  | mac_greek_page20 => constr:(ti_mac_greek_page20)
  | mac_greek_page22 => constr:(ti_mac_greek_page22)
  | mac_hebrew_2uni => constr:(ti_mac_hebrew_2uni)
  | mac_hebrew_page00 => constr:(ti_mac_hebrew_page00)
  | mac_hebrew_page05 => constr:(ti_mac_hebrew_page05)
  | mac_hebrew_page20 => constr:(ti_mac_hebrew_page20)
  | mac_hebrew_pagefb => constr:(ti_mac_hebrew_pagefb)
  | mac_iceland_2uni => constr:(ti_mac_iceland_2uni)
  | mac_iceland_page00 => constr:(ti_mac_iceland_page00)
  | mac_iceland_page01 => constr:(ti_mac_iceland_page01)
  | mac_iceland_page02 => constr:(ti_mac_iceland_page02)
  | mac_iceland_page20 => constr:(ti_mac_iceland_page20)
  | mac_iceland_page21 => constr:(ti_mac_iceland_page21)
  | mac_iceland_page22 => constr:(ti_mac_iceland_page22)
  | mac_roman_2uni => constr:(ti_mac_roman_2uni)
  | mac_roman_page00 => constr:(ti_mac_roman_page00)
  | mac_roman_page01 => constr:(ti_mac_roman_page01)
  | mac_roman_page02 => constr:(ti_mac_roman_page02)
  | mac_roman_page20 => constr:(ti_mac_roman_page20)
  | mac_roman_page21 => constr:(ti_mac_roman_page21)
  | mac_roman_page22 => constr:(ti_mac_roman_page22)
  | mac_roman_pagefb => constr:(ti_mac_roman_pagefb)
  | mac_romania_2uni => constr:(ti_mac_romania_2uni)
  | mac_romania_page00 => constr:(ti_mac_romania_page00)
  | mac_romania_page02 => constr:(ti_mac_romania_page02)
  | mac_romania_page20 => constr:(ti_mac_romania_page20)
  | mac_romania_page21 => constr:(ti_mac_romania_page21)
  | mac_romania_page22 => constr:(ti_mac_romania_page22)
  | mac_thai_2uni => constr:(ti_mac_thai_2uni)
  | mac_thai_page00 => constr:(ti_mac_thai_page00)
  | mac_thai_page0e => constr:(ti_mac_thai_page0e)
  | mac_thai_page20 => constr:(ti_mac_thai_page20)
  | mac_thai_pagef8 => constr:(ti_mac_thai_pagef8)
  | mac_turkish_2uni => constr:(ti_mac_turkish_2uni)
  | mac_turkish_page00 => constr:(ti_mac_turkish_page00)
  | mac_turkish_page01 => constr:(ti_mac_turkish_page01)
  | mac_turkish_page02 => constr:(ti_mac_turkish_page02)
  | mac_turkish_page20 => constr:(ti_mac_turkish_page20)
  | mac_turkish_page21 => constr:(ti_mac_turkish_page21)
  | mac_turkish_page22 => constr:(ti_mac_turkish_page22)
  | mac_ukraine_2uni => constr:(ti_mac_ukraine_2uni)
  | mac_ukraine_page00 => constr:(ti_mac_ukraine_page00)
  | mac_ukraine_page04 => constr:(ti_mac_ukraine_page04)
  | mac_ukraine_page20 => constr:(ti_mac_ukraine_page20)
  | mac_ukraine_page21 => constr:(ti_mac_ukraine_page21)
  | mac_ukraine_page22 => constr:(ti_mac_ukraine_page22)
  | mulelao_2uni => constr:(ti_mulelao_2uni)
  | mulelao_page0e => constr:(ti_mulelao_page0e)
  | nextstep_2uni => constr:(ti_nextstep_2uni)
  | nextstep_page00 => constr:(ti_nextstep_page00)
  | nextstep_page01 => constr:(ti_nextstep_page01)
  | nextstep_page02 => constr:(ti_nextstep_page02)
  | nextstep_page20 => constr:(ti_nextstep_page20)
  | nextstep_pagefb => constr:(ti_nextstep_pagefb)
  | pt154_2uni => constr:(ti_pt154_2uni)
  | pt154_page00 => constr:(ti_pt154_page00)
  | pt154_page04 => constr:(ti_pt154_page04)
  | pt154_page20 => constr:(ti_pt154_page20)
  | rk1048_2uni => constr:(ti_rk1048_2uni)
  | rk1048_page00 => constr:(ti_rk1048_page00)
  | rk1048_page04 => constr:(ti_rk1048_page04)
  | rk1048_page20 => constr:(ti_rk1048_page20)
  | rk1048_page21 => constr:(ti_rk1048_page21)
  | tcvn_comb_table => constr:(ti_tcvn_comb_table)
  | tcvn_comp_bases => constr:(ti_tcvn_comp_bases)
  | tcvn_2uni_1 => constr:(ti_tcvn_2uni_1)
  | tcvn_2uni_2 => constr:(ti_tcvn_2uni_2)
  | tcvn_page00 => constr:(ti_tcvn_page00)
  | tcvn_page03 => constr:(ti_tcvn_page03)
  | tcvn_page1e => constr:(ti_tcvn_page1e)
  | viscii_2uni_1 => constr:(ti_viscii_2uni_1)
  | viscii_2uni_2 => constr:(ti_viscii_2uni_2)
  | viscii_page00 => constr:(ti_viscii_page00)
  | viscii_page1e => constr:(ti_viscii_page1e)
  | cp1046_2uni => constr:(ti_cp1046_2uni)
  | cp1046_page00 => constr:(ti_cp1046_page00)
  | cp1046_page06 => constr:(ti_cp1046_page06)
  | cp1046_page25 => constr:(ti_cp1046_page25)
  | cp1046_pagef8 => constr:(ti_cp1046_pagef8)
  | cp1046_pagefe => constr:(ti_cp1046_pagefe)
  | cp1124_2uni => constr:(ti_cp1124_2uni)
  | cp1124_page00 => constr:(ti_cp1124_page00)
  | cp1124_page04 => constr:(ti_cp1124_page04)
  | cp1129_2uni => constr:(ti_cp1129_2uni)
  | cp1129_page00 => constr:(ti_cp1129_page00)
  | cp1129_page03 => constr:(ti_cp1129_page03)
  | cp1161_2uni => constr:(ti_cp1161_2uni)
  | cp1161_page00 => constr:(ti_cp1161_page00)
  | cp1163_page20 => constr:(ti_cp1163_page20)
  | cp856_2uni => constr:(ti_cp856_2uni)
  | cp856_page00 => constr:(ti_cp856_page00)
  | cp856_page05 => constr:(ti_cp856_page05)
  | cp856_page25 => constr:(ti_cp856_page25)
  | cp922_2uni_1 => constr:(ti_cp922_2uni_1)
  | cp922_2uni_2 => constr:(ti_cp922_2uni_2)
  | cp922_2uni_3 => constr:(ti_cp922_2uni_3)
  | cp922_page00 => constr:(ti_cp922_page00)
  | cp922_page01 => constr:(ti_cp922_page01)
  | cp1125_2uni => constr:(ti_cp1125_2uni)
  | cp1125_page00 => constr:(ti_cp1125_page00)
  | cp1125_page04 => constr:(ti_cp1125_page04)
  | cp1125_page25 => constr:(ti_cp1125_page25)
  | cp437_2uni => constr:(ti_cp437_2uni)
  | cp437_page00 => constr:(ti_cp437_page00)
  | cp437_page03 => constr:(ti_cp437_page03)
  | cp437_page22 => constr:(ti_cp437_page22)
  | cp437_page23 => constr:(ti_cp437_page23)
  | cp437_page25 => constr:(ti_cp437_page25)
  | cp737_2uni => constr:(ti_cp737_2uni)
  | cp737_page00 => constr:(ti_cp737_page00)
  | cp737_page03 => constr:(ti_cp737_page03)
  | cp737_page22 => constr:(ti_cp737_page22)
  | cp737_page25 => constr:(ti_cp737_page25)
  | cp775_2uni => constr:(ti_cp775_2uni)
  | cp775_page00 => constr:(ti_cp775_page00)
  | cp775_page20 => constr:(ti_cp775_page20)
  | cp775_page25 => constr:(ti_cp775_page25)
  | cp852_2uni => constr:(ti_cp852_2uni)
  | cp852_page00 => constr:(ti_cp852_page00)
  | cp852_page02 => constr:(ti_cp852_page02)
  | cp852_page25 => constr:(ti_cp852_page25)
  | cp853_2uni => constr:(ti_cp853_2uni)
  | cp853_page00 => constr:(ti_cp853_page00)
  | cp853_page01 => constr:(ti_cp853_page01)
  | cp853_page02 => constr:(ti_cp853_page02)
  | cp853_page25 => constr:(ti_cp853_page25)
  | cp855_2uni => constr:(ti_cp855_2uni)
  | cp855_page00 => constr:(ti_cp855_page00)
  | cp855_page04 => constr:(ti_cp855_page04)
  | cp855_page25 => constr:(ti_cp855_page25)
  | cp857_2uni => constr:(ti_cp857_2uni)
  | cp857_page00 => constr:(ti_cp857_page00)
  | cp857_page01 => constr:(ti_cp857_page01)
  | cp857_page25 => constr:(ti_cp857_page25)
  | cp860_2uni => constr:(ti_cp860_2uni)
  | cp860_page00 => constr:(ti_cp860_page00)
  | cp860_page03 => constr:(ti_cp860_page03)
  | cp860_page22 => constr:(ti_cp860_page22)
  | cp860_page25 => constr:(ti_cp860_page25)
  | cp861_2uni => constr:(ti_cp861_2uni)
  | cp861_page00 => constr:(ti_cp861_page00)
  | cp861_page03 => constr:(ti_cp861_page03)
  | cp861_page22 => constr:(ti_cp861_page22)
  | cp861_page23 => constr:(ti_cp861_page23)
  | cp861_page25 => constr:(ti_cp861_page25)
  | cp863_2uni => constr:(ti_cp863_2uni)
  | cp863_page00 => constr:(ti_cp863_page00)
  | cp863_page03 => constr:(ti_cp863_page03)
  | cp863_page22 => constr:(ti_cp863_page22)
  | cp863_page23 => constr:(ti_cp863_page23)
  | cp863_page25 => constr:(ti_cp863_page25)
  | cp864_2uni_1 => constr:(ti_cp864_2uni_1)
  | cp864_2uni_2 => constr:(ti_cp864_2uni_2)
  | cp864_page00 => constr:(ti_cp864_page00)
  | cp864_page00_1 => constr:(ti_cp864_page00_1)
  | cp864_page06 => constr:(ti_cp864_page06)
  | cp864_page22 => constr:(ti_cp864_page22)
  | cp864_page25 => constr:(ti_cp864_page25)
  | cp864_pagefe => constr:(ti_cp864_pagefe)
  | cp865_2uni => constr:(ti_cp865_2uni)
  | cp865_page00 => constr:(ti_cp865_page00)
  | cp865_page03 => constr:(ti_cp865_page03)
  | cp865_page22 => constr:(ti_cp865_page22)
  | cp865_page23 => constr:(ti_cp865_page23)
  | cp865_page25 => constr:(ti_cp865_page25)
  | cp869_2uni => constr:(ti_cp869_2uni)
  | cp869_page00 => constr:(ti_cp869_page00)
  | cp869_page03 => constr:(ti_cp869_page03)
  | cp869_page20 => constr:(ti_cp869_page20)
  | cp869_page25 => constr:(ti_cp869_page25)
  | atarist_2uni => constr:(ti_atarist_2uni)
  | atarist_page00 => constr:(ti_atarist_page00)
  | atarist_page01 => constr:(ti_atarist_page01)
  | atarist_page03 => constr:(ti_atarist_page03)
  | atarist_page05 => constr:(ti_atarist_page05)
  | atarist_page22 => constr:(ti_atarist_page22)
  | atarist_page23 => constr:(ti_atarist_page23)
  | riscos1_2uni => constr:(ti_riscos1_2uni)
  | riscos1_page01 => constr:(ti_riscos1_page01)
  | riscos1_page20 => constr:(ti_riscos1_page20)
  | riscos1_page21 => constr:(ti_riscos1_page21)
  | riscos1_page22 => constr:(ti_riscos1_page22)
  | tds565_2uni => constr:(ti_tds565_2uni)
  | tds565_page00 => constr:(ti_tds565_page00)
  | tds565_page00_1 => constr:(ti_tds565_page00_1)
  | tds565_page01 => constr:(ti_tds565_page01)
  | ebcdic037_2uni => constr:(ti_ebcdic037_2uni)
  | ebcdic037_page00 => constr:(ti_ebcdic037_page00)
  | ebcdic273_2uni => constr:(ti_ebcdic273_2uni)
  | ebcdic273_page00 => constr:(ti_ebcdic273_page00)
  | ebcdic277_2uni => constr:(ti_ebcdic277_2uni)
  | ebcdic277_page00 => constr:(ti_ebcdic277_page00)
  | ebcdic278_2uni => constr:(ti_ebcdic278_2uni)
  | ebcdic278_page00 => constr:(ti_ebcdic278_page00)
  | ebcdic280_2uni => constr:(ti_ebcdic280_2uni)
  | ebcdic280_page00 => constr:(ti_ebcdic280_page00)
  | ebcdic282_2uni => constr:(ti_ebcdic282_2uni)
  | ebcdic282_page00 => constr:(ti_ebcdic282_page00)
  | ebcdic284_2uni => constr:(ti_ebcdic284_2uni)
  | ebcdic284_page00 => constr:(ti_ebcdic284_page00)
  | ebcdic285_2uni => constr:(ti_ebcdic285_2uni)
  | ebcdic285_page00 => constr:(ti_ebcdic285_page00)
  | ebcdic297_2uni => constr:(ti_ebcdic297_2uni)
  | ebcdic297_page00 => constr:(ti_ebcdic297_page00)
  | ebcdic423_2uni => constr:(ti_ebcdic423_2uni)
  | ebcdic423_page00 => constr:(ti_ebcdic423_page00)
  | ebcdic423_page03 => constr:(ti_ebcdic423_page03)
  | ebcdic424_2uni => constr:(ti_ebcdic424_2uni)
  | ebcdic424_page00 => constr:(ti_ebcdic424_page00)
  | ebcdic424_page05 => constr:(ti_ebcdic424_page05)
  | ebcdic424_page20 => constr:(ti_ebcdic424_page20)
  | ebcdic425_2uni => constr:(ti_ebcdic425_2uni)
  | ebcdic425_page00 => constr:(ti_ebcdic425_page00)
  | ebcdic425_page01 => constr:(ti_ebcdic425_page01)
  | ebcdic425_page06 => constr:(ti_ebcdic425_page06)
  | ebcdic425_page20 => constr:(ti_ebcdic425_page20)
  | ebcdic500_2uni => constr:(ti_ebcdic500_2uni)
  | ebcdic500_page00 => constr:(ti_ebcdic500_page00)
  | ebcdic838_2uni => constr:(ti_ebcdic838_2uni)
  | ebcdic838_page00 => constr:(ti_ebcdic838_page00)
  | ebcdic838_page0e => constr:(ti_ebcdic838_page0e)
  | ebcdic870_2uni => constr:(ti_ebcdic870_2uni)
  | ebcdic870_page00 => constr:(ti_ebcdic870_page00)
  | ebcdic870_page02 => constr:(ti_ebcdic870_page02)
  | ebcdic871_2uni => constr:(ti_ebcdic871_2uni)
  | ebcdic871_page00 => constr:(ti_ebcdic871_page00)
  | ebcdic875_2uni => constr:(ti_ebcdic875_2uni)
  | ebcdic875_page00 => constr:(ti_ebcdic875_page00)
  | ebcdic875_page03 => constr:(ti_ebcdic875_page03)
  | ebcdic875_page20 => constr:(ti_ebcdic875_page20)
  | ebcdic880_2uni => constr:(ti_ebcdic880_2uni)
  | ebcdic880_page00 => constr:(ti_ebcdic880_page00)
  | ebcdic880_page04 => constr:(ti_ebcdic880_page04)
  | ebcdic905_2uni => constr:(ti_ebcdic905_2uni)
  | ebcdic905_page00 => constr:(ti_ebcdic905_page00)
  | ebcdic905_page01 => constr:(ti_ebcdic905_page01)
  | ebcdic905_page02 => constr:(ti_ebcdic905_page02)
  | ebcdic924_2uni => constr:(ti_ebcdic924_2uni)
  | ebcdic924_page00 => constr:(ti_ebcdic924_page00)
  | ebcdic924_page01 => constr:(ti_ebcdic924_page01)
  | ebcdic1025_2uni => constr:(ti_ebcdic1025_2uni)
  | ebcdic1025_page00 => constr:(ti_ebcdic1025_page00)
  | ebcdic1026_2uni => constr:(ti_ebcdic1026_2uni)
  | ebcdic1026_page00 => constr:(ti_ebcdic1026_page00)
  | ebcdic1026_page01 => constr:(ti_ebcdic1026_page01)
  | ebcdic1047_2uni => constr:(ti_ebcdic1047_2uni)
  | ebcdic1047_page00 => constr:(ti_ebcdic1047_page00)
  | ebcdic1097_2uni => constr:(ti_ebcdic1097_2uni)
  | ebcdic1097_page00 => constr:(ti_ebcdic1097_page00)
  | ebcdic1097_page06 => constr:(ti_ebcdic1097_page06)
  | ebcdic1097_page06_1 => constr:(ti_ebcdic1097_page06_1)
  | ebcdic1097_pagef8 => constr:(ti_ebcdic1097_pagef8)
  | ebcdic1097_pagefb => constr:(ti_ebcdic1097_pagefb)
  | ebcdic1097_pagefb_2 => constr:(ti_ebcdic1097_pagefb_2)
  | ebcdic1097_pagefe => constr:(ti_ebcdic1097_pagefe)
  | ebcdic1112_2uni => constr:(ti_ebcdic1112_2uni)
  | ebcdic1112_page00 => constr:(ti_ebcdic1112_page00)
  | ebcdic1112_page20 => constr:(ti_ebcdic1112_page20)
  | ebcdic1122_2uni => constr:(ti_ebcdic1122_2uni)
  | ebcdic1122_page00 => constr:(ti_ebcdic1122_page00)
  | ebcdic1122_page01 => constr:(ti_ebcdic1122_page01)
  | ebcdic1123_2uni => constr:(ti_ebcdic1123_2uni)
  | ebcdic1123_page04 => constr:(ti_ebcdic1123_page04)
  | ebcdic1130_2uni => constr:(ti_ebcdic1130_2uni)
  | ebcdic1130_page00 => constr:(ti_ebcdic1130_page00)
  | ebcdic1130_page03 => constr:(ti_ebcdic1130_page03)
  | ebcdic1132_2uni => constr:(ti_ebcdic1132_2uni)
  | ebcdic1132_page0e => constr:(ti_ebcdic1132_page0e)
  | ebcdic1137_2uni => constr:(ti_ebcdic1137_2uni)
  | ebcdic1137_page00 => constr:(ti_ebcdic1137_page00)
  | ebcdic1137_page09 => constr:(ti_ebcdic1137_page09)
  | ebcdic1137_page20 => constr:(ti_ebcdic1137_page20)
  | ebcdic1140_2uni => constr:(ti_ebcdic1140_2uni)
  | ebcdic1140_page00 => constr:(ti_ebcdic1140_page00)
  | ebcdic1141_2uni => constr:(ti_ebcdic1141_2uni)
  | ebcdic1141_page00 => constr:(ti_ebcdic1141_page00)
  | ebcdic1142_2uni => constr:(ti_ebcdic1142_2uni)
  | ebcdic1142_page00 => constr:(ti_ebcdic1142_page00)
  | ebcdic1143_2uni => constr:(ti_ebcdic1143_2uni)
  | ebcdic1143_page00 => constr:(ti_ebcdic1143_page00)
  | ebcdic1144_2uni => constr:(ti_ebcdic1144_2uni)
  | ebcdic1144_page00 => constr:(ti_ebcdic1144_page00)
  | ebcdic1145_2uni => constr:(ti_ebcdic1145_2uni)
  | ebcdic1145_page00 => constr:(ti_ebcdic1145_page00)
  | ebcdic1146_2uni => constr:(ti_ebcdic1146_2uni)
  | ebcdic1146_page00 => constr:(ti_ebcdic1146_page00)
  | ebcdic1147_2uni => constr:(ti_ebcdic1147_2uni)
  | ebcdic1147_page00 => constr:(ti_ebcdic1147_page00)
  | ebcdic1148_2uni => constr:(ti_ebcdic1148_2uni)
  | ebcdic1148_page00 => constr:(ti_ebcdic1148_page00)
  | ebcdic1149_2uni => constr:(ti_ebcdic1149_2uni)
  | ebcdic1149_page00 => constr:(ti_ebcdic1149_page00)
  | ebcdic1153_2uni => constr:(ti_ebcdic1153_2uni)
  | ebcdic1153_page00 => constr:(ti_ebcdic1153_page00)
  | ebcdic1154_2uni => constr:(ti_ebcdic1154_2uni)
  | ebcdic1154_page00 => constr:(ti_ebcdic1154_page00)
  | ebcdic1155_2uni => constr:(ti_ebcdic1155_2uni)
  | ebcdic1155_page00 => constr:(ti_ebcdic1155_page00)
  | ebcdic1156_2uni => constr:(ti_ebcdic1156_2uni)
  | ebcdic1156_page00 => constr:(ti_ebcdic1156_page00)
  | ebcdic1157_2uni => constr:(ti_ebcdic1157_2uni)
  | ebcdic1157_page00 => constr:(ti_ebcdic1157_page00)
  | ebcdic1158_2uni => constr:(ti_ebcdic1158_2uni)
  | ebcdic1160_2uni => constr:(ti_ebcdic1160_2uni)
  | ebcdic1164_2uni => constr:(ti_ebcdic1164_2uni)
  | ebcdic1164_page00 => constr:(ti_ebcdic1164_page00)
  | ebcdic1164_page20 => constr:(ti_ebcdic1164_page20)
  | ebcdic1165_2uni => constr:(ti_ebcdic1165_2uni)
  | ebcdic1165_page00 => constr:(ti_ebcdic1165_page00)
  | ebcdic1166_2uni => constr:(ti_ebcdic1166_2uni)
  | ebcdic1166_page04 => constr:(ti_ebcdic1166_page04)
  | ebcdic4971_2uni => constr:(ti_ebcdic4971_2uni)
  | ebcdic12712_2uni => constr:(ti_ebcdic12712_2uni)
  | ebcdic12712_page20 => constr:(ti_ebcdic12712_page20)
  | ebcdic12712_page20_1 => constr:(ti_ebcdic12712_page20_1)
  | ebcdic16804_2uni => constr:(ti_ebcdic16804_2uni)
  | ebcdic16804_page00 => constr:(ti_ebcdic16804_page00)
  | ebcdic16804_page06 => constr:(ti_ebcdic16804_page06)
  | ebcdic16804_page20 => constr:(ti_ebcdic16804_page20)
  | ebcdic16804_pagefe => constr:(ti_ebcdic16804_pagefe)
  end.
