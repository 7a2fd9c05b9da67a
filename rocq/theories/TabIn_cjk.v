(** GENERATED by tools/gentabin.py; do not edit.
    Sizes and ranges of the tables of the multi-byte encodings. *)
From Coq Require Import ZArith List Bool.
From Verif Require Import Base Reflect EncLib TabLib.
From Verif Require Import Conv_iso2022 Conv_cjk Tab_big5 Tab_cns Tab_cnsinv Tab_gb Tab_jis Tab_ks.
Import ListNotations.
Open Scope Z_scope.

Lemma ti_conversion_lists : tabin conversion_lists 4 (22156) 22730.
Proof. apply tabin_chk. vm_cast_no_check (eq_refl true). Qed.
Lemma ti_iso2022_jp3_comp_table_data : tabin iso2022_jp3_comp_table_data 50 (9259) 11110.
Proof. apply tabin_chk. vm_cast_no_check (eq_refl true). Qed.
Lemma ti_euc_jisx0213_comp_table_data : tabin euc_jisx0213_comp_table_data 50 (42155) 44006.
Proof. apply tabin_chk. vm_cast_no_check (eq_refl true). Qed.
Lemma ti_shift_jisx0213_comp_table_data : tabin shift_jisx0213_comp_table_data 50 (33449) 34438.
Proof. apply tabin_chk. vm_cast_no_check (eq_refl true). Qed.
Lemma ti_big5_2uni_pagea1 : tabin big5_2uni_pagea1 6121 (162) 65533.
Proof. apply tabin_chk. vm_cast_no_check (eq_refl true). Qed.
Lemma ti_big5_2uni_pagec9 : tabin big5_2uni_pagec9 7652 (19975) 64013.
Proof. apply tabin_chk. vm_cast_no_check (eq_refl true). Qed.
Lemma ti_big5_2charset : tabin big5_2charset 13703 (41280) 63957.
Proof. apply tabin_chk. vm_cast_no_check (eq_refl true). Qed.
Lemma cs_big5_2charset : tchk big5_2charset 13703 (csok (inr 64 254)) = true.
Proof. vm_cast_no_check (eq_refl true). Qed.
Lemma si_big5_uni2indx_page00 : sumin big5_uni2indx_page00 16 13703.
Proof. apply sumin_chk. vm_cast_no_check (eq_refl true). Qed.
Lemma si_big5_uni2indx_page02 : sumin big5_uni2indx_page02 38 13703.
Proof. apply sumin_chk. vm_cast_no_check (eq_refl true). Qed.
Lemma si_big5_uni2indx_page20 : sumin big5_uni2indx_page20 44 13703.
Proof. apply sumin_chk. vm_cast_no_check (eq_refl true). Qed.
Lemma si_big5_uni2indx_page24 : sumin big5_uni2indx_page24 37 13703.
Proof. apply sumin_chk. vm_cast_no_check (eq_refl true). Qed.
Lemma si_big5_uni2indx_page30 : sumin big5_uni2indx_page30 62 13703.
Proof. apply sumin_chk. vm_cast_no_check (eq_refl true). Qed.
Lemma si_big5_uni2indx_page4e : sumin big5_uni2indx_page4e 1307 13703.
Proof. apply sumin_chk. vm_cast_no_check (eq_refl true). Qed.
Lemma si_big5_uni2indx_pagefa : sumin big5_uni2indx_pagefa 1 13703.
Proof. apply sumin_chk. vm_cast_no_check (eq_refl true). Qed.
Lemma si_big5_uni2indx_pagefe : sumin big5_uni2indx_pagefe 23 13703.
Proof. apply sumin_chk. vm_cast_no_check (eq_refl true). Qed.
Lemma ti_hkscs1999_2uni_page88 : tabin hkscs1999_2uni_page88 627 (64) 62008.
Proof. apply tabin_chk. vm_cast_no_check (eq_refl true). Qed.
Lemma ti_hkscs1999_2uni_page8d : tabin hkscs1999_2uni_page8d 3140 (1909) 62228.
Proof. apply tabin_chk. vm_cast_no_check (eq_refl true). Qed.
Lemma ti_hkscs1999_2uni_pagec6 : tabin hkscs1999_2uni_pagec6 471 (40) 53639.
Proof. apply tabin_chk. vm_cast_no_check (eq_refl true). Qed.
Lemma ti_hkscs1999_2uni_pagef9 : tabin hkscs1999_2uni_pagef9 942 (1168) 62054.
Proof. apply tabin_chk. vm_cast_no_check (eq_refl true). Qed.
Lemma ti_hkscs1999_2uni_upages : tabin hkscs1999_2uni_upages 973 (128) 195008.
Proof. apply tabin_chk. vm_cast_no_check (eq_refl true). Qed.
Lemma ti_hkscs1999_2charset : tabin hkscs1999_2charset 4698 (34880) 65278.
Proof. apply tabin_chk. vm_cast_no_check (eq_refl true). Qed.
Lemma cs_hkscs1999_2charset : tchk hkscs1999_2charset 4698 (csok (inr 64 254)) = true.
Proof. vm_cast_no_check (eq_refl true). Qed.
Lemma si_hkscs1999_uni2indx_page00 : sumin hkscs1999_uni2indx_page00 45 4698.
Proof. apply sumin_chk. vm_cast_no_check (eq_refl true). Qed.
Lemma si_hkscs1999_uni2indx_page04 : sumin hkscs1999_uni2indx_page04 6 4698.
Proof. apply sumin_chk. vm_cast_no_check (eq_refl true). Qed.
Lemma si_hkscs1999_uni2indx_page1e : sumin hkscs1999_uni2indx_page1e 13 4698.
Proof. apply sumin_chk. vm_cast_no_check (eq_refl true). Qed.
Lemma si_hkscs1999_uni2indx_page21 : sumin hkscs1999_uni2indx_page21 15 4698.
Proof. apply sumin_chk. vm_cast_no_check (eq_refl true). Qed.
Lemma si_hkscs1999_uni2indx_page23 : sumin hkscs1999_uni2indx_page23 40 4698.
Proof. apply sumin_chk. vm_cast_no_check (eq_refl true). Qed.
Lemma si_hkscs1999_uni2indx_page27 : sumin hkscs1999_uni2indx_page27 4 4698.
Proof. apply sumin_chk. vm_cast_no_check (eq_refl true). Qed.
Lemma si_hkscs1999_uni2indx_page2e : sumin hkscs1999_uni2indx_page2e 68 4698.
Proof. apply sumin_chk. vm_cast_no_check (eq_refl true). Qed.
Lemma si_hkscs1999_uni2indx_page34 : sumin hkscs1999_uni2indx_page34 1724 4698.
Proof. apply sumin_chk. vm_cast_no_check (eq_refl true). Qed.
Lemma si_hkscs1999_uni2indx_pagef9 : sumin hkscs1999_uni2indx_pagef9 1 4698.
Proof. apply sumin_chk. vm_cast_no_check (eq_refl true). Qed.
Lemma si_hkscs1999_uni2indx_pageff : sumin hkscs1999_uni2indx_pageff 15 4698.
Proof. apply sumin_chk. vm_cast_no_check (eq_refl true). Qed.
Lemma si_hkscs1999_uni2indx_page200 : sumin hkscs1999_uni2indx_page200 2335 4698.
Proof. apply sumin_chk. vm_cast_no_check (eq_refl true). Qed.
Lemma si_hkscs1999_uni2indx_page294 : sumin hkscs1999_uni2indx_page294 32 4698.
Proof. apply sumin_chk. vm_cast_no_check (eq_refl true). Qed.
Lemma si_hkscs1999_uni2indx_page297 : sumin hkscs1999_uni2indx_page297 251 4698.
Proof. apply sumin_chk. vm_cast_no_check (eq_refl true). Qed.
Lemma si_hkscs1999_uni2indx_page2f8 : sumin hkscs1999_uni2indx_page2f8 30 4698.
Proof. apply sumin_chk. vm_cast_no_check (eq_refl true). Qed.
Lemma ti_hkscs2001_2uni_page8c : tabin hkscs2001_2uni_page8c 123 (89) 21690.
Proof. apply tabin_chk. vm_cast_no_check (eq_refl true). Qed.
Lemma ti_hkscs2001_2uni_upages : tabin hkscs2001_2uni_upages 85 (13568) 172544.
Proof. apply tabin_chk. vm_cast_no_check (eq_refl true). Qed.
Lemma ti_hkscs2001_2charset : tabin hkscs2001_2charset 116 (35904) 36060.
Proof. apply tabin_chk. vm_cast_no_check (eq_refl true). Qed.
Lemma cs_hkscs2001_2charset : tchk hkscs2001_2charset 116 (csok (inr 64 220)) = true.
Proof. vm_cast_no_check (eq_refl true). Qed.
Lemma si_hkscs2001_uni2indx_page35 : sumin hkscs2001_uni2indx_page35 6 116.
Proof. apply sumin_chk. vm_cast_no_check (eq_refl true). Qed.
Lemma si_hkscs2001_uni2indx_page3c : sumin hkscs2001_uni2indx_page3c 46 116.
Proof. apply sumin_chk. vm_cast_no_check (eq_refl true). Qed.
Lemma si_hkscs2001_uni2indx_page40 : sumin hkscs2001_uni2indx_page40 8 116.
Proof. apply sumin_chk. vm_cast_no_check (eq_refl true). Qed.
Lemma si_hkscs2001_uni2indx_page42 : sumin hkscs2001_uni2indx_page42 11 116.
Proof. apply sumin_chk. vm_cast_no_check (eq_refl true). Qed.
Lemma si_hkscs2001_uni2indx_page4b : sumin hkscs2001_uni2indx_page4b 25 116.
Proof. apply sumin_chk. vm_cast_no_check (eq_refl true). Qed.
Lemma si_hkscs2001_uni2indx_page4e : sumin hkscs2001_uni2indx_page4e 59 116.
Proof. apply sumin_chk. vm_cast_no_check (eq_refl true). Qed.
Lemma si_hkscs2001_uni2indx_page53 : sumin hkscs2001_uni2indx_page53 20 116.
Proof. apply sumin_chk. vm_cast_no_check (eq_refl true). Qed.
Lemma si_hkscs2001_uni2indx_page57 : sumin hkscs2001_uni2indx_page57 30 116.
Proof. apply sumin_chk. vm_cast_no_check (eq_refl true). Qed.
Lemma si_hkscs2001_uni2indx_page5a : sumin hkscs2001_uni2indx_page5a 93 116.
Proof. apply sumin_chk. vm_cast_no_check (eq_refl true). Qed.
Lemma si_hkscs2001_uni2indx_page61 : sumin hkscs2001_uni2indx_page61 3 116.
Proof. apply sumin_chk. vm_cast_no_check (eq_refl true). Qed.
Lemma si_hkscs2001_uni2indx_page65 : sumin hkscs2001_uni2indx_page65 9 116.
Proof. apply sumin_chk. vm_cast_no_check (eq_refl true). Qed.
Lemma si_hkscs2001_uni2indx_page67 : sumin hkscs2001_uni2indx_page67 7 116.
Proof. apply sumin_chk. vm_cast_no_check (eq_refl true). Qed.
Lemma si_hkscs2001_uni2indx_page69 : sumin hkscs2001_uni2indx_page69 23 116.
Proof. apply sumin_chk. vm_cast_no_check (eq_refl true). Qed.
Lemma si_hkscs2001_uni2indx_page6c : sumin hkscs2001_uni2indx_page6c 32 116.
Proof. apply sumin_chk. vm_cast_no_check (eq_refl true). Qed.
Lemma si_hkscs2001_uni2indx_page70 : sumin hkscs2001_uni2indx_page70 76 116.
Proof. apply sumin_chk. vm_cast_no_check (eq_refl true). Qed.
Lemma si_hkscs2001_uni2indx_page76 : sumin hkscs2001_uni2indx_page76 47 116.
Proof. apply sumin_chk. vm_cast_no_check (eq_refl true). Qed.
Lemma si_hkscs2001_uni2indx_page7a : sumin hkscs2001_uni2indx_page7a 71 116.
Proof. apply sumin_chk. vm_cast_no_check (eq_refl true). Qed.
Lemma si_hkscs2001_uni2indx_page82 : sumin hkscs2001_uni2indx_page82 16 116.
Proof. apply sumin_chk. vm_cast_no_check (eq_refl true). Qed.
Lemma si_hkscs2001_uni2indx_page85 : sumin hkscs2001_uni2indx_page85 17 116.
Proof. apply sumin_chk. vm_cast_no_check (eq_refl true). Qed.
Lemma si_hkscs2001_uni2indx_page88 : sumin hkscs2001_uni2indx_page88 10 116.
Proof. apply sumin_chk. vm_cast_no_check (eq_refl true). Qed.
Lemma si_hkscs2001_uni2indx_page8b : sumin hkscs2001_uni2indx_page8b 9 116.
Proof. apply sumin_chk. vm_cast_no_check (eq_refl true). Qed.
Lemma si_hkscs2001_uni2indx_page8e : sumin hkscs2001_uni2indx_page8e 29 116.
Proof. apply sumin_chk. vm_cast_no_check (eq_refl true). Qed.
Lemma si_hkscs2001_uni2indx_page91 : sumin hkscs2001_uni2indx_page91 48 116.
Proof. apply sumin_chk. vm_cast_no_check (eq_refl true). Qed.
Lemma si_hkscs2001_uni2indx_page97 : sumin hkscs2001_uni2indx_page97 47 116.
Proof. apply sumin_chk. vm_cast_no_check (eq_refl true). Qed.
Lemma si_hkscs2001_uni2indx_page9f : sumin hkscs2001_uni2indx_page9f 11 116.
Proof. apply sumin_chk. vm_cast_no_check (eq_refl true). Qed.
Lemma si_hkscs2001_uni2indx_page214 : sumin hkscs2001_uni2indx_page214 4 116.
Proof. apply sumin_chk. vm_cast_no_check (eq_refl true). Qed.
Lemma si_hkscs2001_uni2indx_page219 : sumin hkscs2001_uni2indx_page219 9 116.
Proof. apply sumin_chk. vm_cast_no_check (eq_refl true). Qed.
Lemma si_hkscs2001_uni2indx_page21d : sumin hkscs2001_uni2indx_page21d 12 116.
Proof. apply sumin_chk. vm_cast_no_check (eq_refl true). Qed.
Lemma si_hkscs2001_uni2indx_page220 : sumin hkscs2001_uni2indx_page220 8 116.
Proof. apply sumin_chk. vm_cast_no_check (eq_refl true). Qed.
Lemma si_hkscs2001_uni2indx_page227 : sumin hkscs2001_uni2indx_page227 2 116.
Proof. apply sumin_chk. vm_cast_no_check (eq_refl true). Qed.
Lemma si_hkscs2001_uni2indx_page232 : sumin hkscs2001_uni2indx_page232 32 116.
Proof. apply sumin_chk. vm_cast_no_check (eq_refl true). Qed.
Lemma si_hkscs2001_uni2indx_page23c : sumin hkscs2001_uni2indx_page23c 7 116.
Proof. apply sumin_chk. vm_cast_no_check (eq_refl true). Qed.
Lemma si_hkscs2001_uni2indx_page241 : sumin hkscs2001_uni2indx_page241 5 116.
Proof. apply sumin_chk. vm_cast_no_check (eq_refl true). Qed.
Lemma si_hkscs2001_uni2indx_page245 : sumin hkscs2001_uni2indx_page245 1 116.
Proof. apply sumin_chk. vm_cast_no_check (eq_refl true). Qed.
Lemma si_hkscs2001_uni2indx_page249 : sumin hkscs2001_uni2indx_page249 18 116.
Proof. apply sumin_chk. vm_cast_no_check (eq_refl true). Qed.
Lemma si_hkscs2001_uni2indx_page251 : sumin hkscs2001_uni2indx_page251 13 116.
Proof. apply sumin_chk. vm_cast_no_check (eq_refl true). Qed.
Lemma si_hkscs2001_uni2indx_page256 : sumin hkscs2001_uni2indx_page256 10 116.
Proof. apply sumin_chk. vm_cast_no_check (eq_refl true). Qed.
Lemma si_hkscs2001_uni2indx_page25c : sumin hkscs2001_uni2indx_page25c 20 116.
Proof. apply sumin_chk. vm_cast_no_check (eq_refl true). Qed.
Lemma si_hkscs2001_uni2indx_page26b : sumin hkscs2001_uni2indx_page26b 2 116.
Proof. apply sumin_chk. vm_cast_no_check (eq_refl true). Qed.
Lemma si_hkscs2001_uni2indx_page26d : sumin hkscs2001_uni2indx_page26d 8 116.
Proof. apply sumin_chk. vm_cast_no_check (eq_refl true). Qed.
Lemma si_hkscs2001_uni2indx_page26f : sumin hkscs2001_uni2indx_page26f 12 116.
Proof. apply sumin_chk. vm_cast_no_check (eq_refl true). Qed.
Lemma si_hkscs2001_uni2indx_page271 : sumin hkscs2001_uni2indx_page271 1 116.
Proof. apply sumin_chk. vm_cast_no_check (eq_refl true). Qed.
Lemma si_hkscs2001_uni2indx_page287 : sumin hkscs2001_uni2indx_page287 1 116.
Proof. apply sumin_chk. vm_cast_no_check (eq_refl true). Qed.
Lemma si_hkscs2001_uni2indx_page289 : sumin hkscs2001_uni2indx_page289 31 116.
Proof. apply sumin_chk. vm_cast_no_check (eq_refl true). Qed.
Lemma si_hkscs2001_uni2indx_page28d : sumin hkscs2001_uni2indx_page28d 12 116.
Proof. apply sumin_chk. vm_cast_no_check (eq_refl true). Qed.
Lemma si_hkscs2001_uni2indx_page299 : sumin hkscs2001_uni2indx_page299 5 116.
Proof. apply sumin_chk. vm_cast_no_check (eq_refl true). Qed.
Lemma si_hkscs2001_uni2indx_page29c : sumin hkscs2001_uni2indx_page29c 8 116.
Proof. apply sumin_chk. vm_cast_no_check (eq_refl true). Qed.
Lemma si_hkscs2001_uni2indx_page2a1 : sumin hkscs2001_uni2indx_page2a1 28 116.
Proof. apply sumin_chk. vm_cast_no_check (eq_refl true). Qed.
Lemma ti_hkscs2004_2uni_page87 : tabin hkscs2004_2uni_page87 58 (293) 19793.
Proof. apply tabin_chk. vm_cast_no_check (eq_refl true). Qed.
Lemma ti_hkscs2004_2uni_page8c : tabin hkscs2004_2uni_page8c 189 (74) 19637.
Proof. apply tabin_chk. vm_cast_no_check (eq_refl true). Qed.
Lemma ti_hkscs2004_2uni_upages : tabin hkscs2004_2uni_upages 78 (13312) 172800.
Proof. apply tabin_chk. vm_cast_no_check (eq_refl true). Qed.
Lemma ti_hkscs2004_2charset : tabin hkscs2004_2charset 123 (34624) 36191.
Proof. apply tabin_chk. vm_cast_no_check (eq_refl true). Qed.
Lemma cs_hkscs2004_2charset : tchk hkscs2004_2charset 123 (csok (inr 64 254)) = true.
Proof. vm_cast_no_check (eq_refl true). Qed.
Lemma si_hkscs2004_uni2indx_page34 : sumin hkscs2004_uni2indx_page34 5 123.
Proof. apply sumin_chk. vm_cast_no_check (eq_refl true). Qed.
Lemma si_hkscs2004_uni2indx_page36 : sumin hkscs2004_uni2indx_page36 56 123.
Proof. apply sumin_chk. vm_cast_no_check (eq_refl true). Qed.
Lemma si_hkscs2004_uni2indx_page3b : sumin hkscs2004_uni2indx_page3b 10 123.
Proof. apply sumin_chk. vm_cast_no_check (eq_refl true). Qed.
Lemma si_hkscs2004_uni2indx_page3d : sumin hkscs2004_uni2indx_page3d 16 123.
Proof. apply sumin_chk. vm_cast_no_check (eq_refl true). Qed.
Lemma si_hkscs2004_uni2indx_page3f : sumin hkscs2004_uni2indx_page3f 47 123.
Proof. apply sumin_chk. vm_cast_no_check (eq_refl true). Qed.
Lemma si_hkscs2004_uni2indx_page43 : sumin hkscs2004_uni2indx_page43 69 123.
Proof. apply sumin_chk. vm_cast_no_check (eq_refl true). Qed.
Lemma si_hkscs2004_uni2indx_page4a : sumin hkscs2004_uni2indx_page4a 11 123.
Proof. apply sumin_chk. vm_cast_no_check (eq_refl true). Qed.
Lemma si_hkscs2004_uni2indx_page4c : sumin hkscs2004_uni2indx_page4c 25 123.
Proof. apply sumin_chk. vm_cast_no_check (eq_refl true). Qed.
Lemma si_hkscs2004_uni2indx_page4f : sumin hkscs2004_uni2indx_page4f 12 123.
Proof. apply sumin_chk. vm_cast_no_check (eq_refl true). Qed.
Lemma si_hkscs2004_uni2indx_page56 : sumin hkscs2004_uni2indx_page56 16 123.
Proof. apply sumin_chk. vm_cast_no_check (eq_refl true). Qed.
Lemma si_hkscs2004_uni2indx_page59 : sumin hkscs2004_uni2indx_page59 72 123.
Proof. apply sumin_chk. vm_cast_no_check (eq_refl true). Qed.
Lemma si_hkscs2004_uni2indx_page5f : sumin hkscs2004_uni2indx_page5f 4 123.
Proof. apply sumin_chk. vm_cast_no_check (eq_refl true). Qed.
Lemma si_hkscs2004_uni2indx_page66 : sumin hkscs2004_uni2indx_page66 23 123.
Proof. apply sumin_chk. vm_cast_no_check (eq_refl true). Qed.
Lemma si_hkscs2004_uni2indx_page6e : sumin hkscs2004_uni2indx_page6e 6 123.
Proof. apply sumin_chk. vm_cast_no_check (eq_refl true). Qed.
Lemma si_hkscs2004_uni2indx_page71 : sumin hkscs2004_uni2indx_page71 19 123.
Proof. apply sumin_chk. vm_cast_no_check (eq_refl true). Qed.
Lemma si_hkscs2004_uni2indx_page74 : sumin hkscs2004_uni2indx_page74 10 123.
Proof. apply sumin_chk. vm_cast_no_check (eq_refl true). Qed.
Lemma si_hkscs2004_uni2indx_page79 : sumin hkscs2004_uni2indx_page79 13 123.
Proof. apply sumin_chk. vm_cast_no_check (eq_refl true). Qed.
Lemma si_hkscs2004_uni2indx_page7d : sumin hkscs2004_uni2indx_page7d 10 123.
Proof. apply sumin_chk. vm_cast_no_check (eq_refl true). Qed.
Lemma si_hkscs2004_uni2indx_page81 : sumin hkscs2004_uni2indx_page81 7 123.
Proof. apply sumin_chk. vm_cast_no_check (eq_refl true). Qed.
Lemma si_hkscs2004_uni2indx_page85 : sumin hkscs2004_uni2indx_page85 10 123.
Proof. apply sumin_chk. vm_cast_no_check (eq_refl true). Qed.
Lemma si_hkscs2004_uni2indx_page8a : sumin hkscs2004_uni2indx_page8a 16 123.
Proof. apply sumin_chk. vm_cast_no_check (eq_refl true). Qed.
Lemma si_hkscs2004_uni2indx_page97 : sumin hkscs2004_uni2indx_page97 22 123.
Proof. apply sumin_chk. vm_cast_no_check (eq_refl true). Qed.
Lemma si_hkscs2004_uni2indx_page9f : sumin hkscs2004_uni2indx_page9f 12 123.
Proof. apply sumin_chk. vm_cast_no_check (eq_refl true). Qed.
Lemma si_hkscs2004_uni2indx_page201 : sumin hkscs2004_uni2indx_page201 20 123.
Proof. apply sumin_chk. vm_cast_no_check (eq_refl true). Qed.
Lemma si_hkscs2004_uni2indx_page20a : sumin hkscs2004_uni2indx_page20a 26 123.
Proof. apply sumin_chk. vm_cast_no_check (eq_refl true). Qed.
Lemma si_hkscs2004_uni2indx_page21a : sumin hkscs2004_uni2indx_page21a 7 123.
Proof. apply sumin_chk. vm_cast_no_check (eq_refl true). Qed.
Lemma si_hkscs2004_uni2indx_page21d : sumin hkscs2004_uni2indx_page21d 19 123.
Proof. apply sumin_chk. vm_cast_no_check (eq_refl true). Qed.
Lemma si_hkscs2004_uni2indx_page221 : sumin hkscs2004_uni2indx_page221 13 123.
Proof. apply sumin_chk. vm_cast_no_check (eq_refl true). Qed.
Lemma si_hkscs2004_uni2indx_page227 : sumin hkscs2004_uni2indx_page227 10 123.
Proof. apply sumin_chk. vm_cast_no_check (eq_refl true). Qed.
Lemma si_hkscs2004_uni2indx_page232 : sumin hkscs2004_uni2indx_page232 6 123.
Proof. apply sumin_chk. vm_cast_no_check (eq_refl true). Qed.
Lemma si_hkscs2004_uni2indx_page235 : sumin hkscs2004_uni2indx_page235 18 123.
Proof. apply sumin_chk. vm_cast_no_check (eq_refl true). Qed.
Lemma si_hkscs2004_uni2indx_page23b : sumin hkscs2004_uni2indx_page23b 2 123.
Proof. apply sumin_chk. vm_cast_no_check (eq_refl true). Qed.
Lemma si_hkscs2004_uni2indx_page23e : sumin hkscs2004_uni2indx_page23e 47 123.
Proof. apply sumin_chk. vm_cast_no_check (eq_refl true). Qed.
Lemma si_hkscs2004_uni2indx_page242 : sumin hkscs2004_uni2indx_page242 12 123.
Proof. apply sumin_chk. vm_cast_no_check (eq_refl true). Qed.
Lemma si_hkscs2004_uni2indx_page24b : sumin hkscs2004_uni2indx_page24b 1 123.
Proof. apply sumin_chk. vm_cast_no_check (eq_refl true). Qed.
Lemma si_hkscs2004_uni2indx_page254 : sumin hkscs2004_uni2indx_page254 10 123.
Proof. apply sumin_chk. vm_cast_no_check (eq_refl true). Qed.
Lemma si_hkscs2004_uni2indx_page25a : sumin hkscs2004_uni2indx_page25a 6 123.
Proof. apply sumin_chk. vm_cast_no_check (eq_refl true). Qed.
Lemma si_hkscs2004_uni2indx_page26b : sumin hkscs2004_uni2indx_page26b 21 123.
Proof. apply sumin_chk. vm_cast_no_check (eq_refl true). Qed.
Lemma si_hkscs2004_uni2indx_page26e : sumin hkscs2004_uni2indx_page26e 9 123.
Proof. apply sumin_chk. vm_cast_no_check (eq_refl true). Qed.
Lemma si_hkscs2004_uni2indx_page270 : sumin hkscs2004_uni2indx_page270 14 123.
Proof. apply sumin_chk. vm_cast_no_check (eq_refl true). Qed.
Lemma si_hkscs2004_uni2indx_page272 : sumin hkscs2004_uni2indx_page272 32 123.
Proof. apply sumin_chk. vm_cast_no_check (eq_refl true). Qed.
Lemma si_hkscs2004_uni2indx_page27b : sumin hkscs2004_uni2indx_page27b 29 123.
Proof. apply sumin_chk. vm_cast_no_check (eq_refl true). Qed.
Lemma si_hkscs2004_uni2indx_page286 : sumin hkscs2004_uni2indx_page286 12 123.
Proof. apply sumin_chk. vm_cast_no_check (eq_refl true). Qed.
Lemma si_hkscs2004_uni2indx_page289 : sumin hkscs2004_uni2indx_page289 7 123.
Proof. apply sumin_chk. vm_cast_no_check (eq_refl true). Qed.
Lemma si_hkscs2004_uni2indx_page28b : sumin hkscs2004_uni2indx_page28b 12 123.
Proof. apply sumin_chk. vm_cast_no_check (eq_refl true). Qed.
Lemma si_hkscs2004_uni2indx_page290 : sumin hkscs2004_uni2indx_page290 8 123.
Proof. apply sumin_chk. vm_cast_no_check (eq_refl true). Qed.
Lemma si_hkscs2004_uni2indx_page298 : sumin hkscs2004_uni2indx_page298 21 123.
Proof. apply sumin_chk. vm_cast_no_check (eq_refl true). Qed.
Lemma si_hkscs2004_uni2indx_page29e : sumin hkscs2004_uni2indx_page29e 12 123.
Proof. apply sumin_chk. vm_cast_no_check (eq_refl true). Qed.
Lemma si_hkscs2004_uni2indx_page2a1 : sumin hkscs2004_uni2indx_page2a1 12 123.
Proof. apply sumin_chk. vm_cast_no_check (eq_refl true). Qed.
Lemma si_hkscs2004_uni2indx_page2a3 : sumin hkscs2004_uni2indx_page2a3 6 123.
Proof. apply sumin_chk. vm_cast_no_check (eq_refl true). Qed.
Lemma ti_hkscs2008_2uni_page87 : tabin hkscs2008_2uni_page87 126 (230) 12799.
Proof. apply tabin_chk. vm_cast_no_check (eq_refl true). Qed.
Lemma ti_hkscs2008_2uni_upages : tabin hkscs2008_2uni_upages 50 (13312) 175360.
Proof. apply tabin_chk. vm_cast_no_check (eq_refl true). Qed.
Lemma ti_hkscs2008_2charset : tabin hkscs2008_2charset 68 (34682) 34783.
Proof. apply tabin_chk. vm_cast_no_check (eq_refl true). Qed.
Lemma cs_hkscs2008_2charset : tchk hkscs2008_2charset 68 (csok (inr 122 223)) = true.
Proof. vm_cast_no_check (eq_refl true). Qed.
Lemma si_hkscs2008_uni2indx_page34 : sumin hkscs2008_uni2indx_page34 15 68.
Proof. apply sumin_chk. vm_cast_no_check (eq_refl true). Qed.
Lemma si_hkscs2008_uni2indx_page38 : sumin hkscs2008_uni2indx_page38 8 68.
Proof. apply sumin_chk. vm_cast_no_check (eq_refl true). Qed.
Lemma si_hkscs2008_uni2indx_page3a : sumin hkscs2008_uni2indx_page3a 16 68.
Proof. apply sumin_chk. vm_cast_no_check (eq_refl true). Qed.
Lemma si_hkscs2008_uni2indx_page3e : sumin hkscs2008_uni2indx_page3e 15 68.
Proof. apply sumin_chk. vm_cast_no_check (eq_refl true). Qed.
Lemma si_hkscs2008_uni2indx_page40 : sumin hkscs2008_uni2indx_page40 25 68.
Proof. apply sumin_chk. vm_cast_no_check (eq_refl true). Qed.
Lemma si_hkscs2008_uni2indx_page43 : sumin hkscs2008_uni2indx_page43 31 68.
Proof. apply sumin_chk. vm_cast_no_check (eq_refl true). Qed.
Lemma si_hkscs2008_uni2indx_page46 : sumin hkscs2008_uni2indx_page46 11 68.
Proof. apply sumin_chk. vm_cast_no_check (eq_refl true). Qed.
Lemma si_hkscs2008_uni2indx_page49 : sumin hkscs2008_uni2indx_page49 4 68.
Proof. apply sumin_chk. vm_cast_no_check (eq_refl true). Qed.
Lemma si_hkscs2008_uni2indx_page52 : sumin hkscs2008_uni2indx_page52 5 68.
Proof. apply sumin_chk. vm_cast_no_check (eq_refl true). Qed.
Lemma si_hkscs2008_uni2indx_page54 : sumin hkscs2008_uni2indx_page54 5 68.
Proof. apply sumin_chk. vm_cast_no_check (eq_refl true). Qed.
Lemma si_hkscs2008_uni2indx_page57 : sumin hkscs2008_uni2indx_page57 26 68.
Proof. apply sumin_chk. vm_cast_no_check (eq_refl true). Qed.
Lemma si_hkscs2008_uni2indx_page62 : sumin hkscs2008_uni2indx_page62 13 68.
Proof. apply sumin_chk. vm_cast_no_check (eq_refl true). Qed.
Lemma si_hkscs2008_uni2indx_page66 : sumin hkscs2008_uni2indx_page66 25 68.
Proof. apply sumin_chk. vm_cast_no_check (eq_refl true). Qed.
Lemma si_hkscs2008_uni2indx_page6a : sumin hkscs2008_uni2indx_page6a 3 68.
Proof. apply sumin_chk. vm_cast_no_check (eq_refl true). Qed.
Lemma si_hkscs2008_uni2indx_page70 : sumin hkscs2008_uni2indx_page70 7 68.
Proof. apply sumin_chk. vm_cast_no_check (eq_refl true). Qed.
Lemma si_hkscs2008_uni2indx_page73 : sumin hkscs2008_uni2indx_page73 29 68.
Proof. apply sumin_chk. vm_cast_no_check (eq_refl true). Qed.
Lemma si_hkscs2008_uni2indx_page79 : sumin hkscs2008_uni2indx_page79 45 68.
Proof. apply sumin_chk. vm_cast_no_check (eq_refl true). Qed.
Lemma si_hkscs2008_uni2indx_page84 : sumin hkscs2008_uni2indx_page84 34 68.
Proof. apply sumin_chk. vm_cast_no_check (eq_refl true). Qed.
Lemma si_hkscs2008_uni2indx_page88 : sumin hkscs2008_uni2indx_page88 10 68.
Proof. apply sumin_chk. vm_cast_no_check (eq_refl true). Qed.
Lemma si_hkscs2008_uni2indx_page8b : sumin hkscs2008_uni2indx_page8b 9 68.
Proof. apply sumin_chk. vm_cast_no_check (eq_refl true). Qed.
Lemma si_hkscs2008_uni2indx_page90 : sumin hkscs2008_uni2indx_page90 5 68.
Proof. apply sumin_chk. vm_cast_no_check (eq_refl true). Qed.
Lemma si_hkscs2008_uni2indx_page92 : sumin hkscs2008_uni2indx_page92 2 68.
Proof. apply sumin_chk. vm_cast_no_check (eq_refl true). Qed.
Lemma si_hkscs2008_uni2indx_page94 : sumin hkscs2008_uni2indx_page94 3 68.
Proof. apply sumin_chk. vm_cast_no_check (eq_refl true). Qed.
Lemma si_hkscs2008_uni2indx_page97 : sumin hkscs2008_uni2indx_page97 5 68.
Proof. apply sumin_chk. vm_cast_no_check (eq_refl true). Qed.
Lemma si_hkscs2008_uni2indx_page9f : sumin hkscs2008_uni2indx_page9f 13 68.
Proof. apply sumin_chk. vm_cast_no_check (eq_refl true). Qed.
Lemma si_hkscs2008_uni2indx_page20a : sumin hkscs2008_uni2indx_page20a 9 68.
Proof. apply sumin_chk. vm_cast_no_check (eq_refl true). Qed.
Lemma si_hkscs2008_uni2indx_page21d : sumin hkscs2008_uni2indx_page21d 6 68.
Proof. apply sumin_chk. vm_cast_no_check (eq_refl true). Qed.
Lemma si_hkscs2008_uni2indx_page224 : sumin hkscs2008_uni2indx_page224 13 68.
Proof. apply sumin_chk. vm_cast_no_check (eq_refl true). Qed.
Lemma si_hkscs2008_uni2indx_page231 : sumin hkscs2008_uni2indx_page231 22 68.
Proof. apply sumin_chk. vm_cast_no_check (eq_refl true). Qed.
Lemma si_hkscs2008_uni2indx_page235 : sumin hkscs2008_uni2indx_page235 26 68.
Proof. apply sumin_chk. vm_cast_no_check (eq_refl true). Qed.
Lemma si_hkscs2008_uni2indx_page241 : sumin hkscs2008_uni2indx_page241 7 68.
Proof. apply sumin_chk. vm_cast_no_check (eq_refl true). Qed.
Lemma si_hkscs2008_uni2indx_page258 : sumin hkscs2008_uni2indx_page258 14 68.
Proof. apply sumin_chk. vm_cast_no_check (eq_refl true). Qed.
Lemma si_hkscs2008_uni2indx_page25d : sumin hkscs2008_uni2indx_page25d 12 68.
Proof. apply sumin_chk. vm_cast_no_check (eq_refl true). Qed.
Lemma si_hkscs2008_uni2indx_page260 : sumin hkscs2008_uni2indx_page260 3 68.
Proof. apply sumin_chk. vm_cast_no_check (eq_refl true). Qed.
Lemma si_hkscs2008_uni2indx_page26e : sumin hkscs2008_uni2indx_page26e 9 68.
Proof. apply sumin_chk. vm_cast_no_check (eq_refl true). Qed.
Lemma si_hkscs2008_uni2indx_page27b : sumin hkscs2008_uni2indx_page27b 7 68.
Proof. apply sumin_chk. vm_cast_no_check (eq_refl true). Qed.
Lemma si_hkscs2008_uni2indx_page289 : sumin hkscs2008_uni2indx_page289 1 68.
Proof. apply sumin_chk. vm_cast_no_check (eq_refl true). Qed.
Lemma si_hkscs2008_uni2indx_page2ad : sumin hkscs2008_uni2indx_page2ad 16 68.
Proof. apply sumin_chk. vm_cast_no_check (eq_refl true). Qed.
Lemma ti_cp950ext_2uni_pagef9 : tabin cp950ext_2uni_pagef9 41 (9552) 37561.
Proof. apply tabin_chk. vm_cast_no_check (eq_refl true). Qed.
Lemma ti_cp950ext_2charset : tabin cp950ext_2charset 41 (63958) 63998.
Proof. apply tabin_chk. vm_cast_no_check (eq_refl true). Qed.
Lemma cs_cp950ext_2charset : tchk cp950ext_2charset 41 (csok (inr 214 254)) = true.
Proof. vm_cast_no_check (eq_refl true). Qed.
Lemma si_cp950ext_uni2indx_page25 : sumin cp950ext_uni2indx_page25 10 41.
Proof. apply sumin_chk. vm_cast_no_check (eq_refl true). Qed.
Lemma si_cp950ext_uni2indx_page58 : sumin cp950ext_uni2indx_page58 12 41.
Proof. apply sumin_chk. vm_cast_no_check (eq_refl true). Qed.
Lemma si_cp950ext_uni2indx_page5a : sumin cp950ext_uni2indx_page5a 16 41.
Proof. apply sumin_chk. vm_cast_no_check (eq_refl true). Qed.
Lemma si_cp950ext_uni2indx_page60 : sumin cp950ext_uni2indx_page60 6 41.
Proof. apply sumin_chk. vm_cast_no_check (eq_refl true). Qed.
Lemma si_cp950ext_uni2indx_page78 : sumin cp950ext_uni2indx_page78 9 41.
Proof. apply sumin_chk. vm_cast_no_check (eq_refl true). Qed.
Lemma si_cp950ext_uni2indx_page7c : sumin cp950ext_uni2indx_page7c 11 41.
Proof. apply sumin_chk. vm_cast_no_check (eq_refl true). Qed.
Lemma si_cp950ext_uni2indx_page88 : sumin cp950ext_uni2indx_page88 13 41.
Proof. apply sumin_chk. vm_cast_no_check (eq_refl true). Qed.
Lemma si_cp950ext_uni2indx_page92 : sumin cp950ext_uni2indx_page92 12 41.
Proof. apply sumin_chk. vm_cast_no_check (eq_refl true). Qed.
Lemma ti_cp950_2uni_pagea1 : tabin cp950_2uni_pagea1 314 (167) 65509.
Proof. apply tabin_chk. vm_cast_no_check (eq_refl true). Qed.
Lemma ti_big5_2003_2uni_pagea1 : tabin big5_2003_2uni_pagea1 314 (167) 65509.
Proof. apply tabin_chk. vm_cast_no_check (eq_refl true). Qed.
Lemma ti_big5_2003_2uni_pagec6 : tabin big5_2003_2uni_pagec6 70 (168) 65533.
Proof. apply tabin_chk. vm_cast_no_check (eq_refl true). Qed.
Lemma ti_big5_2003_2uni_pagef9 : tabin big5_2003_2uni_pagef9 41 (9552) 37561.
Proof. apply tabin_chk. vm_cast_no_check (eq_refl true). Qed.
Lemma ti_big5_2003_2charset_page25 : tabin big5_2003_2charset_page25 29 (221) 249.
Proof. apply tabin_chk. vm_cast_no_check (eq_refl true). Qed.
Lemma ti_cns11643_1_2uni_page21 : tabin cns11643_1_2uni_page21 500 (167) 65533.
Proof. apply tabin_chk. vm_cast_no_check (eq_refl true). Qed.
Lemma ti_cns11643_1_2uni_page42 : tabin cns11643_1_2uni_page42 34 (8364) 9249.
Proof. apply tabin_chk. vm_cast_no_check (eq_refl true). Qed.
Lemma ti_cns11643_1_2uni_page44 : tabin cns11643_1_2uni_page44 5401 (19968) 40860.
Proof. apply tabin_chk. vm_cast_no_check (eq_refl true). Qed.
Lemma ti_cns11643_2_2uni_page21 : tabin cns11643_2_2uni_page21 7650 (19975) 40868.
Proof. apply tabin_chk. vm_cast_no_check (eq_refl true). Qed.
Lemma ti_cns11643_3_2uni_page21 : tabin cns11643_3_2uni_page21 6148 (33) 34585.
Proof. apply tabin_chk. vm_cast_no_check (eq_refl true). Qed.
Lemma ti_cns11643_3_2uni_page64 : tabin cns11643_3_2uni_page64 292 (7014) 27901.
Proof. apply tabin_chk. vm_cast_no_check (eq_refl true). Qed.
Lemma ti_cns11643_3_2uni_upages : tabin cns11643_3_2uni_upages 136 (13312) 195072.
Proof. apply tabin_chk. vm_cast_no_check (eq_refl true). Qed.
Lemma ti_cns11643_4a_2uni_page21 : tabin cns11643_4a_2uni_page21 2914 (1) 54040.
Proof. apply tabin_chk. vm_cast_no_check (eq_refl true). Qed.
Lemma ti_cns11643_4a_2uni_upages : tabin cns11643_4a_2uni_upages 212 (13312) 195072.
Proof. apply tabin_chk. vm_cast_no_check (eq_refl true). Qed.
Lemma ti_cns11643_4b_2uni_page40 : tabin cns11643_4b_2uni_page40 4384 (131) 63260.
Proof. apply tabin_chk. vm_cast_no_check (eq_refl true). Qed.
Lemma ti_cns11643_4b_2uni_upages : tabin cns11643_4b_2uni_upages 248 (13312) 195072.
Proof. apply tabin_chk. vm_cast_no_check (eq_refl true). Qed.
Lemma ti_cns11643_5_2uni_page21 : tabin cns11643_5_2uni_page21 8603 (65) 58394.
Proof. apply tabin_chk. vm_cast_no_check (eq_refl true). Qed.
Lemma ti_cns11643_5_2uni_upages : tabin cns11643_5_2uni_upages 229 (13312) 195072.
Proof. apply tabin_chk. vm_cast_no_check (eq_refl true). Qed.
Lemma ti_cns11643_6_2uni_page21 : tabin cns11643_6_2uni_page21 6388 (0) 51991.
Proof. apply tabin_chk. vm_cast_no_check (eq_refl true). Qed.
Lemma ti_cns11643_6_2uni_upages : tabin cns11643_6_2uni_upages 204 (13312) 195072.
Proof. apply tabin_chk. vm_cast_no_check (eq_refl true). Qed.
Lemma ti_cns11643_7_2uni_page21 : tabin cns11643_7_2uni_page21 6539 (167) 50461.
Proof. apply tabin_chk. vm_cast_no_check (eq_refl true). Qed.
Lemma ti_cns11643_7_2uni_upages : tabin cns11643_7_2uni_upages 198 (13312) 195072.
Proof. apply tabin_chk. vm_cast_no_check (eq_refl true). Qed.
Lemma ti_cns11643_15_2uni_page21 : tabin cns11643_15_2uni_page21 7169 (6) 64531.
Proof. apply tabin_chk. vm_cast_no_check (eq_refl true). Qed.
Lemma ti_cns11643_15_2uni_upages : tabin cns11643_15_2uni_upages 253 (13312) 195072.
Proof. apply tabin_chk. vm_cast_no_check (eq_refl true). Qed.
Lemma si_cns11643_inv_uni2indx_page00 : sumin cns11643_inv_uni2indx_page00 16 55442.
Proof. apply sumin_chk. vm_cast_no_check (eq_refl true). Qed.
Lemma si_cns11643_inv_uni2indx_page02 : sumin cns11643_inv_uni2indx_page02 29 55442.
Proof. apply sumin_chk. vm_cast_no_check (eq_refl true). Qed.
Lemma si_cns11643_inv_uni2indx_page20 : sumin cns11643_inv_uni2indx_page20 44 55442.
Proof. apply sumin_chk. vm_cast_no_check (eq_refl true). Qed.
Lemma si_cns11643_inv_uni2indx_page24 : sumin cns11643_inv_uni2indx_page24 37 55442.
Proof. apply sumin_chk. vm_cast_no_check (eq_refl true). Qed.
Lemma si_cns11643_inv_uni2indx_page30 : sumin cns11643_inv_uni2indx_page30 1787 55442.
Proof. apply sumin_chk. vm_cast_no_check (eq_refl true). Qed.
Lemma si_cns11643_inv_uni2indx_pagefa : sumin cns11643_inv_uni2indx_pagefa 3 55442.
Proof. apply sumin_chk. vm_cast_no_check (eq_refl true). Qed.
Lemma si_cns11643_inv_uni2indx_pagefe : sumin cns11643_inv_uni2indx_pagefe 31 55442.
Proof. apply sumin_chk. vm_cast_no_check (eq_refl true). Qed.
Lemma si_cns11643_inv_uni2indx_page200 : sumin cns11643_inv_uni2indx_page200 2670 55442.
Proof. apply sumin_chk. vm_cast_no_check (eq_refl true). Qed.
Lemma si_cns11643_inv_uni2indx_page2f8 : sumin cns11643_inv_uni2indx_page2f8 34 55442.
Proof. apply sumin_chk. vm_cast_no_check (eq_refl true). Qed.
Lemma ti_cns11643_inv_2charset : tabin cns11643_inv_2charset 166326 (1) 126.
Proof. apply tabin_chk. vm_cast_no_check (eq_refl true). Qed.
Lemma ti_gb2312_2uni_page21 : tabin gb2312_2uni_page21 831 (164) 65533.
Proof. apply tabin_chk. vm_cast_no_check (eq_refl true). Qed.
Lemma ti_gb2312_2uni_page30 : tabin gb2312_2uni_page30 6768 (19968) 65533.
Proof. apply tabin_chk. vm_cast_no_check (eq_refl true). Qed.
Lemma ti_gb2312_2charset : tabin gb2312_2charset 7445 (8481) 30590.
Proof. apply tabin_chk. vm_cast_no_check (eq_refl true). Qed.
Lemma cs_gb2312_2charset : tchk gb2312_2charset 7445 (csok (inr 33 126)) = true.
Proof. vm_cast_no_check (eq_refl true). Qed.
Lemma si_gb2312_uni2indx_page00 : sumin gb2312_uni2indx_page00 70 7445.
Proof. apply sumin_chk. vm_cast_no_check (eq_refl true). Qed.
Lemma si_gb2312_uni2indx_page20 : sumin gb2312_uni2indx_page20 101 7445.
Proof. apply sumin_chk. vm_cast_no_check (eq_refl true). Qed.
Lemma si_gb2312_uni2indx_page30 : sumin gb2312_uni2indx_page30 35 7445.
Proof. apply sumin_chk. vm_cast_no_check (eq_refl true). Qed.
Lemma si_gb2312_uni2indx_page4e : sumin gb2312_uni2indx_page4e 1263 7445.
Proof. apply sumin_chk. vm_cast_no_check (eq_refl true). Qed.
Lemma si_gb2312_uni2indx_page9e : sumin gb2312_uni2indx_page9e 27 7445.
Proof. apply sumin_chk. vm_cast_no_check (eq_refl true). Qed.
Lemma si_gb2312_uni2indx_pageff : sumin gb2312_uni2indx_pageff 15 7445.
Proof. apply sumin_chk. vm_cast_no_check (eq_refl true). Qed.
Lemma ti_isoir165ext_2uni_page2b : tabin isoir165ext_2uni_page2b 470 (232) 65533.
Proof. apply tabin_chk. vm_cast_no_check (eq_refl true). Qed.
Lemma ti_isoir165ext_2uni_page7a : tabin isoir165ext_2uni_page7a 470 (19983) 40834.
Proof. apply tabin_chk. vm_cast_no_check (eq_refl true). Qed.
Lemma ti_isoir165ext_2charset : tabin isoir165ext_2charset 876 (11041) 32382.
Proof. apply tabin_chk. vm_cast_no_check (eq_refl true). Qed.
Lemma cs_isoir165ext_2charset : tchk isoir165ext_2charset 876 (csok (inr 33 126)) = true.
Proof. vm_cast_no_check (eq_refl true). Qed.
Lemma si_isoir165ext_uni2indx_page00 : sumin isoir165ext_uni2indx_page00 32 876.
Proof. apply sumin_chk. vm_cast_no_check (eq_refl true). Qed.
Lemma si_isoir165ext_uni2indx_page03 : sumin isoir165ext_uni2indx_page03 12 876.
Proof. apply sumin_chk. vm_cast_no_check (eq_refl true). Qed.
Lemma si_isoir165ext_uni2indx_page1e : sumin isoir165ext_uni2indx_page1e 28 876.
Proof. apply sumin_chk. vm_cast_no_check (eq_refl true). Qed.
Lemma si_isoir165ext_uni2indx_page30 : sumin isoir165ext_uni2indx_page30 4 876.
Proof. apply sumin_chk. vm_cast_no_check (eq_refl true). Qed.
Lemma si_isoir165ext_uni2indx_page32 : sumin isoir165ext_uni2indx_page32 32 876.
Proof. apply sumin_chk. vm_cast_no_check (eq_refl true). Qed.
Lemma si_isoir165ext_uni2indx_page4e : sumin isoir165ext_uni2indx_page4e 752 876.
Proof. apply sumin_chk. vm_cast_no_check (eq_refl true). Qed.
Lemma si_isoir165ext_uni2indx_page7e : sumin isoir165ext_uni2indx_page7e 333 876.
Proof. apply sumin_chk. vm_cast_no_check (eq_refl true). Qed.
Lemma si_isoir165ext_uni2indx_page94 : sumin isoir165ext_uni2indx_page94 143 876.
Proof. apply sumin_chk. vm_cast_no_check (eq_refl true). Qed.
Lemma si_isoir165ext_uni2indx_page9e : sumin isoir165ext_uni2indx_page9e 25 876.
Proof. apply sumin_chk. vm_cast_no_check (eq_refl true). Qed.
Lemma si_isoir165ext_uni2indx_pageff : sumin isoir165ext_uni2indx_pageff 5 876.
Proof. apply sumin_chk. vm_cast_no_check (eq_refl true). Qed.
Lemma ti_cp936ext_2uni_pagea6 : tabin cp936ext_2uni_pagea6 22 (65073) 65533.
Proof. apply tabin_chk. vm_cast_no_check (eq_refl true). Qed.
Lemma ti_cp936ext_2uni_pagea8 : tabin cp936ext_2uni_pagea8 6 (324) 65533.
Proof. apply tabin_chk. vm_cast_no_check (eq_refl true). Qed.
Lemma ti_cp936ext_page01 : tabin cp936ext_page01 16 (0) 43198.
Proof. apply tabin_chk. vm_cast_no_check (eq_refl true). Qed.
Lemma ti_cp936ext_page02 : tabin cp936ext_page02 24 (0) 43200.
Proof. apply tabin_chk. vm_cast_no_check (eq_refl true). Qed.
Lemma ti_cp936ext_pagefe : tabin cp936ext_pagefe 24 (0) 42741.
Proof. apply tabin_chk. vm_cast_no_check (eq_refl true). Qed.
Lemma ti_gbkext1_2uni_page81 : tabin gbkext1_2uni_page81 6080 (19970) 29403.
Proof. apply tabin_chk. vm_cast_no_check (eq_refl true). Qed.
Lemma ti_gbkext2_2uni_pagea8 : tabin gbkext2_2uni_pagea8 8272 (714) 65533.
Proof. apply tabin_chk. vm_cast_no_check (eq_refl true). Qed.
Lemma ti_gbkext_inv_2charset : tabin gbkext_inv_2charset 14313 (33088) 65103.
Proof. apply tabin_chk. vm_cast_no_check (eq_refl true). Qed.
Lemma cs_gbkext_inv_2charset : tchk gbkext_inv_2charset 14313 (csok (inr 64 254)) = true.
Proof. vm_cast_no_check (eq_refl true). Qed.
Lemma si_gbkext_inv_uni2indx_page02 : sumin gbkext_inv_uni2indx_page02 14 14313.
Proof. apply sumin_chk. vm_cast_no_check (eq_refl true). Qed.
Lemma si_gbkext_inv_uni2indx_page20 : sumin gbkext_inv_uni2indx_page20 44 14313.
Proof. apply sumin_chk. vm_cast_no_check (eq_refl true). Qed.
Lemma si_gbkext_inv_uni2indx_page25 : sumin gbkext_inv_uni2indx_page25 17 14313.
Proof. apply sumin_chk. vm_cast_no_check (eq_refl true). Qed.
Lemma si_gbkext_inv_uni2indx_page30 : sumin gbkext_inv_uni2indx_page30 16 14313.
Proof. apply sumin_chk. vm_cast_no_check (eq_refl true). Qed.
Lemma si_gbkext_inv_uni2indx_page32 : sumin gbkext_inv_uni2indx_page32 30 14313.
Proof. apply sumin_chk. vm_cast_no_check (eq_refl true). Qed.
Lemma si_gbkext_inv_uni2indx_page4e : sumin gbkext_inv_uni2indx_page4e 1307 14313.
Proof. apply sumin_chk. vm_cast_no_check (eq_refl true). Qed.
Lemma si_gbkext_inv_uni2indx_pagef9 : sumin gbkext_inv_uni2indx_pagef9 19 14313.
Proof. apply sumin_chk. vm_cast_no_check (eq_refl true). Qed.
Lemma si_gbkext_inv_uni2indx_pagefe : sumin gbkext_inv_uni2indx_pagefe 31 14313.
Proof. apply sumin_chk. vm_cast_no_check (eq_refl true). Qed.
Lemma ti_gb18030ext_2uni_pagea9 : tabin gb18030ext_2uni_pagea9 13 (12272) 12350.
Proof. apply tabin_chk. vm_cast_no_check (eq_refl true). Qed.
Lemma ti_gb18030_2005_ext_2uni_pagefe : tabin gb18030_2005_ext_2uni_pagefe 96 (11905) 147966.
Proof. apply tabin_chk. vm_cast_no_check (eq_refl true). Qed.
Lemma ti_gb18030_2022_ext_2uni_pagefe : tabin gb18030_2022_ext_2uni_pagefe 96 (11905) 65533.
Proof. apply tabin_chk. vm_cast_no_check (eq_refl true). Qed.
Lemma ti_gb18030ext_page2e : tabin gb18030ext_page2e 80 (0) 65156.
Proof. apply tabin_chk. vm_cast_no_check (eq_refl true). Qed.
Lemma ti_gb18030ext_page2f : tabin gb18030ext_page2f 16 (0) 43413.
Proof. apply tabin_chk. vm_cast_no_check (eq_refl true). Qed.
Lemma ti_gb18030ext_page34 : tabin gb18030ext_page34 56 (0) 65110.
Proof. apply tabin_chk. vm_cast_no_check (eq_refl true). Qed.
Lemma ti_gb18030ext_page36 : tabin gb18030ext_page36 24 (0) 65116.
Proof. apply tabin_chk. vm_cast_no_check (eq_refl true). Qed.
Lemma ti_gb18030ext_page39 : tabin gb18030ext_page39 24 (0) 65125.
Proof. apply tabin_chk. vm_cast_no_check (eq_refl true). Qed.
Lemma ti_gb18030ext_page43 : tabin gb18030ext_page43 56 (0) 65146.
Proof. apply tabin_chk. vm_cast_no_check (eq_refl true). Qed.
Lemma ti_gb18030ext_page46 : tabin gb18030ext_page46 32 (0) 65149.
Proof. apply tabin_chk. vm_cast_no_check (eq_refl true). Qed.
Lemma ti_gb18030ext_page47_1 : tabin gb18030ext_page47_1 16 (0) 65153.
Proof. apply tabin_chk. vm_cast_no_check (eq_refl true). Qed.
Lemma ti_gb18030ext_page47_2 : tabin gb18030ext_page47_2 24 (0) 65155.
Proof. apply tabin_chk. vm_cast_no_check (eq_refl true). Qed.
Lemma ti_gb18030ext_page49 : tabin gb18030ext_page49 120 (0) 65167.
Proof. apply tabin_chk. vm_cast_no_check (eq_refl true). Qed.
Lemma ti_gb18030ext_page4c : tabin gb18030ext_page4c 56 (0) 65175.
Proof. apply tabin_chk. vm_cast_no_check (eq_refl true). Qed.
Lemma ti_gb18030ext_page4d : tabin gb18030ext_page4d 16 (0) 65182.
Proof. apply tabin_chk. vm_cast_no_check (eq_refl true). Qed.
Lemma ti_gb18030ext_page9f : tabin gb18030ext_page9f 16 (0) 65184.
Proof. apply tabin_chk. vm_cast_no_check (eq_refl true). Qed.
Lemma ti_gb18030ext_pagefe : tabin gb18030ext_pagefe 16 (0) 42739.
Proof. apply tabin_chk. vm_cast_no_check (eq_refl true). Qed.
Lemma ti_gb18030uni_charset2uni_ranges : tabin gb18030uni_charset2uni_ranges 412 (0) 39419.
Proof. apply tabin_chk. vm_cast_no_check (eq_refl true). Qed.
Lemma ti_gb18030uni_uni2charset_ranges : tabin gb18030uni_uni2charset_ranges 412 (128) 65535.
Proof. apply tabin_chk. vm_cast_no_check (eq_refl true). Qed.
Lemma ti_gb18030uni_ranges : tabin gb18030uni_ranges 206 (128) 26116.
Proof. apply tabin_chk. vm_cast_no_check (eq_refl true). Qed.
Lemma ti_gb18030_2022_charset2uni_pua1 : tabin gb18030_2022_charset2uni_pua1 8 (59422) 59492.
Proof. apply tabin_chk. vm_cast_no_check (eq_refl true). Qed.
Lemma ti_gb18030_2022_charset2uni_pua2 : tabin gb18030_2022_charset2uni_pua2 10 (59277) 59286.
Proof. apply tabin_chk. vm_cast_no_check (eq_refl true). Qed.
Lemma ti_gb18030_2022_uni2charset_pua1 : tabin gb18030_2022_uni2charset_pua1 71 (0) 8.
Proof. apply tabin_chk. vm_cast_no_check (eq_refl true). Qed.
Lemma ti_gb18030_2022_uni2charset_pua2 : tabin gb18030_2022_uni2charset_pua2 10 (0) 9.
Proof. apply tabin_chk. vm_cast_no_check (eq_refl true). Qed.
Lemma ti_gb18030_2005_pua2charset : tabin gb18030_2005_pua2charset 105 (41643) 2520102448.
Proof. apply tabin_chk. vm_cast_no_check (eq_refl true). Qed.
Lemma ti_gb18030_2022_pua2charset : tabin gb18030_2022_pua2charset 69 (41643) 65169.
Proof. apply tabin_chk. vm_cast_no_check (eq_refl true). Qed.
Lemma ti_jisx0208_2uni_page21 : tabin jisx0208_2uni_page21 690 (162) 65533.
Proof. apply tabin_chk. vm_cast_no_check (eq_refl true). Qed.
Lemma ti_jisx0208_2uni_page30 : tabin jisx0208_2uni_page30 6398 (19968) 65533.
Proof. apply tabin_chk. vm_cast_no_check (eq_refl true). Qed.
Lemma ti_jisx0208_2charset : tabin jisx0208_2charset 6879 (8481) 29734.
Proof. apply tabin_chk. vm_cast_no_check (eq_refl true). Qed.
Lemma cs_jisx0208_2charset : tchk jisx0208_2charset 6879 (csok (inr 33 126)) = true.
Proof. vm_cast_no_check (eq_refl true). Qed.
Lemma si_jisx0208_uni2indx_page00 : sumin jisx0208_uni2indx_page00 16 6879.
Proof. apply sumin_chk. vm_cast_no_check (eq_refl true). Qed.
Lemma si_jisx0208_uni2indx_page03 : sumin jisx0208_uni2indx_page03 22 6879.
Proof. apply sumin_chk. vm_cast_no_check (eq_refl true). Qed.
Lemma si_jisx0208_uni2indx_page20 : sumin jisx0208_uni2indx_page20 50 6879.
Proof. apply sumin_chk. vm_cast_no_check (eq_refl true). Qed.
Lemma si_jisx0208_uni2indx_page25 : sumin jisx0208_uni2indx_page25 23 6879.
Proof. apply sumin_chk. vm_cast_no_check (eq_refl true). Qed.
Lemma si_jisx0208_uni2indx_page30 : sumin jisx0208_uni2indx_page30 16 6879.
Proof. apply sumin_chk. vm_cast_no_check (eq_refl true). Qed.
Lemma si_jisx0208_uni2indx_page4e : sumin jisx0208_uni2indx_page4e 1307 6879.
Proof. apply sumin_chk. vm_cast_no_check (eq_refl true). Qed.
Lemma si_jisx0208_uni2indx_pageff : sumin jisx0208_uni2indx_pageff 15 6879.
Proof. apply sumin_chk. vm_cast_no_check (eq_refl true). Qed.
Lemma ti_jisx0212_2uni_page22 : tabin jisx0212_2uni_page22 81 (161) 65533.
Proof. apply tabin_chk. vm_cast_no_check (eq_refl true). Qed.
Lemma ti_jisx0212_2uni_page26 : tabin jisx0212_2uni_page26 188 (902) 65533.
Proof. apply tabin_chk. vm_cast_no_check (eq_refl true). Qed.
Lemma ti_jisx0212_2uni_page29 : tabin jisx0212_2uni_page29 275 (192) 65533.
Proof. apply tabin_chk. vm_cast_no_check (eq_refl true). Qed.
Lemma ti_jisx0212_2uni_page30 : tabin jisx0212_2uni_page30 5801 (19970) 40869.
Proof. apply tabin_chk. vm_cast_no_check (eq_refl true). Qed.
Lemma ti_jisx0212_2charset : tabin jisx0212_2charset 6067 (8751) 28003.
Proof. apply tabin_chk. vm_cast_no_check (eq_refl true). Qed.
Lemma cs_jisx0212_2charset : tchk jisx0212_2charset 6067 (csok (inr 33 126)) = true.
Proof. vm_cast_no_check (eq_refl true). Qed.
Lemma si_jisx0212_uni2indx_page00 : sumin jisx0212_uni2indx_page00 70 6067.
Proof. apply sumin_chk. vm_cast_no_check (eq_refl true). Qed.
Lemma si_jisx0212_uni2indx_page21 : sumin jisx0212_uni2indx_page21 3 6067.
Proof. apply sumin_chk. vm_cast_no_check (eq_refl true). Qed.
Lemma si_jisx0212_uni2indx_page4e : sumin jisx0212_uni2indx_page4e 1307 6067.
Proof. apply sumin_chk. vm_cast_no_check (eq_refl true). Qed.
Lemma si_jisx0212_uni2indx_pageff : sumin jisx0212_uni2indx_pageff 6 6067.
Proof. apply sumin_chk. vm_cast_no_check (eq_refl true). Qed.
Lemma ti_cp932ext_2uni_page87 : tabin cp932ext_2uni_page87 92 (8470) 65533.
Proof. apply tabin_chk. vm_cast_no_check (eq_refl true). Qed.
Lemma ti_cp932ext_2uni_pageed : tabin cp932ext_2uni_pageed 376 (8560) 65533.
Proof. apply tabin_chk. vm_cast_no_check (eq_refl true). Qed.
Lemma ti_cp932ext_2uni_pagefa : tabin cp932ext_2uni_pagefa 388 (8470) 65508.
Proof. apply tabin_chk. vm_cast_no_check (eq_refl true). Qed.
Lemma ti_cp932ext_2charset : tabin cp932ext_2charset 457 (34624) 64587.
Proof. apply tabin_chk. vm_cast_no_check (eq_refl true). Qed.
Lemma cs_cp932ext_2charset : tchk cp932ext_2charset 457 (csok (inr 64 252)) = true.
Proof. vm_cast_no_check (eq_refl true). Qed.
Lemma si_cp932ext_uni2indx_page21 : sumin cp932ext_uni2indx_page21 28 457.
Proof. apply sumin_chk. vm_cast_no_check (eq_refl true). Qed.
Lemma si_cp932ext_uni2indx_page24 : sumin cp932ext_uni2indx_page24 8 457.
Proof. apply sumin_chk. vm_cast_no_check (eq_refl true). Qed.
Lemma si_cp932ext_uni2indx_page30 : sumin cp932ext_uni2indx_page30 2 457.
Proof. apply sumin_chk. vm_cast_no_check (eq_refl true). Qed.
Lemma si_cp932ext_uni2indx_page32 : sumin cp932ext_uni2indx_page32 29 457.
Proof. apply sumin_chk. vm_cast_no_check (eq_refl true). Qed.
Lemma si_cp932ext_uni2indx_page4e : sumin cp932ext_uni2indx_page4e 121 457.
Proof. apply sumin_chk. vm_cast_no_check (eq_refl true). Qed.
Lemma si_cp932ext_uni2indx_page57 : sumin cp932ext_uni2indx_page57 44 457.
Proof. apply sumin_chk. vm_cast_no_check (eq_refl true). Qed.
Lemma si_cp932ext_uni2indx_page5b : sumin cp932ext_uni2indx_page5b 46 457.
Proof. apply sumin_chk. vm_cast_no_check (eq_refl true). Qed.
Lemma si_cp932ext_uni2indx_page5f : sumin cp932ext_uni2indx_page5f 458 457.
Proof. apply sumin_chk. vm_cast_no_check (eq_refl true). Qed.
Lemma si_cp932ext_uni2indx_page7d : sumin cp932ext_uni2indx_page7d 43 457.
Proof. apply sumin_chk. vm_cast_no_check (eq_refl true). Qed.
Lemma si_cp932ext_uni2indx_page83 : sumin cp932ext_uni2indx_page83 44 457.
Proof. apply sumin_chk. vm_cast_no_check (eq_refl true). Qed.
Lemma si_cp932ext_uni2indx_page88 : sumin cp932ext_uni2indx_page88 109 457.
Proof. apply sumin_chk. vm_cast_no_check (eq_refl true). Qed.
Lemma si_cp932ext_uni2indx_page90 : sumin cp932ext_uni2indx_page90 238 457.
Proof. apply sumin_chk. vm_cast_no_check (eq_refl true). Qed.
Lemma si_cp932ext_uni2indx_pagef9 : sumin cp932ext_uni2indx_pagef9 19 457.
Proof. apply sumin_chk. vm_cast_no_check (eq_refl true). Qed.
Lemma si_cp932ext_uni2indx_pageff : sumin cp932ext_uni2indx_pageff 15 457.
Proof. apply sumin_chk. vm_cast_no_check (eq_refl true). Qed.
Lemma ti_cp50221_0208_ext_2uni : tabin cp50221_0208_ext_2uni 96 (8470) 65533.
Proof. apply tabin_chk. vm_cast_no_check (eq_refl true). Qed.
Lemma ti_cp50221_0208_ext_page21 : tabin cp50221_0208_ext_page21 96 (0) 68.
Proof. apply tabin_chk. vm_cast_no_check (eq_refl true). Qed.
Lemma ti_cp50221_0208_ext_page22 : tabin cp50221_0208_ext_page22 32 (0) 88.
Proof. apply tabin_chk. vm_cast_no_check (eq_refl true). Qed.
Lemma ti_cp50221_0208_ext_page24 : tabin cp50221_0208_ext_page24 24 (0) 20.
Proof. apply tabin_chk. vm_cast_no_check (eq_refl true). Qed.
Lemma ti_cp50221_0208_ext_page30 : tabin cp50221_0208_ext_page30 8 (0) 65.
Proof. apply tabin_chk. vm_cast_no_check (eq_refl true). Qed.
Lemma ti_cp50221_0208_ext_page32 : tabin cp50221_0208_ext_page32 16 (0) 76.
Proof. apply tabin_chk. vm_cast_no_check (eq_refl true). Qed.
Lemma ti_cp50221_0208_ext_page32_1 : tabin cp50221_0208_ext_page32_1 16 (0) 73.
Proof. apply tabin_chk. vm_cast_no_check (eq_refl true). Qed.
Lemma ti_cp50221_0208_ext_page33 : tabin cp50221_0208_ext_page33 208 (0) 79.
Proof. apply tabin_chk. vm_cast_no_check (eq_refl true). Qed.
Lemma ti_cp50221_0212_ext_2uni : tabin cp50221_0212_ext_2uni 112 (8560) 65533.
Proof. apply tabin_chk. vm_cast_no_check (eq_refl true). Qed.
Lemma ti_cp50221_0212_ext_page21 : tabin cp50221_0212_ext_page21 16 (0) 10.
Proof. apply tabin_chk. vm_cast_no_check (eq_refl true). Qed.
Lemma ti_cp50221_0212_ext_page53 : tabin cp50221_0212_ext_page53 40 (0) 31.
Proof. apply tabin_chk. vm_cast_no_check (eq_refl true). Qed.
Lemma ti_cp50221_0212_ext_page6d : tabin cp50221_0212_ext_page6d 16 (0) 56.
Proof. apply tabin_chk. vm_cast_no_check (eq_refl true). Qed.
Lemma ti_cp50221_0212_ext_page76 : tabin cp50221_0212_ext_page76 32 (0) 62.
Proof. apply tabin_chk. vm_cast_no_check (eq_refl true). Qed.
Lemma ti_cp50221_0212_ext_page7d : tabin cp50221_0212_ext_page7d 56 (0) 73.
Proof. apply tabin_chk. vm_cast_no_check (eq_refl true). Qed.
Lemma ti_cp50221_0212_ext_page97 : tabin cp50221_0212_ext_page97 32 (0) 161.
Proof. apply tabin_chk. vm_cast_no_check (eq_refl true). Qed.
Lemma ti_cp50221_0212_ext_pagefa : tabin cp50221_0212_ext_pagefa 40 (0) 105.
Proof. apply tabin_chk. vm_cast_no_check (eq_refl true). Qed.
Lemma ti_cp50221_0212_ext_pageff : tabin cp50221_0212_ext_pageff 8 (0) 22.
Proof. apply tabin_chk. vm_cast_no_check (eq_refl true). Qed.
Lemma ti_jisx0213_to_ucs_combining : tabin jisx0213_to_ucs_combining 50 (230) 12791.
Proof. apply tabin_chk. vm_cast_no_check (eq_refl true). Qed.
Lemma ti_jisx0213_to_ucs_main : tabin jisx0213_to_ucs_main 11280 (0) 63922.
Proof. apply tabin_chk. vm_cast_no_check (eq_refl true). Qed.
Lemma ti_jisx0213_to_ucs_pagestart : tabin jisx0213_to_ucs_pagestart 250 (0) 173568.
Proof. apply tabin_chk. vm_cast_no_check (eq_refl true). Qed.
Lemma ti_jisx0213_from_ucs_level1 : tabin jisx0213_from_ucs_level1 2715 (-1) 677.
Proof. apply tabin_chk. vm_cast_no_check (eq_refl true). Qed.
Lemma ti_jisx0213_from_ucs_level2_data : tabin jisx0213_from_ucs_level2_data 11208 (8481) 65142.
Proof. apply tabin_chk. vm_cast_no_check (eq_refl true). Qed.
Lemma si_jisx0213_from_ucs_level2_2indx : sumin jisx0213_from_ucs_level2_2indx 2712 11208.
Proof. apply sumin_chk. vm_cast_no_check (eq_refl true). Qed.
Lemma ti_jamo_initial : tabin jamo_initial 32 (1) 255.
Proof. apply tabin_chk. vm_cast_no_check (eq_refl true). Qed.
Lemma ti_jamo_medial : tabin jamo_medial 32 (31) 255.
Proof. apply tabin_chk. vm_cast_no_check (eq_refl true). Qed.
Lemma ti_jamo_final : tabin jamo_final 32 (1) 255.
Proof. apply tabin_chk. vm_cast_no_check (eq_refl true). Qed.
Lemma ti_jamo_final_notinitial : tabin jamo_final_notinitial 32 (3) 253.
Proof. apply tabin_chk. vm_cast_no_check (eq_refl true). Qed.
Lemma ti_jamo_initial_index : tabin jamo_initial_index 32 (-1) 19.
Proof. apply tabin_chk. vm_cast_no_check (eq_refl true). Qed.
Lemma ti_jamo_medial_index : tabin jamo_medial_index 32 (-1) 21.
Proof. apply tabin_chk. vm_cast_no_check (eq_refl true). Qed.
Lemma ti_jamo_final_index : tabin jamo_final_index 32 (-1) 27.
Proof. apply tabin_chk. vm_cast_no_check (eq_refl true). Qed.
Lemma ti_johab_hangul_page31 : tabin johab_hangul_page31 51 (33860) 53313.
Proof. apply tabin_chk. vm_cast_no_check (eq_refl true). Qed.
Lemma ti_jamo_initial_index_inverse : tabin jamo_initial_index_inverse 19 (2) 20.
Proof. apply tabin_chk. vm_cast_no_check (eq_refl true). Qed.
Lemma ti_jamo_medial_index_inverse : tabin jamo_medial_index_inverse 21 (3) 29.
Proof. apply tabin_chk. vm_cast_no_check (eq_refl true). Qed.
Lemma ti_jamo_final_index_inverse : tabin jamo_final_index_inverse 28 (1) 29.
Proof. apply tabin_chk. vm_cast_no_check (eq_refl true). Qed.
Lemma ti_ksc5601_2uni_page21 : tabin ksc5601_2uni_page21 1115 (161) 65533.
Proof. apply tabin_chk. vm_cast_no_check (eq_refl true). Qed.
Lemma ti_ksc5601_2uni_page30 : tabin ksc5601_2uni_page30 2350 (44032) 55197.
Proof. apply tabin_chk. vm_cast_no_check (eq_refl true). Qed.
Lemma ti_ksc5601_2uni_page4a : tabin ksc5601_2uni_page4a 4888 (19968) 64011.
Proof. apply tabin_chk. vm_cast_no_check (eq_refl true). Qed.
Lemma ti_ksc5601_2charset : tabin ksc5601_2charset 8227 (8481) 32126.
Proof. apply tabin_chk. vm_cast_no_check (eq_refl true). Qed.
Lemma cs_ksc5601_2charset : tchk ksc5601_2charset 8227 (csok (inr 33 126)) = true.
Proof. vm_cast_no_check (eq_refl true). Qed.
Lemma si_ksc5601_uni2indx_page00 : sumin ksc5601_uni2indx_page00 70 8227.
Proof. apply sumin_chk. vm_cast_no_check (eq_refl true). Qed.
Lemma si_ksc5601_uni2indx_page20 : sumin ksc5601_uni2indx_page20 103 8227.
Proof. apply sumin_chk. vm_cast_no_check (eq_refl true). Qed.
Lemma si_ksc5601_uni2indx_page30 : sumin ksc5601_uni2indx_page30 62 8227.
Proof. apply sumin_chk. vm_cast_no_check (eq_refl true). Qed.
Lemma si_ksc5601_uni2indx_page4e : sumin ksc5601_uni2indx_page4e 1306 8227.
Proof. apply sumin_chk. vm_cast_no_check (eq_refl true). Qed.
Lemma si_ksc5601_uni2indx_pageac : sumin ksc5601_uni2indx_pageac 698 8227.
Proof. apply sumin_chk. vm_cast_no_check (eq_refl true). Qed.
Lemma si_ksc5601_uni2indx_pagef9 : sumin ksc5601_uni2indx_pagef9 17 8227.
Proof. apply sumin_chk. vm_cast_no_check (eq_refl true). Qed.
Lemma si_ksc5601_uni2indx_pageff : sumin ksc5601_uni2indx_pageff 15 8227.
Proof. apply sumin_chk. vm_cast_no_check (eq_refl true). Qed.
Lemma ti_uhc_1_2uni_main_page81 : tabin uhc_1_2uni_main_page81 64 (44034) 51250.
Proof. apply tabin_chk. vm_cast_no_check (eq_refl true). Qed.
Lemma ti_uhc_1_2uni_page81 : tabin uhc_1_2uni_page81 5696 (0) 145.
Proof. apply tabin_chk. vm_cast_no_check (eq_refl true). Qed.
Lemma ti_uhc_1_2charset_main : tabin uhc_1_2charset_main 45 (33089) 41151.
Proof. apply tabin_chk. vm_cast_no_check (eq_refl true). Qed.
Lemma ti_uhc_1_2charset : tabin uhc_1_2charset 5696 (0) 205.
Proof. apply tabin_chk. vm_cast_no_check (eq_refl true). Qed.
Lemma si_uhc_1_uni2indx_pageac : sumin uhc_1_uni2indx_pageac 459 5696.
Proof. apply sumin_chk. vm_cast_no_check (eq_refl true). Qed.
Lemma ti_uhc_2_2uni_main_pagea1 : tabin uhc_2_2uni_main_pagea1 76 (51365) 65533.
Proof. apply tabin_chk. vm_cast_no_check (eq_refl true). Qed.
Lemma ti_uhc_2_2uni_pagea1 : tabin uhc_2_2uni_pagea1 3126 (0) 64.
Proof. apply tabin_chk. vm_cast_no_check (eq_refl true). Qed.
Lemma ti_uhc_2_2charset_main : tabin uhc_2_2charset_main 49 (41281) 50551.
Proof. apply tabin_chk. vm_cast_no_check (eq_refl true). Qed.
Lemma ti_uhc_2_2charset : tabin uhc_2_2charset 3126 (0) 235.
Proof. apply tabin_chk. vm_cast_no_check (eq_refl true). Qed.
Lemma si_uhc_2_uni2indx_pagec8 : sumin uhc_2_uni2indx_pagec8 251 3126.
Proof. apply sumin_chk. vm_cast_no_check (eq_refl true). Qed.

Ltac ti_of t := lazymatch t with
  | conversion_lists => constr:(ti_conversion_lists)
  | iso2022_jp3_comp_table_data => constr:(ti_iso2022_jp3_comp_table_data)
  | euc_jisx0213_comp_table_data => constr:(ti_euc_jisx0213_comp_table_data)
  | shift_jisx0213_comp_table_data => constr:(ti_shift_jisx0213_comp_table_data)
  | big5_2uni_pagea1 => constr:(ti_big5_2uni_pagea1)
  | big5_2uni_pagec9 => constr:(ti_big5_2uni_pagec9)
  | big5_2charset => constr:(ti_big5_2charset)
  | hkscs1999_2uni_page88 => constr:(ti_hkscs1999_2uni_page88)
  | hkscs1999_2uni_page8d => constr:(ti_hkscs1999_2uni_page8d)
  | hkscs1999_2uni_pagec6 => constr:(ti_hkscs1999_2uni_pagec6)
  | hkscs1999_2uni_pagef9 => constr:(ti_hkscs1999_2uni_pagef9)
  | hkscs1999_2uni_upages => constr:(ti_hkscs1999_2uni_upages)
  | hkscs1999_2charset => constr:(ti_hkscs1999_2charset)
  | hkscs2001_2uni_page8c => constr:(ti_hkscs2001_2uni_page8c)
  | hkscs2001_2uni_upages => constr:(ti_hkscs2001_2uni_upages)
  | hkscs2001_2charset => constr:(ti_hkscs2001_2charset)
  | hkscs2004_2uni_page87 => constr:(ti_hkscs2004_2uni_page87)
  | hkscs2004_2uni_page8c => constr:(ti_hkscs2004_2uni_page8c)
  | hkscs2004_2uni_upages => constr:(ti_hkscs2004_2uni_upages)
  | hkscs2004_2charset => constr:(ti_hkscs2004_2charset)
  | hkscs2008_2uni_page87 => constr:(ti_hkscs2008_2uni_page87)
  | hkscs2008_2uni_upages => constr:(ti_hkscs2008_2uni_upages)
  | hkscs2008_2charset => constr:(ti_hkscs2008_2charset)
  | cp950ext_2uni_pagef9 => constr:(ti_cp950ext_2uni_pagef9)
  | cp950ext_2charset => constr:(ti_cp950ext_2charset)
  | cp950_2uni_pagea1 => constr:(ti_cp950_2uni_pagea1)
  | big5_2003_2uni_pagea1 => constr:(ti_big5_2003_2uni_pagea1)
  | big5_2003_2uni_pagec6 => constr:(ti_big5_2003_2uni_pagec6)
  | big5_2003_2uni_pagef9 => constr:(ti_big5_2003_2uni_pagef9)
  | big5_2003_2charset_page25 => constr:(ti_big5_2003_2charset_page25)
  | cns11643_1_2uni_page21 => constr:(ti_cns11643_1_2uni_page21)
  | cns11643_1_2uni_page42 => constr:(ti_cns11643_1_2uni_page42)
  | cns11643_1_2uni_page44 => constr:(ti_cns11643_1_2uni_page44)
  | cns11643_2_2uni_page21 => constr:(ti_cns11643_2_2uni_page21)
  | cns11643_3_2uni_page21 => constr:(ti_cns11643_3_2uni_page21)
  | cns11643_3_2uni_page64 => constr:(ti_cns11643_3_2uni_page64)
  | cns11643_3_2uni_upages => constr:(ti_cns11643_3_2uni_upages)
  | cns11643_4a_2uni_page21 => constr:(ti_cns11643_4a_2uni_page21)
  | cns11643_4a_2uni_upages => constr:(ti_cns11643_4a_2uni_upages)
  | cns11643_4b_2uni_page40 => constr:(ti_cns11643_4b_2uni_page40)
  | cns11643_4b_2uni_upages => constr:(ti_cns11643_4b_2uni_upages)
  | cns11643_5_2uni_page21 => constr:(ti_cns11643_5_2uni_page21)
  | cns11643_5_2uni_upages => constr:(ti_cns11643_5_2uni_upages)
  | cns11643_6_2uni_page21 => constr:(ti_cns11643_6_2uni_page21)
  | cns11643_6_2uni_upages => constr:(ti_cns11643_6_2uni_upages)
  | cns11643_7_2uni_page21 => constr:(ti_cns11643_7_2uni_page21)
  | cns11643_7_2uni_upages => constr:(ti_cns11643_7_2uni_upages)
  | cns11643_15_2uni_page21 => constr:(ti_cns11643_15_2uni_page21)
  | cns11643_15_2uni_upages => constr:(ti_cns11643_15_2uni_upages)
  | cns11643_inv_2charset => constr:(ti_cns11643_inv_2charset)
  | gb2312_2uni_page21 => constr:(ti_gb2312_2uni_page21)
  | gb2312_2uni_page30 => constr:(ti_gb2312_2uni_page30)
  | gb2312_2charset => constr:(ti_gb2312_2charset)
  | isoir165ext_2uni_page2b => constr:(ti_isoir165ext_2uni_page2b)
  | isoir165ext_2uni_page7a => constr:(ti_isoir165ext_2uni_page7a)
  | isoir165ext_2charset => constr:(ti_isoir165ext_2charset)
  | cp936ext_2uni_pagea6 => constr:(ti_cp936ext_2uni_pagea6)
  | cp936ext_2uni_pagea8 => constr:(ti_cp936ext_2uni_pagea8)
  | cp936ext_page01 => constr:(ti_cp936ext_page01)
  | cp936ext_page02 => constr:(ti_cp936ext_page02)
  | cp936ext_pagefe => constr:(ti_cp936ext_pagefe)
  | gbkext1_2uni_page81 => constr:(ti_gbkext1_2uni_page81)
  | gbkext2_2uni_pagea8 => constr:(ti_gbkext2_2uni_pagea8)
  | gbkext_inv_2charset => constr:(ti_gbkext_inv_2charset)
  | gb18030ext_2uni_pagea9 => constr:(ti_gb18030ext_2uni_pagea9)
  | gb18030_2005_ext_2uni_pagefe => constr:(ti_gb18030_2005_ext_2uni_pagefe)
  | gb18030_2022_ext_2uni_pagefe => constr:(ti_gb18030_2022_ext_2uni_pagefe)
  | gb18030ext_page2e => constr:(ti_gb18030ext_page2e)
  | gb18030ext_page2f => constr:(ti_gb18030ext_page2f)
  | gb18030ext_page34 => constr:(ti_gb18030ext_page34)
  | gb18030ext_page36 => constr:(ti_gb18030ext_page36)
  | gb18030ext_page39 => constr:(ti_gb18030ext_page39)
  | gb18030ext_page43 => constr:(ti_gb18030ext_page43)
  | gb18030ext_page46 => constr:(ti_gb18030ext_page46)
  | gb18030ext_page47_1 => constr:(ti_gb18030ext_page47_1)
  | gb18030ext_page47_2 => constr:(ti_gb18030ext_page47_2)
  | gb18030ext_page49 => constr:(ti_gb18030ext_page49)
  | gb18030ext_page4c => constr:(ti_gb18030ext_page4c)
  | gb18030ext_page4d => constr:(ti_gb18030ext_page4d)
  | gb18030ext_page9f => constr:(ti_gb18030ext_page9f)
  | gb18030ext_pagefe => constr:(ti_gb18030ext_pagefe)
  | gb18030uni_charset2uni_ranges => constr:(ti_gb18030uni_charset2uni_ranges)
  | gb18030uni_uni2charset_ranges => constr:(ti_gb18030uni_uni2charset_ranges)
  | gb18030uni_ranges => constr:(ti_gb18030uni_ranges)
  | gb18030_2022_charset2uni_pua1 => constr:(ti_gb18030_2022_charset2uni_pua1)
  | gb18030_2022_charset2uni_pua2 => constr:(ti_gb18030_2022_charset2uni_pua2)
  | gb18030_2022_uni2charset_pua1 => constr:(ti_gb18030_2022_uni2charset_pua1)
  | gb18030_2022_uni2charset_pua2 => constr:(ti_gb18030_2022_uni2charset_pua2)
  | gb18030_2005_pua2charset => constr:(ti_gb18030_2005_pua2charset)
  | gb18030_2022_pua2charset => constr:(ti_gb18030_2022_pua2charset)
  | jisx0208_2uni_page21 => constr:(ti_jisx0208_2uni_page21)
  | jisx0208_2uni_page30 => constr:(ti_jisx0208_2uni_page30)
  | jisx0208_2charset => constr:(ti_jisx0208_2charset)
  | jisx0212_2uni_page22 => constr:(ti_jisx0212_2uni_page22)
  | jisx0212_2uni_page26 => constr:(ti_jisx0212_2uni_page26)
  | jisx0212_2uni_page29 => constr:(ti_jisx0212_2uni_page29)
  | jisx0212_2uni_page30 => constr:(ti_jisx0212_2uni_page30)
  | jisx0212_2charset => constr:(ti_jisx0212_2charset)
  | cp932ext_2uni_page87 => constr:(ti_cp932ext_2uni_page87)
  | cp932ext_2uni_pageed => constr:(ti_cp932ext_2uni_pageed)
  | cp932ext_2uni_pagefa => constr:(ti_cp932ext_2uni_pagefa)
  | cp932ext_2charset => constr:(ti_cp932ext_2charset)
  | cp50221_0208_ext_2uni => constr:(ti_cp50221_0208_ext_2uni)
  | cp50221_0208_ext_page21 => constr:(ti_cp50221_0208_ext_page21)
  | cp50221_0208_ext_page22 => constr:(ti_cp50221_0208_ext_page22)
  | cp50221_0208_ext_page24 => constr:(ti_cp50221_0208_ext_page24)
  | cp50221_0208_ext_page30 => constr:(ti_cp50221_0208_ext_page30)
  | cp50221_0208_ext_page32 => constr:(ti_cp50221_0208_ext_page32)
  | cp50221_0208_ext_page32_1 => constr:(ti_cp50221_0208_ext_page32_1)
  | cp50221_0208_ext_page33 => constr:(ti_cp50221_0208_ext_page33)
  | cp50221_0212_ext_2uni => constr:(ti_cp50221_0212_ext_2uni)
  | cp50221_0212_ext_page21 => constr:(ti_cp50221_0212_ext_page21)
  | cp50221_0212_ext_page53 => constr:(ti_cp50221_0212_ext_page53)
  | cp50221_0212_ext_page6d => constr:(ti_cp50221_0212_ext_page6d)
  | cp50221_0212_ext_page76 => constr:(ti_cp50221_0212_ext_page76)
  | cp50221_0212_ext_page7d => constr:(ti_cp50221_0212_ext_page7d)
  | cp50221_0212_ext_page97 => constr:(ti_cp50221_0212_ext_page97)
  | cp50221_0212_ext_pagefa => constr:(ti_cp50221_0212_ext_pagefa)
  | cp50221_0212_ext_pageff => constr:(ti_cp50221_0212_ext_pageff)
  | jisx0213_to_ucs_combining => constr:(ti_jisx0213_to_ucs_combining)
  | jisx0213_to_ucs_main => constr:(ti_jisx0213_to_ucs_main)
  | jisx0213_to_ucs_pagestart => constr:(ti_jisx0213_to_ucs_pagestart)
  | jisx0213_from_ucs_level1 => constr:(ti_jisx0213_from_ucs_level1)
  | jisx0213_from_ucs_level2_data => constr:(ti_jisx0213_from_ucs_level2_data)
  | jamo_initial => constr:(ti_jamo_initial)
  | jamo_medial => constr:(ti_jamo_medial)
  | jamo_final => constr:(ti_jamo_final)
  | jamo_final_notinitial => constr:(ti_jamo_final_notinitial)
  | jamo_initial_index => constr:(ti_jamo_initial_index)
  | jamo_medial_index => constr:(ti_jamo_medial_index)
  | jamo_final_index => constr:(ti_jamo_final_index)
  | johab_hangul_page31 => constr:(ti_johab_hangul_page31)
  | jamo_initial_index_inverse => constr:(ti_jamo_initial_index_inverse)
  | jamo_medial_index_inverse => constr:(ti_jamo_medial_index_inverse)
  | jamo_final_index_inverse => constr:(ti_jamo_final_index_inverse)
  | ksc5601_2uni_page21 => constr:(ti_ksc5601_2uni_page21)
  | ksc5601_2uni_page30 => constr:(ti_ksc5601_2uni_page30)
  | ksc5601_2uni_page4a => constr:(ti_ksc5601_2uni_page4a)
  | ksc5601_2charset => constr:(ti_ksc5601_2charset)
  | uhc_1_2uni_main_page81 => constr:(ti_uhc_1_2uni_main_page81)
  | uhc_1_2uni_page81 => constr:(ti_uhc_1_2uni_page81)
  | uhc_1_2charset_main => constr:(ti_uhc_1_2charset_main)
  | uhc_1_2charset => constr:(ti_uhc_1_2charset)
  | uhc_2_2uni_main_pagea1 => constr:(ti_uhc_2_2uni_main_pagea1)
  | uhc_2_2uni_pagea1 => constr:(ti_uhc_2_2uni_pagea1)
  | uhc_2_2charset_main => constr:(ti_uhc_2_2charset_main)
  | uhc_2_2charset => constr:(ti_uhc_2_2charset)
  end.

Ltac si_of t := lazymatch t with
  | big5_uni2indx_page00 => constr:(si_big5_uni2indx_page00)
  | big5_uni2indx_page02 => constr:(si_big5_uni2indx_page02)
  | big5_uni2indx_page20 => constr:(si_big5_uni2indx_page20)
  | big5_uni2indx_page24 => constr:(si_big5_uni2indx_page24)
  | big5_uni2indx_page30 => constr:(si_big5_uni2indx_page30)
  | big5_uni2indx_page4e => constr:(si_big5_uni2indx_page4e)
  | big5_uni2indx_pagefa => constr:(si_big5_uni2indx_pagefa)
  | big5_uni2indx_pagefe => constr:(si_big5_uni2indx_pagefe)
  | hkscs1999_uni2indx_page00 => constr:(si_hkscs1999_uni2indx_page00)
  | hkscs1999_uni2indx_page04 => constr:(si_hkscs1999_uni2indx_page04)
  | hkscs1999_uni2indx_page1e => constr:(si_hkscs1999_uni2indx_page1e)
  | hkscs1999_uni2indx_page21 => constr:(si_hkscs1999_uni2indx_page21)
  | hkscs1999_uni2indx_page23 => constr:(si_hkscs1999_uni2indx_page23)
  | hkscs1999_uni2indx_page27 => constr:(si_hkscs1999_uni2indx_page27)
  | hkscs1999_uni2indx_page2e => constr:(si_hkscs1999_uni2indx_page2e)
  | hkscs1999_uni2indx_page34 => constr:(si_hkscs1999_uni2indx_page34)
  | hkscs1999_uni2indx_pagef9 => constr:(si_hkscs1999_uni2indx_pagef9)
  | hkscs1999_uni2indx_pageff => constr:(si_hkscs1999_uni2indx_pageff)
  | hkscs1999_uni2indx_page200 => constr:(si_hkscs1999_uni2indx_page200)
  | hkscs1999_uni2indx_page294 => constr:(si_hkscs1999_uni2indx_page294)
  | hkscs1999_uni2indx_page297 => constr:(si_hkscs1999_uni2indx_page297)
  | hkscs1999_uni2indx_page2f8 => constr:(si_hkscs1999_uni2indx_page2f8)
  | hkscs2001_uni2indx_page35 => constr:(si_hkscs2001_uni2indx_page35)
  | hkscs2001_uni2indx_page3c => constr:(si_hkscs2001_uni2indx_page3c)
  | hkscs2001_uni2indx_page40 => constr:(si_hkscs2001_uni2indx_page40)
  | hkscs2001_uni2indx_page42 => constr:(si_hkscs2001_uni2indx_page42)
  | hkscs2001_uni2indx_page4b => constr:(si_hkscs2001_uni2indx_page4b)
  | hkscs2001_uni2indx_page4e => constr:(si_hkscs2001_uni2indx_page4e)
  | hkscs2001_uni2indx_page53 => constr:(si_hkscs2001_uni2indx_page53)
  | hkscs2001_uni2indx_page57 => constr:(si_hkscs2001_uni2indx_page57)
  | hkscs2001_uni2indx_page5a => constr:(si_hkscs2001_uni2indx_page5a)
  | hkscs2001_uni2indx_page61 => constr:(si_hkscs2001_uni2indx_page61)
  | hkscs2001_uni2indx_page65 => constr:(si_hkscs2001_uni2indx_page65)
  | hkscs2001_uni2indx_page67 => constr:(si_hkscs2001_uni2indx_page67)
  | hkscs2001_uni2indx_page69 => constr:(si_hkscs2001_uni2indx_page69)
  | hkscs2001_uni2indx_page6c => constr:(si_hkscs2001_uni2indx_page6c)
  | hkscs2001_uni2indx_page70 => constr:(si_hkscs2001_uni2indx_page70)
  | hkscs2001_uni2indx_page76 => constr:(si_hkscs2001_uni2indx_page76)
  | hkscs2001_uni2indx_page7a => constr:(si_hkscs2001_uni2indx_page7a)
  | hkscs2001_uni2indx_page82 => constr:(si_hkscs2001_uni2indx_page82)
  | hkscs2001_uni2indx_page85 => constr:(si_hkscs2001_uni2indx_page85)
  | hkscs2001_uni2indx_page88 => constr:(si_hkscs2001_uni2indx_page88)
  | hkscs2001_uni2indx_page8b => constr:(si_hkscs2001_uni2indx_page8b)
  | hkscs2001_uni2indx_page8e => constr:(si_hkscs2001_uni2indx_page8e)
  | hkscs2001_uni2indx_page91 => constr:(si_hkscs2001_uni2indx_page91)
  | hkscs2001_uni2indx_page97 => constr:(si_hkscs2001_uni2indx_page97)
  | hkscs2001_uni2indx_page9f => constr:(si_hkscs2001_uni2indx_page9f)
  | hkscs2001_uni2indx_page214 => constr:(si_hkscs2001_uni2indx_page214)
  | hkscs2001_uni2indx_page219 => constr:(si_hkscs2001_uni2indx_page219)
  | hkscs2001_uni2indx_page21d => constr:(si_hkscs2001_uni2indx_page21d)
  | hkscs2001_uni2indx_page220 => constr:(si_hkscs2001_uni2indx_page220)
  | hkscs2001_uni2indx_page227 => constr:(si_hkscs2001_uni2indx_page227)
  | hkscs2001_uni2indx_page232 => constr:(si_hkscs2001_uni2indx_page232)
  | hkscs2001_uni2indx_page23c => constr:(si_hkscs2001_uni2indx_page23c)
  | hkscs2001_uni2indx_page241 => constr:(si_hkscs2001_uni2indx_page241)
  | hkscs2001_uni2indx_page245 => constr:(si_hkscs2001_uni2indx_page245)
  | hkscs2001_uni2indx_page249 => constr:(si_hkscs2001_uni2indx_page249)
  | hkscs2001_uni2indx_page251 => constr:(si_hkscs2001_uni2indx_page251)
  | hkscs2001_uni2indx_page256 => constr:(si_hkscs2001_uni2indx_page256)
  | hkscs2001_uni2indx_page25c => constr:(si_hkscs2001_uni2indx_page25c)
  | hkscs2001_uni2indx_page26b => constr:(si_hkscs2001_uni2indx_page26b)
  | hkscs2001_uni2indx_page26d => constr:(si_hkscs2001_uni2indx_page26d)
  | hkscs2001_uni2indx_page26f => constr:(si_hkscs2001_uni2indx_page26f)
  | hkscs2001_uni2indx_page271 => constr:(si_hkscs2001_uni2indx_page271)
  | hkscs2001_uni2indx_page287 => constr:(si_hkscs2001_uni2indx_page287)
  | hkscs2001_uni2indx_page289 => constr:(si_hkscs2001_uni2indx_page289)
  | hkscs2001_uni2indx_page28d => constr:(si_hkscs2001_uni2indx_page28d)
  | hkscs2001_uni2indx_page299 => constr:(si_hkscs2001_uni2indx_page299)
  | hkscs2001_uni2indx_page29c => constr:(si_hkscs2001_uni2indx_page29c)
  | hkscs2001_uni2indx_page2a1 => constr:(si_hkscs2001_uni2indx_page2a1)
  | hkscs2004_uni2indx_page34 => constr:(si_hkscs2004_uni2indx_page34)
  | hkscs2004_uni2indx_page36 => constr:(si_hkscs2004_uni2indx_page36)
  | hkscs2004_uni2indx_page3b => constr:(si_hkscs2004_uni2indx_page3b)
  | hkscs2004_uni2indx_page3d => constr:(si_hkscs2004_uni2indx_page3d)
  | hkscs2004_uni2indx_page3f => constr:(si_hkscs2004_uni2indx_page3f)
  | hkscs2004_uni2indx_page43 => constr:(si_hkscs2004_uni2indx_page43)
  | hkscs2004_uni2indx_page4a => constr:(si_hkscs2004_uni2indx_page4a)
  | hkscs2004_uni2indx_page4c => constr:(si_hkscs2004_uni2indx_page4c)
  | hkscs2004_uni2indx_page4f => constr:(si_hkscs2004_uni2indx_page4f)
  | hkscs2004_uni2indx_page56 => constr:(si_hkscs2004_uni2indx_page56)
  | hkscs2004_uni2indx_page59 => constr:(si_hkscs2004_uni2indx_page59)
  | hkscs2004_uni2indx_page5f => constr:(si_hkscs2004_uni2indx_page5f)
  | hkscs2004_uni2indx_page66 => constr:(si_hkscs2004_uni2indx_page66)
  | hkscs2004_uni2indx_page6e => constr:(si_hkscs2004_uni2indx_page6e)
  | hkscs2004_uni2indx_page71 => constr:(si_hkscs2004_uni2indx_page71)
  | hkscs2004_uni2indx_page74 => constr:(si_hkscs2004_uni2indx_page74)
  | hkscs2004_uni2indx_page79 => constr:(si_hkscs2004_uni2indx_page79)
  | hkscs2004_uni2indx_page7d => constr:(si_hkscs2004_uni2indx_page7d)
  | hkscs2004_uni2indx_page81 => constr:(si_hkscs2004_uni2indx_page81)
  | hkscs2004_uni2indx_page85 => constr:(si_hkscs2004_uni2indx_page85)
  | hkscs2004_uni2indx_page8a => constr:(si_hkscs2004_uni2indx_page8a)
  | hkscs2004_uni2indx_page97 => constr:(si_hkscs2004_uni2indx_page97)
  | hkscs2004_uni2indx_page9f => constr:(si_hkscs2004_uni2indx_page9f)
  | hkscs2004_uni2indx_page201 => constr:(si_hkscs2004_uni2indx_page201)
  | hkscs2004_uni2indx_page20a => constr:(si_hkscs2004_uni2indx_page20a)
  | hkscs2004_uni2indx_page21a => constr:(si_hkscs2004_uni2indx_page21a)
  | hkscs2004_uni2indx_page21d => constr:(si_hkscs2004_uni2indx_page21d)
  | hkscs2004_uni2indx_page221 => constr:(si_hkscs2004_uni2indx_page221)
  | hkscs2004_uni2indx_page227 => constr:(si_hkscs2004_uni2indx_page227)
  | hkscs2004_uni2indx_page232 => constr:(si_hkscs2004_uni2indx_page232)
  | hkscs2004_uni2indx_page235 => constr:(si_hkscs2004_uni2indx_page235)
  | hkscs2004_uni2indx_page23b => constr:(si_hkscs2004_uni2indx_page23b)
  | hkscs2004_uni2indx_page23e => constr:(si_hkscs2004_uni2indx_page23e)
  | hkscs2004_uni2indx_page242 => constr:(si_hkscs2004_uni2indx_page242)
  | hkscs2004_uni2indx_page24b => constr:(si_hkscs2004_uni2indx_page24b)
  | hkscs2004_uni2indx_page254 => constr:(si_hkscs2004_uni2indx_page254)
  | hkscs2004_uni2indx_page25a => constr:(si_hkscs2004_uni2indx_page25a)
  | hkscs2004_uni2indx_page26b => constr:(si_hkscs2004_uni2indx_page26b)
  | hkscs2004_uni2indx_page26e => constr:(si_hkscs2004_uni2indx_page26e)
  | hkscs2004_uni2indx_page270 => constr:(si_hkscs2004_uni2indx_page270)
  | hkscs2004_uni2indx_page272 => constr:(si_hkscs2004_uni2indx_page272)
  | hkscs2004_uni2indx_page27b => constr:(si_hkscs2004_uni2indx_page27b)
  | hkscs2004_uni2indx_page286 => constr:(si_hkscs2004_uni2indx_page286)
  | hkscs2004_uni2indx_page289 => constr:(si_hkscs2004_uni2indx_page289)
  | hkscs2004_uni2indx_page28b => constr:(si_hkscs2004_uni2indx_page28b)
  | hkscs2004_uni2indx_page290 => constr:(si_hkscs2004_uni2indx_page290)
  | hkscs2004_uni2indx_page298 => constr:(si_hkscs2004_uni2indx_page298)
  | hkscs2004_uni2indx_page29e => constr:(si_hkscs2004_uni2indx_page29e)
  | hkscs2004_uni2indx_page2a1 => constr:(si_hkscs2004_uni2indx_page2a1)
  | hkscs2004_uni2indx_page2a3 => constr:(si_hkscs2004_uni2indx_page2a3)
  | hkscs2008_uni2indx_page34 => constr:(si_hkscs2008_uni2indx_page34)
  | hkscs2008_uni2indx_page38 => constr:(si_hkscs2008_uni2indx_page38)
  | hkscs2008_uni2indx_page3a => constr:(si_hkscs2008_uni2indx_page3a)
  | hkscs2008_uni2indx_page3e => constr:(si_hkscs2008_uni2indx_page3e)
  | hkscs2008_uni2indx_page40 => constr:(si_hkscs2008_uni2indx_page40)
  | hkscs2008_uni2indx_page43 => constr:(si_hkscs2008_uni2indx_page43)
  | hkscs2008_uni2indx_page46 => constr:(si_hkscs2008_uni2indx_page46)
  | hkscs2008_uni2indx_page49 => constr:(si_hkscs2008_uni2indx_page49)
  | hkscs2008_uni2indx_page52 => constr:(si_hkscs2008_uni2indx_page52)
  | hkscs2008_uni2indx_page54 => constr:(si_hkscs2008_uni2indx_page54)
  | hkscs2008_uni2indx_page57 => constr:(si_hkscs2008_uni2indx_page57)
  | hkscs2008_uni2indx_page62 => constr:(si_hkscs2008_uni2indx_page62)
  | hkscs2008_uni2indx_page66 => constr:(si_hkscs2008_uni2indx_page66)
  | hkscs2008_uni2indx_page6a => constr:(si_hkscs2008_uni2indx_page6a)
  | hkscs2008_uni2indx_page70 => constr:(si_hkscs2008_uni2indx_page70)
  | hkscs2008_uni2indx_page73 => constr:(si_hkscs2008_uni2indx_page73)
  | hkscs2008_uni2indx_page79 => constr:(si_hkscs2008_uni2indx_page79)
  | hkscs2008_uni2indx_page84 => constr:(si_hkscs2008_uni2indx_page84)
  | hkscs2008_uni2indx_page88 => constr:(si_hkscs2008_uni2indx_page88)
  | hkscs2008_uni2indx_page8b => constr:(si_hkscs2008_uni2indx_page8b)
  | hkscs2008_uni2indx_page90 => constr:(si_hkscs2008_uni2indx_page90)
  | hkscs2008_uni2indx_page92 => constr:(si_hkscs2008_uni2indx_page92)
  | hkscs2008_uni2indx_page94 => constr:(si_hkscs2008_uni2indx_page94)
  | hkscs2008_uni2indx_page97 => constr:(si_hkscs2008_uni2indx_page97)
  | hkscs2008_uni2indx_page9f => constr:(si_hkscs2008_uni2indx_page9f)
  | hkscs2008_uni2indx_page20a => constr:(si_hkscs2008_uni2indx_page20a)
  | hkscs2008_uni2indx_page21d => constr:(si_hkscs2008_uni2indx_page21d)
  | hkscs2008_uni2indx_page224 => constr:(si_hkscs2008_uni2indx_page224)
  | hkscs2008_uni2indx_page231 => constr:(si_hkscs2008_uni2indx_page231)
  | hkscs2008_uni2indx_page235 => constr:(si_hkscs2008_uni2indx_page235)
  | hkscs2008_uni2indx_page241 => constr:(si_hkscs2008_uni2indx_page241)
  | hkscs2008_uni2indx_page258 => constr:(si_hkscs2008_uni2indx_page258)
  | hkscs2008_uni2indx_page25d => constr:(si_hkscs2008_uni2indx_page25d)
  | hkscs2008_uni2indx_page260 => constr:(si_hkscs2008_uni2indx_page260)
  | hkscs2008_uni2indx_page26e => constr:(si_hkscs2008_uni2indx_page26e)
  | hkscs2008_uni2indx_page27b => constr:(si_hkscs2008_uni2indx_page27b)
  | hkscs2008_uni2indx_page289 => constr:(si_hkscs2008_uni2indx_page289)
  | hkscs2008_uni2indx_page2ad => constr:(si_hkscs2008_uni2indx_page2ad)
  | cp950ext_uni2indx_page25 => constr:(si_cp950ext_uni2indx_page25)
  | cp950ext_uni2indx_page58 => constr:(si_cp950ext_uni2indx_page58)
  | cp950ext_uni2indx_page5a => constr:(si_cp950ext_uni2indx_page5a)
  | cp950ext_uni2indx_page60 => constr:(si_cp950ext_uni2indx_page60)
  | cp950ext_uni2indx_page78 => constr:(si_cp950ext_uni2indx_page78)
  | cp950ext_uni2indx_page7c => constr:(si_cp950ext_uni2indx_page7c)
  | cp950ext_uni2indx_page88 => constr:(si_cp950ext_uni2indx_page88)
  | cp950ext_uni2indx_page92 => constr:(si_cp950ext_uni2indx_page92)
  | cns11643_inv_uni2indx_page00 => constr:(si_cns11643_inv_uni2indx_page00)
  | cns11643_inv_uni2indx_page02 => constr:(si_cns11643_inv_uni2indx_page02)
  | cns11643_inv_uni2indx_page20 => constr:(si_cns11643_inv_uni2indx_page20)
  | cns11643_inv_uni2indx_page24 => constr:(si_cns11643_inv_uni2indx_page24)
  | cns11643_inv_uni2indx_page30 => constr:(si_cns11643_inv_uni2indx_page30)
  | cns11643_inv_uni2indx_pagefa => constr:(si_cns11643_inv_uni2indx_pagefa)
  | cns11643_inv_uni2indx_pagefe => constr:(si_cns11643_inv_uni2indx_pagefe)
  | cns11643_inv_uni2indx_page200 => constr:(si_cns11643_inv_uni2indx_page200)
  | cns11643_inv_uni2indx_page2f8 => constr:(si_cns11643_inv_uni2indx_page2f8)
  | gb2312_uni2indx_page00 => constr:(si_gb2312_uni2indx_page00)
  | gb2312_uni2indx_page20 => constr:(si_gb2312_uni2indx_page20)
  | gb2312_uni2indx_page30 => constr:(si_gb2312_uni2indx_page30)
  | gb2312_uni2indx_page4e => constr:(si_gb2312_uni2indx_page4e)
  | gb2312_uni2indx_page9e => constr:(si_gb2312_uni2indx_page9e)
  | gb2312_uni2indx_pageff => constr:(si_gb2312_uni2indx_pageff)
  | isoir165ext_uni2indx_page00 => constr:(si_isoir165ext_uni2indx_page00)
  | isoir165ext_uni2indx_page03 => constr:(si_isoir165ext_uni2indx_page03)
  | isoir165ext_uni2indx_page1e => constr:(si_isoir165ext_uni2indx_page1e)
  | isoir165ext_uni2indx_page30 => constr:(si_isoir165ext_uni2indx_page30)
  | isoir165ext_uni2indx_page32 => constr:(si_isoir165ext_uni2indx_page32)
  | isoir165ext_uni2indx_page4e => constr:(si_isoir165ext_uni2indx_page4e)
  | isoir165ext_uni2indx_page7e => constr:(si_isoir165ext_uni2indx_page7e)
  | isoir165ext_uni2indx_page94 => constr:(si_isoir165ext_uni2indx_page94)
  | isoir165ext_uni2indx_page9e => constr:(si_isoir165ext_uni2indx_page9e)
  | isoir165ext_uni2indx_pageff => constr:(si_isoir165ext_uni2indx_pageff)
  | gbkext_inv_uni2indx_page02 => constr:(si_gbkext_inv_uni2indx_page02)
  | gbkext_inv_uni2indx_page20 => constr:(si_gbkext_inv_uni2indx_page20)
  | gbkext_inv_uni2indx_page25 => constr:(si_gbkext_inv_uni2indx_page25)
  | gbkext_inv_uni2indx_page30 => constr:(si_gbkext_inv_uni2indx_page30)
  | gbkext_inv_uni2indx_page32 => constr:(si_gbkext_inv_uni2indx_page32)
  | gbkext_inv_uni2indx_page4e => constr:(si_gbkext_inv_uni2indx_page4e)
  | gbkext_inv_uni2indx_pagef9 => constr:(si_gbkext_inv_uni2indx_pagef9)
  | gbkext_inv_uni2indx_pagefe => constr:(si_gbkext_inv_uni2indx_pagefe)
  | jisx0208_uni2indx_page00 => constr:(si_jisx0208_uni2indx_page00)
  | jisx0208_uni2indx_page03 => constr:(si_jisx0208_uni2indx_page03)
  | jisx0208_uni2indx_page20 => constr:(si_jisx0208_uni2indx_page20)
  | jisx0208_uni2indx_page25 => constr:(si_jisx0208_uni2indx_page25)
  | jisx0208_uni2indx_page30 => constr:(si_jisx0208_uni2indx_page30)
  | jisx0208_uni2indx_page4e => constr:(si_jisx0208_uni2indx_page4e)
  | jisx0208_uni2indx_pageff => constr:(si_jisx0208_uni2indx_pageff)
  | jisx0212_uni2indx_page00 => constr:(si_jisx0212_uni2indx_page00)
  | jisx0212_uni2indx_page21 => constr:(si_jisx0212_uni2indx_page21)
  | jisx0212_uni2indx_page4e => constr:(si_jisx0212_uni2indx_page4e)
  | jisx0212_uni2indx_pageff => constr:(si_jisx0212_uni2indx_pageff)
  | cp932ext_uni2indx_page21 => constr:(si_cp932ext_uni2indx_page21)
  | cp932ext_uni2indx_page24 => constr:(si_cp932ext_uni2indx_page24)
  | cp932ext_uni2indx_page30 => constr:(si_cp932ext_uni2indx_page30)
  | cp932ext_uni2indx_page32 => constr:(si_cp932ext_uni2indx_page32)
  | cp932ext_uni2indx_page4e => constr:(si_cp932ext_uni2indx_page4e)
  | cp932ext_uni2indx_page57 => constr:(si_cp932ext_uni2indx_page57)
  | cp932ext_uni2indx_page5b => constr:(si_cp932ext_uni2indx_page5b)
  | cp932ext_uni2indx_page5f => constr:(si_cp932ext_uni2indx_page5f)
  | cp932ext_uni2indx_page7d => constr:(si_cp932ext_uni2indx_page7d)
  | cp932ext_uni2indx_page83 => constr:(si_cp932ext_uni2indx_page83)
  | cp932ext_uni2indx_page88 => constr:(si_cp932ext_uni2indx_page88)
  | cp932ext_uni2indx_page90 => constr:(si_cp932ext_uni2indx_page90)
  | cp932ext_uni2indx_pagef9 => constr:(si_cp932ext_uni2indx_pagef9)
  | cp932ext_uni2indx_pageff => constr:(si_cp932ext_uni2indx_pageff)
  | jisx0213_from_ucs_level2_2indx => constr:(si_jisx0213_from_ucs_level2_2indx)
  | ksc5601_uni2indx_page00 => constr:(si_ksc5601_uni2indx_page00)
  | ksc5601_uni2indx_page20 => constr:(si_ksc5601_uni2indx_page20)
  | ksc5601_uni2indx_page30 => constr:(si_ksc5601_uni2indx_page30)
  | ksc5601_uni2indx_page4e => constr:(si_ksc5601_uni2indx_page4e)
  | ksc5601_uni2indx_pageac => constr:(si_ksc5601_uni2indx_pageac)
  | ksc5601_uni2indx_pagef9 => constr:(si_ksc5601_uni2indx_pagef9)
  | ksc5601_uni2indx_pageff => constr:(si_ksc5601_uni2indx_pageff)
  | uhc_1_uni2indx_pageac => constr:(si_uhc_1_uni2indx_pageac)
  | uhc_2_uni2indx_pagec8 => constr:(si_uhc_2_uni2indx_pagec8)
  end.

Ltac cs_of t := lazymatch t with
  | big5_2charset => constr:(cs_big5_2charset)
  | hkscs1999_2charset => constr:(cs_hkscs1999_2charset)
  | hkscs2001_2charset => constr:(cs_hkscs2001_2charset)
  | hkscs2004_2charset => constr:(cs_hkscs2004_2charset)
  | hkscs2008_2charset => constr:(cs_hkscs2008_2charset)
  | cp950ext_2charset => constr:(cs_cp950ext_2charset)
  | gb2312_2charset => constr:(cs_gb2312_2charset)
  | isoir165ext_2charset => constr:(cs_isoir165ext_2charset)
  | gbkext_inv_2charset => constr:(cs_gbkext_inv_2charset)
  | jisx0208_2charset => constr:(cs_jisx0208_2charset)
  | jisx0212_2charset => constr:(cs_jisx0212_2charset)
  | cp932ext_2charset => constr:(cs_cp932ext_2charset)
  | ksc5601_2charset => constr:(cs_ksc5601_2charset)
  end.
