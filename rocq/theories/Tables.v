(** All charmaps; generated by tools/gencharmap.py. *)
From Coq Require Import ZArith List.
From Verif Require Import Base Loop Indexes Encodings Charmap CharLib Maps_sb1 Chk_sb1 Maps_sb2 Chk_sb2 Maps_sb3 Chk_sb3 Maps_sb4 Chk_sb4.
Import ListNotations.
Open Scope Z_scope.
From Verif Require Import Maps_euc_jp Chk_euc_jp Maps_sjis Chk_sjis Maps_cp932 Chk_cp932 Maps_euc_cn Chk_euc_cn Maps_ces_gbk Chk_ces_gbk Maps_cp936 Chk_cp936 Maps_ces_big5 Chk_ces_big5 Maps_cp950 Chk_cp950 Maps_euc_kr Chk_euc_kr Maps_cp949 Chk_cp949 Maps_johab Chk_johab Maps_dec_kanji Chk_dec_kanji Maps_dec_hanyu Chk_dec_hanyu Maps_isoir165 Chk_isoir165 Maps_big5_2003 Chk_big5_2003.
Definition sb_tables : list (Z * charmap * pairs) := maps_sb1 ++ maps_sb2 ++ maps_sb3 ++ maps_sb4.
Definition mb_tables : list (Z * charmap * pairs) :=
 [(ei_euc_jp, map_euc_jp, irr_euc_jp);
  (ei_sjis, map_sjis, irr_sjis);
  (ei_cp932, map_cp932, irr_cp932);
  (ei_euc_cn, map_euc_cn, irr_euc_cn);
  (ei_ces_gbk, map_ces_gbk, irr_ces_gbk);
  (ei_cp936, map_cp936, irr_cp936);
  (ei_ces_big5, map_ces_big5, irr_ces_big5);
  (ei_cp950, map_cp950, irr_cp950);
  (ei_euc_kr, map_euc_kr, irr_euc_kr);
  (ei_cp949, map_cp949, irr_cp949);
  (ei_johab, map_johab, irr_johab);
  (ei_dec_kanji, map_dec_kanji, irr_dec_kanji);
  (ei_dec_hanyu, map_dec_hanyu, irr_dec_hanyu);
  (ei_isoir165, map_isoir165, irr_isoir165);
  (ei_big5_2003, map_big5_2003, irr_big5_2003)].
Lemma sb_tables_ok : Forall table_ok sb_tables.
Proof. unfold sb_tables. repeat (apply Forall_app; split); [exact maps_sb1_ok|exact maps_sb2_ok|exact maps_sb3_ok|exact maps_sb4_ok]. Qed.
Lemma mb_tables_ok : Forall table_ok mb_tables.
Proof.
  repeat apply Forall_cons; [exact (ex_intro _ enc_euc_jp (conj eq_refl (conj dec_map_euc_jp enc_map_euc_jp))) |
   exact (ex_intro _ enc_sjis (conj eq_refl (conj dec_map_sjis enc_map_sjis))) |
   exact (ex_intro _ enc_cp932 (conj eq_refl (conj dec_map_cp932 enc_map_cp932))) |
   exact (ex_intro _ enc_euc_cn (conj eq_refl (conj dec_map_euc_cn enc_map_euc_cn))) |
   exact (ex_intro _ enc_ces_gbk (conj eq_refl (conj dec_map_ces_gbk enc_map_ces_gbk))) |
   exact (ex_intro _ enc_cp936 (conj eq_refl (conj dec_map_cp936 enc_map_cp936))) |
   exact (ex_intro _ enc_ces_big5 (conj eq_refl (conj dec_map_ces_big5 enc_map_ces_big5))) |
   exact (ex_intro _ enc_cp950 (conj eq_refl (conj dec_map_cp950 enc_map_cp950))) |
   exact (ex_intro _ enc_euc_kr (conj eq_refl (conj dec_map_euc_kr enc_map_euc_kr))) |
   exact (ex_intro _ enc_cp949 (conj eq_refl (conj dec_map_cp949 enc_map_cp949))) |
   exact (ex_intro _ enc_johab (conj eq_refl (conj dec_map_johab enc_map_johab))) |
   exact (ex_intro _ enc_dec_kanji (conj eq_refl (conj dec_map_dec_kanji enc_map_dec_kanji))) |
   exact (ex_intro _ enc_dec_hanyu (conj eq_refl (conj dec_map_dec_hanyu enc_map_dec_hanyu))) |
   exact (ex_intro _ enc_isoir165 (conj eq_refl (conj dec_map_isoir165 enc_map_isoir165))) |
   exact (ex_intro _ enc_big5_2003 (conj eq_refl (conj dec_map_big5_2003 enc_map_big5_2003)))|apply Forall_nil].
Qed.
Definition tables := sb_tables ++ mb_tables.
Lemma tables_ok : Forall table_ok tables.
Proof. apply Forall_app. split; [exact sb_tables_ok|exact mb_tables_ok]. Qed.
