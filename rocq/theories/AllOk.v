(** The converter contracts of all encodings, by encoding index.
    Generated by tools/genall.py from the Ok_*.v files. *)
From Coq Require Import ZArith List Bool Lia.
From Verif Require Import Base Indexes Loop Contract Reflect Encodings.
From Verif Require Import Ok_b5enc Ok_bom Ok_cjk1 Ok_cjk2 Ok_cjk3 Ok_cjk4 Ok_cjk5 Ok_cnext Ok_eb1 Ok_eb2 Ok_esc Ok_gb18030 Ok_gb18030e Ok_held Ok_hkscs Ok_isodec1 Ok_isodec2 Ok_isodec3 Ok_isodec4 Ok_isodec5 Ok_isodec6 Ok_isodec7 Ok_isoenc Ok_isoenc2 Ok_isoenc3 Ok_isoenc4 Ok_jisx Ok_jp3e Ok_sb1 Ok_sb2 Ok_sb3 Ok_sb4 Ok_sbst Ok_uni Ok_utf7d Ok_utf7e.
Import ListNotations.
Open Scope Z_scope.

(** The encodings whose decoder remembers a byte order: UCS-2, UCS-4, UTF-16, UTF-32. *)
Definition bom_sources : list Z := [ei_ucs2; ei_ucs4; ei_utf16; ei_utf32].
Definition not_sources : list Z := [].
Definition not_targets : list Z := [ei_gb18030_2005].

Definition src_ok (i : nat) (f : funcs) : Prop :=
  exists inv pend, dec_ok f (Z.to_nat (ei_unit (Z.of_nat i))) inv pend ucs4 /\ dec_stable f inv /\
    (~ In (Z.of_nat i) bom_sources -> forall x, inv x -> snd x = 0).
Definition tgt_ok (f : funcs) : Prop := exists oinv, enc_ok f oinv ucs4.

Lemma src_intro : forall i f u inv pend, dec_ok f u inv pend ucs4 /\ dec_stable f inv ->
  Z.to_nat (ei_unit (Z.of_nat i)) = u -> (~ In (Z.of_nat i) bom_sources -> forall x, inv x -> snd x = 0) -> src_ok i f.
Proof. intros i f u inv pend [A B] E H. exists inv, pend. rewrite E. auto. Qed.
Lemma tgt_intro : forall f oinv, enc_ok f oinv ucs4 -> tgt_ok f.
Proof. intros f oinv H. exists oinv. exact H. Qed.
Ltac src L := eapply src_intro; [exact L|vm_compute; reflexivity|intros _ x H; exact (proj2 H)].
Ltac bsrc L := eapply src_intro; [exact L|vm_compute; reflexivity|intros N; exfalso; apply N; vm_compute; tauto].

Definition all_P (P : nat -> funcs -> Prop) (k : nat) (l : list funcs) : Prop :=
  forall j f, nth_error l j = Some f -> P (k + j)%nat f.
Lemma all_nil : forall P k, all_P P k [].
Proof. intros P k [|j] f H; discriminate. Qed.
Lemma all_cons : forall (P : nat -> funcs -> Prop) k f l, P k f -> all_P P (S k) l -> all_P P k (f :: l).
Proof.
  intros P k f l H H2 [|j] g E; cbn in E.
  - inversion E; subst. now rewrite Nat.add_0_r.
  - rewrite <- Nat.add_succ_comm. now apply H2.
Qed.

Lemma sources_ok : all_P (fun i f => ~ In (Z.of_nat i) not_sources -> src_ok i f) 0 all_encodings.
Proof.
  unfold all_encodings.
  apply all_cons; [intros _; src dec_ascii|].
  apply all_cons; [intros _; src dec_utf8_ok|].
  apply all_cons; [intros _; bsrc dec_ucs2_ok|].
  apply all_cons; [intros _; src dec_ucs2be_ok|].
  apply all_cons; [intros _; src dec_ucs2le_ok|].
  apply all_cons; [intros _; bsrc dec_ucs4_ok|].
  apply all_cons; [intros _; src dec_ucs4be_ok|].
  apply all_cons; [intros _; src dec_ucs4le_ok|].
  apply all_cons; [intros _; bsrc dec_utf16_ok|].
  apply all_cons; [intros _; src dec_utf16be_ok|].
  apply all_cons; [intros _; src dec_utf16le_ok|].
  apply all_cons; [intros _; bsrc dec_utf32_ok|].
  apply all_cons; [intros _; src dec_utf32be_ok|].
  apply all_cons; [intros _; src dec_utf32le_ok|].
  apply all_cons; [intros _; src utf7_dec_ok|].
  apply all_cons; [intros _; src dec_ucs2internal_ok|].
  apply all_cons; [intros _; src dec_ucs2swapped_ok|].
  apply all_cons; [intros _; src dec_ucs4internal_ok|].
  apply all_cons; [intros _; src dec_ucs4swapped_ok|].
  apply all_cons; [intros _; src dec_c99_ok|].
  apply all_cons; [intros _; src dec_java_ok|].
  apply all_cons; [intros _; src dec_euc_jp|].
  apply all_cons; [intros _; src dec_sjis|].
  apply all_cons; [intros _; src dec_cp932|].
  apply all_cons; [intros _; src dec_iso2022_jp_ok|].
  apply all_cons; [intros _; src dec_iso2022_jp1_ok|].
  apply all_cons; [intros _; src dec_iso2022_jp2_ok|].
  apply all_cons; [intros _; src dec_iso2022_jpms_ok|].
  apply all_cons; [intros _; src dec_euc_cn|].
  apply all_cons; [intros _; src dec_ces_gbk|].
  apply all_cons; [intros _; src dec_cp936|].
  apply all_cons; [intros _; src dec_gb18030_2005|].
  apply all_cons; [intros _; src dec_gb18030_2022|].
  apply all_cons; [intros _; src dec_iso2022_cn_ok|].
  apply all_cons; [intros _; src dec_iso2022_cn_ext_ok|].
  apply all_cons; [intros _; src dec_hz_ok|].
  apply all_cons; [intros _; src dec_euc_tw|].
  apply all_cons; [intros _; src dec_ces_big5|].
  apply all_cons; [intros _; src dec_cp950|].
  apply all_cons; [intros _; src dec_big5hkscs1999|].
  apply all_cons; [intros _; src dec_big5hkscs2001|].
  apply all_cons; [intros _; src dec_big5hkscs2004|].
  apply all_cons; [intros _; src dec_big5hkscs2008|].
  apply all_cons; [intros _; src dec_euc_kr|].
  apply all_cons; [intros _; src dec_cp949|].
  apply all_cons; [intros _; src dec_johab|].
  apply all_cons; [intros _; src dec_iso2022_kr_ok|].
  apply all_cons; [intros _; src dec_dec_kanji|].
  apply all_cons; [intros _; src dec_dec_hanyu|].
  apply all_cons; [intros _; src dec_iso8859_1|].
  apply all_cons; [intros _; src dec_iso8859_2|].
  apply all_cons; [intros _; src dec_iso8859_3|].
  apply all_cons; [intros _; src dec_iso8859_4|].
  apply all_cons; [intros _; src dec_iso8859_5|].
  apply all_cons; [intros _; src dec_iso8859_6|].
  apply all_cons; [intros _; src dec_iso8859_7|].
  apply all_cons; [intros _; src dec_iso8859_8|].
  apply all_cons; [intros _; src dec_iso8859_9|].
  apply all_cons; [intros _; src dec_iso8859_10|].
  apply all_cons; [intros _; src dec_iso8859_11|].
  apply all_cons; [intros _; src dec_iso8859_13|].
  apply all_cons; [intros _; src dec_iso8859_14|].
  apply all_cons; [intros _; src dec_iso8859_15|].
  apply all_cons; [intros _; src dec_iso8859_16|].
  apply all_cons; [intros _; src dec_koi8_r|].
  apply all_cons; [intros _; src dec_koi8_u|].
  apply all_cons; [intros _; src dec_koi8_ru|].
  apply all_cons; [intros _; src dec_cp1250|].
  apply all_cons; [intros _; src dec_cp1251|].
  apply all_cons; [intros _; src dec_cp1252|].
  apply all_cons; [intros _; src dec_cp1253|].
  apply all_cons; [intros _; src dec_cp1254|].
  apply all_cons; [intros _; src dec_cp1255|].
  apply all_cons; [intros _; src dec_cp1256|].
  apply all_cons; [intros _; src dec_cp1257|].
  apply all_cons; [intros _; src dec_cp1258|].
  apply all_cons; [intros _; src dec_cp850|].
  apply all_cons; [intros _; src dec_cp862|].
  apply all_cons; [intros _; src dec_cp866|].
  apply all_cons; [intros _; src dec_cp1131|].
  apply all_cons; [intros _; src dec_mac_roman|].
  apply all_cons; [intros _; src dec_mac_centraleurope|].
  apply all_cons; [intros _; src dec_mac_iceland|].
  apply all_cons; [intros _; src dec_mac_croatian|].
  apply all_cons; [intros _; src dec_mac_romania|].
  apply all_cons; [intros _; src dec_mac_cyrillic|].
  apply all_cons; [intros _; src dec_mac_ukraine|].
  apply all_cons; [intros _; src dec_mac_greek|].
  apply all_cons; [intros _; src dec_mac_turkish|].
  apply all_cons; [intros _; src dec_mac_hebrew|].
  apply all_cons; [intros _; src dec_mac_arabic|].
  apply all_cons; [intros _; src dec_mac_thai|].
  apply all_cons; [intros _; src dec_hp_roman8|].
  apply all_cons; [intros _; src dec_nextstep|].
  apply all_cons; [intros _; src dec_armscii_8|].
  apply all_cons; [intros _; src dec_georgian_academy|].
  apply all_cons; [intros _; src dec_georgian_ps|].
  apply all_cons; [intros _; src dec_koi8_t|].
  apply all_cons; [intros _; src dec_pt154|].
  apply all_cons; [intros _; src dec_rk1048|].
  apply all_cons; [intros _; src dec_mulelao|].
  apply all_cons; [intros _; src dec_cp1133|].
  apply all_cons; [intros _; src dec_tis620|].
  apply all_cons; [intros _; src dec_cp874|].
  apply all_cons; [intros _; src dec_viscii|].
  apply all_cons; [intros _; src dec_tcvn|].
  apply all_cons; [intros _; src dec_iso646_jp|].
  apply all_cons; [intros _; src dec_jisx0201|].
  apply all_cons; [intros _; src dec_jisx0208|].
  apply all_cons; [intros _; src dec_jisx0212|].
  apply all_cons; [intros _; src dec_iso646_cn|].
  apply all_cons; [intros _; src dec_gb2312|].
  apply all_cons; [intros _; src dec_isoir165|].
  apply all_cons; [intros _; src dec_ksc5601|].
  apply all_cons; [intros _; src dec_cp856|].
  apply all_cons; [intros _; src dec_cp922|].
  apply all_cons; [intros _; src dec_cp943|].
  apply all_cons; [intros _; src dec_cp1046|].
  apply all_cons; [intros _; src dec_cp1124|].
  apply all_cons; [intros _; src dec_cp1129|].
  apply all_cons; [intros _; src dec_cp1161|].
  apply all_cons; [intros _; src dec_cp1162|].
  apply all_cons; [intros _; src dec_cp1163|].
  apply all_cons; [intros _; src dec_cp437|].
  apply all_cons; [intros _; src dec_cp737|].
  apply all_cons; [intros _; src dec_cp775|].
  apply all_cons; [intros _; src dec_cp852|].
  apply all_cons; [intros _; src dec_cp853|].
  apply all_cons; [intros _; src dec_cp855|].
  apply all_cons; [intros _; src dec_cp857|].
  apply all_cons; [intros _; src dec_cp858|].
  apply all_cons; [intros _; src dec_cp860|].
  apply all_cons; [intros _; src dec_cp861|].
  apply all_cons; [intros _; src dec_cp863|].
  apply all_cons; [intros _; src dec_cp864|].
  apply all_cons; [intros _; src dec_cp865|].
  apply all_cons; [intros _; src dec_cp869|].
  apply all_cons; [intros _; src dec_cp1125|].
  apply all_cons; [intros _; src dec_ebcdic037|].
  apply all_cons; [intros _; src dec_ebcdic273|].
  apply all_cons; [intros _; src dec_ebcdic277|].
  apply all_cons; [intros _; src dec_ebcdic278|].
  apply all_cons; [intros _; src dec_ebcdic280|].
  apply all_cons; [intros _; src dec_ebcdic282|].
  apply all_cons; [intros _; src dec_ebcdic284|].
  apply all_cons; [intros _; src dec_ebcdic285|].
  apply all_cons; [intros _; src dec_ebcdic297|].
  apply all_cons; [intros _; src dec_ebcdic423|].
  apply all_cons; [intros _; src dec_ebcdic424|].
  apply all_cons; [intros _; src dec_ebcdic425|].
  apply all_cons; [intros _; src dec_ebcdic500|].
  apply all_cons; [intros _; src dec_ebcdic838|].
  apply all_cons; [intros _; src dec_ebcdic870|].
  apply all_cons; [intros _; src dec_ebcdic871|].
  apply all_cons; [intros _; src dec_ebcdic875|].
  apply all_cons; [intros _; src dec_ebcdic880|].
  apply all_cons; [intros _; src dec_ebcdic905|].
  apply all_cons; [intros _; src dec_ebcdic924|].
  apply all_cons; [intros _; src dec_ebcdic1025|].
  apply all_cons; [intros _; src dec_ebcdic1026|].
  apply all_cons; [intros _; src dec_ebcdic1047|].
  apply all_cons; [intros _; src dec_ebcdic1097|].
  apply all_cons; [intros _; src dec_ebcdic1112|].
  apply all_cons; [intros _; src dec_ebcdic1122|].
  apply all_cons; [intros _; src dec_ebcdic1123|].
  apply all_cons; [intros _; src dec_ebcdic1130|].
  apply all_cons; [intros _; src dec_ebcdic1132|].
  apply all_cons; [intros _; src dec_ebcdic1137|].
  apply all_cons; [intros _; src dec_ebcdic1140|].
  apply all_cons; [intros _; src dec_ebcdic1141|].
  apply all_cons; [intros _; src dec_ebcdic1142|].
  apply all_cons; [intros _; src dec_ebcdic1143|].
  apply all_cons; [intros _; src dec_ebcdic1144|].
  apply all_cons; [intros _; src dec_ebcdic1145|].
  apply all_cons; [intros _; src dec_ebcdic1146|].
  apply all_cons; [intros _; src dec_ebcdic1147|].
  apply all_cons; [intros _; src dec_ebcdic1148|].
  apply all_cons; [intros _; src dec_ebcdic1149|].
  apply all_cons; [intros _; src dec_ebcdic1153|].
  apply all_cons; [intros _; src dec_ebcdic1154|].
  apply all_cons; [intros _; src dec_ebcdic1155|].
  apply all_cons; [intros _; src dec_ebcdic1156|].
  apply all_cons; [intros _; src dec_ebcdic1157|].
  apply all_cons; [intros _; src dec_ebcdic1158|].
  apply all_cons; [intros _; src dec_ebcdic1160|].
  apply all_cons; [intros _; src dec_ebcdic1164|].
  apply all_cons; [intros _; src dec_ebcdic1165|].
  apply all_cons; [intros _; src dec_ebcdic1166|].
  apply all_cons; [intros _; src dec_ebcdic4971|].
  apply all_cons; [intros _; src dec_ebcdic12712|].
  apply all_cons; [intros _; src dec_ebcdic16804|].
  apply all_cons; [intros _; src dec_euc_jisx0213|].
  apply all_cons; [intros _; src dec_shift_jisx0213|].
  apply all_cons; [intros _; src dec_iso2022_jp3_ok|].
  apply all_cons; [intros _; src dec_big5_2003|].
  apply all_cons; [intros _; src dec_tds565|].
  apply all_cons; [intros _; src dec_atarist|].
  apply all_cons; [intros _; src dec_riscos1|].
  apply all_nil.
Qed.

Lemma targets_ok : all_P (fun i f => ~ In (Z.of_nat i) not_targets -> tgt_ok f) 0 all_encodings.
Proof.
  unfold all_encodings.
  apply all_cons; [intros _; exact (tgt_intro _ _ enc_ascii_ok)|].
  apply all_cons; [intros _; exact (tgt_intro _ _ enc_utf8_ok)|].
  apply all_cons; [intros _; exact (tgt_intro _ _ enc_ucs2_ok)|].
  apply all_cons; [intros _; exact (tgt_intro _ _ enc_ucs2be_ok)|].
  apply all_cons; [intros _; exact (tgt_intro _ _ enc_ucs2le_ok)|].
  apply all_cons; [intros _; exact (tgt_intro _ _ enc_ucs4_ok)|].
  apply all_cons; [intros _; exact (tgt_intro _ _ enc_ucs4be_ok)|].
  apply all_cons; [intros _; exact (tgt_intro _ _ enc_ucs4le_ok)|].
  apply all_cons; [intros _; exact (tgt_intro _ _ enc_utf16_ok)|].
  apply all_cons; [intros _; exact (tgt_intro _ _ enc_utf16be_ok)|].
  apply all_cons; [intros _; exact (tgt_intro _ _ enc_utf16le_ok)|].
  apply all_cons; [intros _; exact (tgt_intro _ _ enc_utf32_ok)|].
  apply all_cons; [intros _; exact (tgt_intro _ _ enc_utf32be_ok)|].
  apply all_cons; [intros _; exact (tgt_intro _ _ enc_utf32le_ok)|].
  apply all_cons; [intros _; exact (tgt_intro _ _ utf7_enc_ok)|].
  apply all_cons; [intros _; exact (tgt_intro _ _ enc_ucs2internal_ok)|].
  apply all_cons; [intros _; exact (tgt_intro _ _ enc_ucs2swapped_ok)|].
  apply all_cons; [intros _; exact (tgt_intro _ _ enc_ucs4internal_ok)|].
  apply all_cons; [intros _; exact (tgt_intro _ _ enc_ucs4swapped_ok)|].
  apply all_cons; [intros _; exact (tgt_intro _ _ enc_c99_ok)|].
  apply all_cons; [intros _; exact (tgt_intro _ _ enc_java_ok)|].
  apply all_cons; [intros _; exact (tgt_intro _ _ enc_euc_jp_ok)|].
  apply all_cons; [intros _; exact (tgt_intro _ _ enc_sjis_ok)|].
  apply all_cons; [intros _; exact (tgt_intro _ _ enc_cp932_ok)|].
  apply all_cons; [intros _; exact (tgt_intro _ _ enc_iso2022_jp_ok)|].
  apply all_cons; [intros _; exact (tgt_intro _ _ enc_iso2022_jp1_ok)|].
  apply all_cons; [intros _; exact (tgt_intro _ _ enc_iso2022_jp2_ok)|].
  apply all_cons; [intros _; exact (tgt_intro _ _ enc_iso2022_jpms_ok)|].
  apply all_cons; [intros _; exact (tgt_intro _ _ enc_euc_cn_ok)|].
  apply all_cons; [intros _; exact (tgt_intro _ _ enc_ces_gbk_ok)|].
  apply all_cons; [intros _; exact (tgt_intro _ _ enc_cp936_ok)|].
  apply all_cons; [intros N; exfalso; apply N; vm_compute; tauto|].
  apply all_cons; [intros _; exact (tgt_intro _ _ enc_gb18030_2022_ok)|].
  apply all_cons; [intros _; exact (tgt_intro _ _ enc_iso2022_cn_ok)|].
  apply all_cons; [intros _; exact (tgt_intro _ _ enc_iso2022_cn_ext_ok)|].
  apply all_cons; [intros _; exact (tgt_intro _ _ enc_hz_ok)|].
  apply all_cons; [intros _; exact (tgt_intro _ _ enc_euc_tw_ok)|].
  apply all_cons; [intros _; exact (tgt_intro _ _ enc_ces_big5_ok)|].
  apply all_cons; [intros _; exact (tgt_intro _ _ enc_cp950_ok)|].
  apply all_cons; [intros _; exact (tgt_intro _ _ enc_big5hkscs1999_ok)|].
  apply all_cons; [intros _; exact (tgt_intro _ _ enc_big5hkscs2001_ok)|].
  apply all_cons; [intros _; exact (tgt_intro _ _ enc_big5hkscs2004_ok)|].
  apply all_cons; [intros _; exact (tgt_intro _ _ enc_big5hkscs2008_ok)|].
  apply all_cons; [intros _; exact (tgt_intro _ _ enc_euc_kr_ok)|].
  apply all_cons; [intros _; exact (tgt_intro _ _ enc_cp949_ok)|].
  apply all_cons; [intros _; exact (tgt_intro _ _ enc_johab_ok)|].
  apply all_cons; [intros _; exact (tgt_intro _ _ enc_iso2022_kr_ok)|].
  apply all_cons; [intros _; exact (tgt_intro _ _ enc_dec_kanji_ok)|].
  apply all_cons; [intros _; exact (tgt_intro _ _ enc_dec_hanyu_ok)|].
  apply all_cons; [intros _; exact (tgt_intro _ _ enc_iso8859_1_ok)|].
  apply all_cons; [intros _; exact (tgt_intro _ _ enc_iso8859_2_ok)|].
  apply all_cons; [intros _; exact (tgt_intro _ _ enc_iso8859_3_ok)|].
  apply all_cons; [intros _; exact (tgt_intro _ _ enc_iso8859_4_ok)|].
  apply all_cons; [intros _; exact (tgt_intro _ _ enc_iso8859_5_ok)|].
  apply all_cons; [intros _; exact (tgt_intro _ _ enc_iso8859_6_ok)|].
  apply all_cons; [intros _; exact (tgt_intro _ _ enc_iso8859_7_ok)|].
  apply all_cons; [intros _; exact (tgt_intro _ _ enc_iso8859_8_ok)|].
  apply all_cons; [intros _; exact (tgt_intro _ _ enc_iso8859_9_ok)|].
  apply all_cons; [intros _; exact (tgt_intro _ _ enc_iso8859_10_ok)|].
  apply all_cons; [intros _; exact (tgt_intro _ _ enc_iso8859_11_ok)|].
  apply all_cons; [intros _; exact (tgt_intro _ _ enc_iso8859_13_ok)|].
  apply all_cons; [intros _; exact (tgt_intro _ _ enc_iso8859_14_ok)|].
  apply all_cons; [intros _; exact (tgt_intro _ _ enc_iso8859_15_ok)|].
  apply all_cons; [intros _; exact (tgt_intro _ _ enc_iso8859_16_ok)|].
  apply all_cons; [intros _; exact (tgt_intro _ _ enc_koi8_r_ok)|].
  apply all_cons; [intros _; exact (tgt_intro _ _ enc_koi8_u_ok)|].
  apply all_cons; [intros _; exact (tgt_intro _ _ enc_koi8_ru_ok)|].
  apply all_cons; [intros _; exact (tgt_intro _ _ enc_cp1250_ok)|].
  apply all_cons; [intros _; exact (tgt_intro _ _ enc_cp1251_ok)|].
  apply all_cons; [intros _; exact (tgt_intro _ _ enc_cp1252_ok)|].
  apply all_cons; [intros _; exact (tgt_intro _ _ enc_cp1253_ok)|].
  apply all_cons; [intros _; exact (tgt_intro _ _ enc_cp1254_ok)|].
  apply all_cons; [intros _; exact (tgt_intro _ _ enc_cp1255_ok)|].
  apply all_cons; [intros _; exact (tgt_intro _ _ enc_cp1256_ok)|].
  apply all_cons; [intros _; exact (tgt_intro _ _ enc_cp1257_ok)|].
  apply all_cons; [intros _; exact (tgt_intro _ _ enc_cp1258_ok)|].
  apply all_cons; [intros _; exact (tgt_intro _ _ enc_cp850_ok)|].
  apply all_cons; [intros _; exact (tgt_intro _ _ enc_cp862_ok)|].
  apply all_cons; [intros _; exact (tgt_intro _ _ enc_cp866_ok)|].
  apply all_cons; [intros _; exact (tgt_intro _ _ enc_cp1131_ok)|].
  apply all_cons; [intros _; exact (tgt_intro _ _ enc_mac_roman_ok)|].
  apply all_cons; [intros _; exact (tgt_intro _ _ enc_mac_centraleurope_ok)|].
  apply all_cons; [intros _; exact (tgt_intro _ _ enc_mac_iceland_ok)|].
  apply all_cons; [intros _; exact (tgt_intro _ _ enc_mac_croatian_ok)|].
  apply all_cons; [intros _; exact (tgt_intro _ _ enc_mac_romania_ok)|].
  apply all_cons; [intros _; exact (tgt_intro _ _ enc_mac_cyrillic_ok)|].
  apply all_cons; [intros _; exact (tgt_intro _ _ enc_mac_ukraine_ok)|].
  apply all_cons; [intros _; exact (tgt_intro _ _ enc_mac_greek_ok)|].
  apply all_cons; [intros _; exact (tgt_intro _ _ enc_mac_turkish_ok)|].
  apply all_cons; [intros _; exact (tgt_intro _ _ enc_mac_hebrew_ok)|].
  apply all_cons; [intros _; exact (tgt_intro _ _ enc_mac_arabic_ok)|].
  apply all_cons; [intros _; exact (tgt_intro _ _ enc_mac_thai_ok)|].
  apply all_cons; [intros _; exact (tgt_intro _ _ enc_hp_roman8_ok)|].
  apply all_cons; [intros _; exact (tgt_intro _ _ enc_nextstep_ok)|].
  apply all_cons; [intros _; exact (tgt_intro _ _ enc_armscii_8_ok)|].
  apply all_cons; [intros _; exact (tgt_intro _ _ enc_georgian_academy_ok)|].
  apply all_cons; [intros _; exact (tgt_intro _ _ enc_georgian_ps_ok)|].
  apply all_cons; [intros _; exact (tgt_intro _ _ enc_koi8_t_ok)|].
  apply all_cons; [intros _; exact (tgt_intro _ _ enc_pt154_ok)|].
  apply all_cons; [intros _; exact (tgt_intro _ _ enc_rk1048_ok)|].
  apply all_cons; [intros _; exact (tgt_intro _ _ enc_mulelao_ok)|].
  apply all_cons; [intros _; exact (tgt_intro _ _ enc_cp1133_ok)|].
  apply all_cons; [intros _; exact (tgt_intro _ _ enc_tis620_ok)|].
  apply all_cons; [intros _; exact (tgt_intro _ _ enc_cp874_ok)|].
  apply all_cons; [intros _; exact (tgt_intro _ _ enc_viscii_ok)|].
  apply all_cons; [intros _; exact (tgt_intro _ _ enc_tcvn_ok)|].
  apply all_cons; [intros _; exact (tgt_intro _ _ enc_iso646_jp_ok)|].
  apply all_cons; [intros _; exact (tgt_intro _ _ enc_jisx0201_ok)|].
  apply all_cons; [intros _; exact (tgt_intro _ _ enc_jisx0208_ok)|].
  apply all_cons; [intros _; exact (tgt_intro _ _ enc_jisx0212_ok)|].
  apply all_cons; [intros _; exact (tgt_intro _ _ enc_iso646_cn_ok)|].
  apply all_cons; [intros _; exact (tgt_intro _ _ enc_gb2312_ok)|].
  apply all_cons; [intros _; exact (tgt_intro _ _ enc_isoir165_ok)|].
  apply all_cons; [intros _; exact (tgt_intro _ _ enc_ksc5601_ok)|].
  apply all_cons; [intros _; exact (tgt_intro _ _ enc_cp856_ok)|].
  apply all_cons; [intros _; exact (tgt_intro _ _ enc_cp922_ok)|].
  apply all_cons; [intros _; exact (tgt_intro _ _ enc_cp943_ok)|].
  apply all_cons; [intros _; exact (tgt_intro _ _ enc_cp1046_ok)|].
  apply all_cons; [intros _; exact (tgt_intro _ _ enc_cp1124_ok)|].
  apply all_cons; [intros _; exact (tgt_intro _ _ enc_cp1129_ok)|].
  apply all_cons; [intros _; exact (tgt_intro _ _ enc_cp1161_ok)|].
  apply all_cons; [intros _; exact (tgt_intro _ _ enc_cp1162_ok)|].
  apply all_cons; [intros _; exact (tgt_intro _ _ enc_cp1163_ok)|].
  apply all_cons; [intros _; exact (tgt_intro _ _ enc_cp437_ok)|].
  apply all_cons; [intros _; exact (tgt_intro _ _ enc_cp737_ok)|].
  apply all_cons; [intros _; exact (tgt_intro _ _ enc_cp775_ok)|].
  apply all_cons; [intros _; exact (tgt_intro _ _ enc_cp852_ok)|].
  apply all_cons; [intros _; exact (tgt_intro _ _ enc_cp853_ok)|].
  apply all_cons; [intros _; exact (tgt_intro _ _ enc_cp855_ok)|].
  apply all_cons; [intros _; exact (tgt_intro _ _ enc_cp857_ok)|].
  apply all_cons; [intros _; exact (tgt_intro _ _ enc_cp858_ok)|].
  apply all_cons; [intros _; exact (tgt_intro _ _ enc_cp860_ok)|].
  apply all_cons; [intros _; exact (tgt_intro _ _ enc_cp861_ok)|].
  apply all_cons; [intros _; exact (tgt_intro _ _ enc_cp863_ok)|].
  apply all_cons; [intros _; exact (tgt_intro _ _ enc_cp864_ok)|].
  apply all_cons; [intros _; exact (tgt_intro _ _ enc_cp865_ok)|].
  apply all_cons; [intros _; exact (tgt_intro _ _ enc_cp869_ok)|].
  apply all_cons; [intros _; exact (tgt_intro _ _ enc_cp1125_ok)|].
  apply all_cons; [intros _; exact (tgt_intro _ _ enc_ebcdic037_ok)|].
  apply all_cons; [intros _; exact (tgt_intro _ _ enc_ebcdic273_ok)|].
  apply all_cons; [intros _; exact (tgt_intro _ _ enc_ebcdic277_ok)|].
  apply all_cons; [intros _; exact (tgt_intro _ _ enc_ebcdic278_ok)|].
  apply all_cons; [intros _; exact (tgt_intro _ _ enc_ebcdic280_ok)|].
  apply all_cons; [intros _; exact (tgt_intro _ _ enc_ebcdic282_ok)|].
  apply all_cons; [intros _; exact (tgt_intro _ _ enc_ebcdic284_ok)|].
  apply all_cons; [intros _; exact (tgt_intro _ _ enc_ebcdic285_ok)|].
  apply all_cons; [intros _; exact (tgt_intro _ _ enc_ebcdic297_ok)|].
  apply all_cons; [intros _; exact (tgt_intro _ _ enc_ebcdic423_ok)|].
  apply all_cons; [intros _; exact (tgt_intro _ _ enc_ebcdic424_ok)|].
  apply all_cons; [intros _; exact (tgt_intro _ _ enc_ebcdic425_ok)|].
  apply all_cons; [intros _; exact (tgt_intro _ _ enc_ebcdic500_ok)|].
  apply all_cons; [intros _; exact (tgt_intro _ _ enc_ebcdic838_ok)|].
  apply all_cons; [intros _; exact (tgt_intro _ _ enc_ebcdic870_ok)|].
  apply all_cons; [intros _; exact (tgt_intro _ _ enc_ebcdic871_ok)|].
  apply all_cons; [intros _; exact (tgt_intro _ _ enc_ebcdic875_ok)|].
  apply all_cons; [intros _; exact (tgt_intro _ _ enc_ebcdic880_ok)|].
  apply all_cons; [intros _; exact (tgt_intro _ _ enc_ebcdic905_ok)|].
  apply all_cons; [intros _; exact (tgt_intro _ _ enc_ebcdic924_ok)|].
  apply all_cons; [intros _; exact (tgt_intro _ _ enc_ebcdic1025_ok)|].
  apply all_cons; [intros _; exact (tgt_intro _ _ enc_ebcdic1026_ok)|].
  apply all_cons; [intros _; exact (tgt_intro _ _ enc_ebcdic1047_ok)|].
  apply all_cons; [intros _; exact (tgt_intro _ _ enc_ebcdic1097_ok)|].
  apply all_cons; [intros _; exact (tgt_intro _ _ enc_ebcdic1112_ok)|].
  apply all_cons; [intros _; exact (tgt_intro _ _ enc_ebcdic1122_ok)|].
  apply all_cons; [intros _; exact (tgt_intro _ _ enc_ebcdic1123_ok)|].
  apply all_cons; [intros _; exact (tgt_intro _ _ enc_ebcdic1130_ok)|].
  apply all_cons; [intros _; exact (tgt_intro _ _ enc_ebcdic1132_ok)|].
  apply all_cons; [intros _; exact (tgt_intro _ _ enc_ebcdic1137_ok)|].
  apply all_cons; [intros _; exact (tgt_intro _ _ enc_ebcdic1140_ok)|].
  apply all_cons; [intros _; exact (tgt_intro _ _ enc_ebcdic1141_ok)|].
  apply all_cons; [intros _; exact (tgt_intro _ _ enc_ebcdic1142_ok)|].
  apply all_cons; [intros _; exact (tgt_intro _ _ enc_ebcdic1143_ok)|].
  apply all_cons; [intros _; exact (tgt_intro _ _ enc_ebcdic1144_ok)|].
  apply all_cons; [intros _; exact (tgt_intro _ _ enc_ebcdic1145_ok)|].
  apply all_cons; [intros _; exact (tgt_intro _ _ enc_ebcdic1146_ok)|].
  apply all_cons; [intros _; exact (tgt_intro _ _ enc_ebcdic1147_ok)|].
  apply all_cons; [intros _; exact (tgt_intro _ _ enc_ebcdic1148_ok)|].
  apply all_cons; [intros _; exact (tgt_intro _ _ enc_ebcdic1149_ok)|].
  apply all_cons; [intros _; exact (tgt_intro _ _ enc_ebcdic1153_ok)|].
  apply all_cons; [intros _; exact (tgt_intro _ _ enc_ebcdic1154_ok)|].
  apply all_cons; [intros _; exact (tgt_intro _ _ enc_ebcdic1155_ok)|].
  apply all_cons; [intros _; exact (tgt_intro _ _ enc_ebcdic1156_ok)|].
  apply all_cons; [intros _; exact (tgt_intro _ _ enc_ebcdic1157_ok)|].
  apply all_cons; [intros _; exact (tgt_intro _ _ enc_ebcdic1158_ok)|].
  apply all_cons; [intros _; exact (tgt_intro _ _ enc_ebcdic1160_ok)|].
  apply all_cons; [intros _; exact (tgt_intro _ _ enc_ebcdic1164_ok)|].
  apply all_cons; [intros _; exact (tgt_intro _ _ enc_ebcdic1165_ok)|].
  apply all_cons; [intros _; exact (tgt_intro _ _ enc_ebcdic1166_ok)|].
  apply all_cons; [intros _; exact (tgt_intro _ _ enc_ebcdic4971_ok)|].
  apply all_cons; [intros _; exact (tgt_intro _ _ enc_ebcdic12712_ok)|].
  apply all_cons; [intros _; exact (tgt_intro _ _ enc_ebcdic16804_ok)|].
  apply all_cons; [intros _; exact (tgt_intro _ _ enc_euc_jisx0213_ok)|].
  apply all_cons; [intros _; exact (tgt_intro _ _ enc_shift_jisx0213_ok)|].
  apply all_cons; [intros _; exact (tgt_intro _ _ enc_iso2022_jp3_ok)|].
  apply all_cons; [intros _; exact (tgt_intro _ _ enc_big5_2003_ok)|].
  apply all_cons; [intros _; exact (tgt_intro _ _ enc_tds565_ok)|].
  apply all_cons; [intros _; exact (tgt_intro _ _ enc_atarist_ok)|].
  apply all_cons; [intros _; exact (tgt_intro _ _ enc_riscos1_ok)|].
  apply all_nil.
Qed.
