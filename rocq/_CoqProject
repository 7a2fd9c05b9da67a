-Q theories Verif
theories/Base.v
theories/Indexes.v
theories/Loop.v
theories/Tab_cns.v
theories/Tab_cnsinv1.v
theories/Tab_cnsinv2.v
theories/Tab_cnsinv3.v
theories/Tab_cnsinv.v
theories/Tab_big5.v
theories/Tab_jis.v
theories/Tab_gb.v
theories/Tab_ks.v
theories/Conv_uni.v
theories/Conv_sb.v
theories/Conv_ebcdic.v
theories/Conv_set_ja.v
theories/Conv_set_zh.v
theories/Conv_set_ko.v
theories/Conv_cjk.v
theories/Conv_iso2022.v
theories/Contract.v
theories/LoopLib.v
theories/LoopProps.v
theories/Spec.v
theories/SpecProps.v
theories/Reflect.v
theories/Encodings.v
theories/AliasTab.v
theories/Api.v
theories/Sx.v
theories/Rng.v
theories/EncLib.v
theories/TabLib.v
theories/TabIn_sb.v
theories/TabIn_cjk.v
theories/Leaf.v
theories/CjkLib.v
theories/DCjk.v
theories/Unroll.v
theories/DecLib.v
theories/SbLib.v
theories/Ok_uni.v
theories/Ok_esc.v
theories/Ok_bom.v
theories/DLeaf.v
theories/JLeaf.v
theories/Ok_isodec1.v
theories/Ok_isodec2.v
theories/Ok_isodec3.v
theories/Ok_isodec4.v
theories/Ok_isodec5.v
theories/Ok_isodec6.v
theories/Ok_isodec7.v
theories/Ok_sb1.v
theories/Ok_sb2.v
theories/Ok_sb3.v
theories/Ok_sb4.v
theories/Ok_eb1.v
theories/Ok_eb2.v
theories/Ok_sbst.v
theories/Ok_isoenc.v
theories/Ok_isoenc2.v
theories/Ok_isoenc3.v
theories/Ok_cjk1.v
theories/Ok_cjk2.v
theories/Ok_cjk3.v
theories/Ok_cjk4.v
theories/Ok_cjk5.v
theories/Ok_b5enc.v
theories/Ok_hkscs.v
theories/Ok_held.v
theories/Ok_jisx.v
theories/Ok_isoenc4.v
theories/AllOk.v
theories/Public.v
theories/Demo.v
theories/C_iconv.v
theories/C_api.v
theories/PubIdx.v
theories/Names.v
theories/NameProps.v
theories/C_names.v
theories/Cpp.v
theories/C_cpp.v
theories/UniSpec.v
theories/UniProps.v
theories/C_uni.v
theories/Whole.v
theories/C_comb.v
theories/Charmap.v
theories/CharLib.v
theories/Maps_sb1.v
theories/Chk_sb1.v
theories/Maps_sb2.v
theories/Chk_sb2.v
theories/Maps_sb3.v
theories/Chk_sb3.v
theories/Maps_sb4.v
theories/Chk_sb4.v
theories/Maps_euc_jp.v
theories/Chk_euc_jp.v
theories/Maps_sjis.v
theories/Chk_sjis.v
theories/Maps_cp932.v
theories/Chk_cp932.v
theories/Maps_euc_cn.v
theories/Chk_euc_cn.v
theories/Maps_ces_gbk.v
theories/Chk_ces_gbk.v
theories/Maps_cp936.v
theories/Chk_cp936.v
theories/Maps_ces_big5.v
theories/Chk_ces_big5.v
theories/Maps_cp950.v
theories/Chk_cp950.v
theories/Maps_euc_kr.v
theories/Chk_euc_kr.v
theories/Maps_cp949.v
theories/Chk_cp949.v
theories/Maps_johab.v
theories/Chk_johab.v
theories/Maps_dec_kanji.v
theories/Chk_dec_kanji.v
theories/Maps_dec_hanyu.v
theories/Chk_dec_hanyu.v
theories/Maps_isoir165.v
theories/Chk_isoir165.v
theories/Maps_big5_2003.v
theories/Chk_big5_2003.v
theories/Tables.v
theories/C_char.v
theories/Ok_utf7e.v
theories/Ok_utf7d.v
theories/Ok_gb18030.v
theories/Ok_gb18030e.v
theories/Ok_cnext.v
theories/Ok_jp3e.v
theories/Rt_utf7.v
theories/Round.v
theories/C_round.v
theories/C_esc.v
theories/Bom.v
theories/C_bom.v
theories/RtLib.v
theories/Rt_sets.v
theories/Rt_cns.v
theories/Rt_kr.v
theories/Rt_jp.v
theories/Rt_jp2.v
theories/Rt_cn.v
theories/Rt_cnext.v
theories/Rt_jpms.v
theories/C_state.v
theories/C_scalar.v
theories/Rt_euctw.v
theories/Rt_raw.v
theories/RtHold.v
theories/Rt_jisx.v
theories/Rt_hkscs.v
theories/Rt_hkscs2.v
theories/Rt_comb.v
theories/Rt_jp3.v
theories/Rt_gb18030.v
theories/C_cjk.v
theories/C_gb18030.v
theories/LocaleTab.v
theories/Locale.v
theories/C_locale.v
theories/C_memory.v
theories/ScLib.v
theories/Sc_sets.v
theories/Sc_iso.v
theories/Sc_uni.v
theories/Sc_gb.v
theories/C_scalar2.v
theories/Properties.v
