(** GENERATED by tools/genunroll.py; do not edit.
    Unfolding equations of the loops of the converters, used to step through them one round at a time. *)
From Coq Require Import ZArith List Bool.
From Verif Require Import Base Sx Conv_uni Conv_sb Conv_set_zh Conv_cjk Conv_iso2022.
Import ListNotations.
Open Scope Z_scope.


Lemma c99_mbtowc_loop_S : forall (fuel : nat) (i : Z) (wc : Z) (s : list Z) (n : nat) (pwc : option Z), c99_mbtowc_loop (S fuel) i wc s n pwc =
  ltac:(let t := eval cbn [c99_mbtowc_loop] in (c99_mbtowc_loop (S fuel) i wc s n pwc) in exact t).
Proof. reflexivity. Qed.
Lemma c99_mbtowc_j_S : forall (fuel : nat) (c : Z) (i : Z) (wc : Z) (s : list Z) (n : nat) (pwc : option Z), c99_mbtowc_j (S fuel) c i wc s n pwc =
  ltac:(let t := eval cbn [c99_mbtowc_j] in (c99_mbtowc_j (S fuel) c i wc s n pwc) in exact t).
Proof. reflexivity. Qed.
Lemma c99_mbtowc_loop2_S : forall (fuel : nat) (i : Z) (wc : Z) (s : list Z) (n : nat) (pwc : option Z), c99_mbtowc_loop2 (S fuel) i wc s n pwc =
  ltac:(let t := eval cbn [c99_mbtowc_loop2] in (c99_mbtowc_loop2 (S fuel) i wc s n pwc) in exact t).
Proof. reflexivity. Qed.
Lemma c99_mbtowc_j2_S : forall (fuel : nat) (c : Z) (i : Z) (wc : Z) (s : list Z) (n : nat) (pwc : option Z), c99_mbtowc_j2 (S fuel) c i wc s n pwc =
  ltac:(let t := eval cbn [c99_mbtowc_j2] in (c99_mbtowc_j2 (S fuel) c i wc s n pwc) in exact t).
Proof. reflexivity. Qed.
Lemma c99_wctomb_loop_S : forall (fuel : nat) (count : Z) (result : Z) (wc : Z) (ro : nat) (r : wlog), c99_wctomb_loop (S fuel) count result wc ro r =
  ltac:(let t := eval cbn [c99_wctomb_loop] in (c99_wctomb_loop (S fuel) count result wc ro r) in exact t).
Proof. reflexivity. Qed.
Lemma java_mbtowc_loop2_S : forall (fuel : nat) (i : Z) (wc : Z) (wc2 : Z) (s : list Z) (n : nat) (pwc : option Z), java_mbtowc_loop2 (S fuel) i wc wc2 s n pwc =
  ltac:(let t := eval cbn [java_mbtowc_loop2] in (java_mbtowc_loop2 (S fuel) i wc wc2 s n pwc) in exact t).
Proof. reflexivity. Qed.
Lemma java_mbtowc_j2_S : forall (fuel : nat) (c : Z) (i : Z) (wc : Z) (wc2 : Z) (s : list Z) (n : nat) (pwc : option Z), java_mbtowc_j2 (S fuel) c i wc wc2 s n pwc =
  ltac:(let t := eval cbn [java_mbtowc_j2] in (java_mbtowc_j2 (S fuel) c i wc wc2 s n pwc) in exact t).
Proof. reflexivity. Qed.
Lemma java_mbtowc_loop_S : forall (fuel : nat) (i : Z) (wc : Z) (s : list Z) (n : nat) (pwc : option Z), java_mbtowc_loop (S fuel) i wc s n pwc =
  ltac:(let t := eval cbn [java_mbtowc_loop] in (java_mbtowc_loop (S fuel) i wc s n pwc) in exact t).
Proof. reflexivity. Qed.
Lemma java_mbtowc_j_S : forall (fuel : nat) (c : Z) (i : Z) (wc : Z) (s : list Z) (n : nat) (pwc : option Z), java_mbtowc_j (S fuel) c i wc s n pwc =
  ltac:(let t := eval cbn [java_mbtowc_j] in (java_mbtowc_j (S fuel) c i wc s n pwc) in exact t).
Proof. reflexivity. Qed.
Lemma ucs2_mbtowc_loop_S : forall (fuel : nat) (count : Z) (state : Z) (s : list Z) (n : nat) (pwc : option Z) (ist : Z), ucs2_mbtowc_loop (S fuel) count state s n pwc ist =
  ltac:(let t := eval cbn [ucs2_mbtowc_loop] in (ucs2_mbtowc_loop (S fuel) count state s n pwc ist) in exact t).
Proof. reflexivity. Qed.
Lemma ucs2_mbtowc_j_S : forall (fuel : nat) (count : Z) (state : Z) (wc : Z) (s : list Z) (n : nat) (pwc : option Z) (ist : Z), ucs2_mbtowc_j (S fuel) count state wc s n pwc ist =
  ltac:(let t := eval cbn [ucs2_mbtowc_j] in (ucs2_mbtowc_j (S fuel) count state wc s n pwc ist) in exact t).
Proof. reflexivity. Qed.
Lemma ucs2_mbtowc_j2_S : forall (fuel : nat) (count : Z) (state : Z) (s : list Z) (n : nat) (pwc : option Z) (ist : Z), ucs2_mbtowc_j2 (S fuel) count state s n pwc ist =
  ltac:(let t := eval cbn [ucs2_mbtowc_j2] in (ucs2_mbtowc_j2 (S fuel) count state s n pwc ist) in exact t).
Proof. reflexivity. Qed.
Lemma ucs4_mbtowc_loop_S : forall (fuel : nat) (count : Z) (state : Z) (s : list Z) (n : nat) (pwc : option Z) (ist : Z), ucs4_mbtowc_loop (S fuel) count state s n pwc ist =
  ltac:(let t := eval cbn [ucs4_mbtowc_loop] in (ucs4_mbtowc_loop (S fuel) count state s n pwc ist) in exact t).
Proof. reflexivity. Qed.
Lemma ucs4_mbtowc_j_S : forall (fuel : nat) (count : Z) (state : Z) (wc : Z) (s : list Z) (n : nat) (pwc : option Z) (ist : Z), ucs4_mbtowc_j (S fuel) count state wc s n pwc ist =
  ltac:(let t := eval cbn [ucs4_mbtowc_j] in (ucs4_mbtowc_j (S fuel) count state wc s n pwc ist) in exact t).
Proof. reflexivity. Qed.
Lemma ucs4_mbtowc_j2_S : forall (fuel : nat) (count : Z) (state : Z) (s : list Z) (n : nat) (pwc : option Z) (ist : Z), ucs4_mbtowc_j2 (S fuel) count state s n pwc ist =
  ltac:(let t := eval cbn [ucs4_mbtowc_j2] in (ucs4_mbtowc_j2 (S fuel) count state s n pwc ist) in exact t).
Proof. reflexivity. Qed.
Lemma utf16_mbtowc_loop_S : forall (fuel : nat) (count : Z) (state : Z) (s : list Z) (n : nat) (pwc : option Z) (ist : Z), utf16_mbtowc_loop (S fuel) count state s n pwc ist =
  ltac:(let t := eval cbn [utf16_mbtowc_loop] in (utf16_mbtowc_loop (S fuel) count state s n pwc ist) in exact t).
Proof. reflexivity. Qed.
Lemma utf16_mbtowc_j_S : forall (fuel : nat) (count : Z) (state : Z) (wc : Z) (s : list Z) (n : nat) (pwc : option Z) (ist : Z), utf16_mbtowc_j (S fuel) count state wc s n pwc ist =
  ltac:(let t := eval cbn [utf16_mbtowc_j] in (utf16_mbtowc_j (S fuel) count state wc s n pwc ist) in exact t).
Proof. reflexivity. Qed.
Lemma utf16_mbtowc_j3_S : forall (fuel : nat) (count : Z) (state : Z) (s : list Z) (n : nat) (pwc : option Z) (ist : Z), utf16_mbtowc_j3 (S fuel) count state s n pwc ist =
  ltac:(let t := eval cbn [utf16_mbtowc_j3] in (utf16_mbtowc_j3 (S fuel) count state s n pwc ist) in exact t).
Proof. reflexivity. Qed.
Lemma utf32_mbtowc_loop_S : forall (fuel : nat) (count : Z) (state : Z) (s : list Z) (n : nat) (pwc : option Z) (ist : Z), utf32_mbtowc_loop (S fuel) count state s n pwc ist =
  ltac:(let t := eval cbn [utf32_mbtowc_loop] in (utf32_mbtowc_loop (S fuel) count state s n pwc ist) in exact t).
Proof. reflexivity. Qed.
Lemma utf32_mbtowc_j_S : forall (fuel : nat) (count : Z) (state : Z) (wc : Z) (s : list Z) (n : nat) (pwc : option Z) (ist : Z), utf32_mbtowc_j (S fuel) count state wc s n pwc ist =
  ltac:(let t := eval cbn [utf32_mbtowc_j] in (utf32_mbtowc_j (S fuel) count state wc s n pwc ist) in exact t).
Proof. reflexivity. Qed.
Lemma utf32_mbtowc_j2_S : forall (fuel : nat) (count : Z) (state : Z) (s : list Z) (n : nat) (pwc : option Z) (ist : Z), utf32_mbtowc_j2 (S fuel) count state s n pwc ist =
  ltac:(let t := eval cbn [utf32_mbtowc_j2] in (utf32_mbtowc_j2 (S fuel) count state s n pwc ist) in exact t).
Proof. reflexivity. Qed.
Lemma utf7_mbtowc_active_S : forall (fuel : nat) (count : Z) (state : Z) (s : list Z) (n : nat) (pwc : option Z) (ibo : Z), utf7_mbtowc_active (S fuel) count state s n pwc ibo =
  ltac:(let t := eval cbn [utf7_mbtowc_active] in (utf7_mbtowc_active (S fuel) count state s n pwc ibo) in exact t).
Proof. reflexivity. Qed.
Lemma utf7_mbtowc_inactive_S : forall (fuel : nat) (count : Z) (state : Z) (s : list Z) (n : nat) (pwc : option Z) (ibo : Z), utf7_mbtowc_inactive (S fuel) count state s n pwc ibo =
  ltac:(let t := eval cbn [utf7_mbtowc_inactive] in (utf7_mbtowc_inactive (S fuel) count state s n pwc ibo) in exact t).
Proof. reflexivity. Qed.
Lemma utf7_mbtowc_j_S : forall (fuel : nat) (c : Z) (count : Z) (state : Z) (s : list Z) (n : nat) (pwc : option Z) (ibo : Z), utf7_mbtowc_j (S fuel) c count state s n pwc ibo =
  ltac:(let t := eval cbn [utf7_mbtowc_j] in (utf7_mbtowc_j (S fuel) c count state s n pwc ibo) in exact t).
Proof. reflexivity. Qed.
Lemma utf7_mbtowc_loop_S : forall (fuel : nat) (base64count : Z) (base64state : Z) (count : Z) (k : Z) (kmax : Z) (state : Z) (wc : Z) (s : list Z) (n : nat) (pwc : option Z) (ibo : Z), utf7_mbtowc_loop (S fuel) base64count base64state count k kmax state wc s n pwc ibo =
  ltac:(let t := eval cbn [utf7_mbtowc_loop] in (utf7_mbtowc_loop (S fuel) base64count base64state count k kmax state wc s n pwc ibo) in exact t).
Proof. reflexivity. Qed.
Lemma utf7_mbtowc_j2_S : forall (fuel : nat) (count : Z) (s : list Z) (n : nat) (pwc : option Z) (ibo : Z), utf7_mbtowc_j2 (S fuel) count s n pwc ibo =
  ltac:(let t := eval cbn [utf7_mbtowc_j2] in (utf7_mbtowc_j2 (S fuel) count s n pwc ibo) in exact t).
Proof. reflexivity. Qed.
Lemma utf7_mbtowc_j3_S : forall (fuel : nat) (base64count : Z) (base64state : Z) (count : Z) (i : Z) (k : Z) (kmax : Z) (state : Z) (wc : Z) (s : list Z) (n : nat) (pwc : option Z) (ibo : Z), utf7_mbtowc_j3 (S fuel) base64count base64state count i k kmax state wc s n pwc ibo =
  ltac:(let t := eval cbn [utf7_mbtowc_j3] in (utf7_mbtowc_j3 (S fuel) base64count base64state count i k kmax state wc s n pwc ibo) in exact t).
Proof. reflexivity. Qed.
Lemma utf7_mbtowc_j4_S : forall (fuel : nat) (base64count : Z) (base64state : Z) (count : Z) (k : Z) (kmax : Z) (state : Z) (wc : Z) (s : list Z) (n : nat) (pwc : option Z) (ibo : Z), utf7_mbtowc_j4 (S fuel) base64count base64state count k kmax state wc s n pwc ibo =
  ltac:(let t := eval cbn [utf7_mbtowc_j4] in (utf7_mbtowc_j4 (S fuel) base64count base64state count k kmax state wc s n pwc ibo) in exact t).
Proof. reflexivity. Qed.
Lemma utf7_mbtowc_j5_S : forall (fuel : nat) (base64count : Z) (base64state : Z) (count : Z) (k : Z) (kmax : Z) (state : Z) (wc : Z) (s : list Z) (n : nat) (pwc : option Z) (ibo : Z), utf7_mbtowc_j5 (S fuel) base64count base64state count k kmax state wc s n pwc ibo =
  ltac:(let t := eval cbn [utf7_mbtowc_j5] in (utf7_mbtowc_j5 (S fuel) base64count base64state count k kmax state wc s n pwc ibo) in exact t).
Proof. reflexivity. Qed.
Lemma utf7_wctomb_loop_S : forall (fuel : nat) (count : Z) (k : Z) (state : Z) (wc : Z) (ro : nat) (r : wlog), utf7_wctomb_loop (S fuel) count k state wc ro r =
  ltac:(let t := eval cbn [utf7_wctomb_loop] in (utf7_wctomb_loop (S fuel) count k state wc ro r) in exact t).
Proof. reflexivity. Qed.
Lemma utf7_wctomb_j9_S : forall (fuel : nat) (c : Z) (count : Z) (k : Z) (state : Z) (wc : Z) (ro : nat) (r : wlog), utf7_wctomb_j9 (S fuel) c count k state wc ro r =
  ltac:(let t := eval cbn [utf7_wctomb_j9] in (utf7_wctomb_j9 (S fuel) c count k state wc ro r) in exact t).
Proof. reflexivity. Qed.
Lemma utf7_wctomb_j10_S : forall (fuel : nat) (c : Z) (count : Z) (k : Z) (state : Z) (wc : Z) (ro : nat) (r : wlog), utf7_wctomb_j10 (S fuel) c count k state wc ro r =
  ltac:(let t := eval cbn [utf7_wctomb_j10] in (utf7_wctomb_j10 (S fuel) c count k state wc ro r) in exact t).
Proof. reflexivity. Qed.
Lemma cp1255_mbtowc_loop_S : forall (fuel : nat) (i1 : Z) (i2 : Z) (last_wc : Z) (pwc : option Z) (ibo : Z), cp1255_mbtowc_loop (S fuel) i1 i2 last_wc pwc ibo =
  ltac:(let t := eval cbn [cp1255_mbtowc_loop] in (cp1255_mbtowc_loop (S fuel) i1 i2 last_wc pwc ibo) in exact t).
Proof. reflexivity. Qed.
Lemma cp1255_wctomb_loop_S : forall (fuel : nat) (i1 : Z) (i2 : Z) (wc : Z) (n : nat) (r : wlog), cp1255_wctomb_loop (S fuel) i1 i2 wc n r =
  ltac:(let t := eval cbn [cp1255_wctomb_loop] in (cp1255_wctomb_loop (S fuel) i1 i2 wc n r) in exact t).
Proof. reflexivity. Qed.
Lemma cp1258_mbtowc_loop_S : forall (fuel : nat) (i1 : Z) (i2 : Z) (last_wc : Z) (ibo : Z), cp1258_mbtowc_loop (S fuel) i1 i2 last_wc ibo =
  ltac:(let t := eval cbn [cp1258_mbtowc_loop] in (cp1258_mbtowc_loop (S fuel) i1 i2 last_wc ibo) in exact t).
Proof. reflexivity. Qed.
Lemma cp1258_wctomb_loop_S : forall (fuel : nat) (i1 : Z) (i2 : Z) (wc : Z) (n : nat) (r : wlog), cp1258_wctomb_loop (S fuel) i1 i2 wc n r =
  ltac:(let t := eval cbn [cp1258_wctomb_loop] in (cp1258_wctomb_loop (S fuel) i1 i2 wc n r) in exact t).
Proof. reflexivity. Qed.
Lemma tcvn_mbtowc_loop_S : forall (fuel : nat) (i1 : Z) (i2 : Z) (last_wc : Z) (ibo : Z), tcvn_mbtowc_loop (S fuel) i1 i2 last_wc ibo =
  ltac:(let t := eval cbn [tcvn_mbtowc_loop] in (tcvn_mbtowc_loop (S fuel) i1 i2 last_wc ibo) in exact t).
Proof. reflexivity. Qed.
Lemma tcvn_wctomb_loop_S : forall (fuel : nat) (i1 : Z) (i2 : Z) (wc : Z) (n : nat) (r : wlog), tcvn_wctomb_loop (S fuel) i1 i2 wc n r =
  ltac:(let t := eval cbn [tcvn_wctomb_loop] in (tcvn_wctomb_loop (S fuel) i1 i2 wc n r) in exact t).
Proof. reflexivity. Qed.
Lemma gb18030_2005_uni_mbtowc_loop_S : forall (fuel : nat) (i : Z) (k1 : Z) (k2 : Z) (pwc : option Z), gb18030_2005_uni_mbtowc_loop (S fuel) i k1 k2 pwc =
  ltac:(let t := eval cbn [gb18030_2005_uni_mbtowc_loop] in (gb18030_2005_uni_mbtowc_loop (S fuel) i k1 k2 pwc) in exact t).
Proof. reflexivity. Qed.
Lemma gb18030_2022_uni_mbtowc_loop_S : forall (fuel : nat) (i : Z) (k1 : Z) (k2 : Z) (pwc : option Z), gb18030_2022_uni_mbtowc_loop (S fuel) i k1 k2 pwc =
  ltac:(let t := eval cbn [gb18030_2022_uni_mbtowc_loop] in (gb18030_2022_uni_mbtowc_loop (S fuel) i k1 k2 pwc) in exact t).
Proof. reflexivity. Qed.
Lemma gb18030_2005_uni_wctomb_loop_S : forall (fuel : nat) (i : Z) (k1 : Z) (k2 : Z) (r : wlog), gb18030_2005_uni_wctomb_loop (S fuel) i k1 k2 r =
  ltac:(let t := eval cbn [gb18030_2005_uni_wctomb_loop] in (gb18030_2005_uni_wctomb_loop (S fuel) i k1 k2 r) in exact t).
Proof. reflexivity. Qed.
Lemma gb18030_2022_uni_wctomb_loop_S : forall (fuel : nat) (i : Z) (k1 : Z) (k2 : Z) (r : wlog), gb18030_2022_uni_wctomb_loop (S fuel) i k1 k2 r =
  ltac:(let t := eval cbn [gb18030_2022_uni_wctomb_loop] in (gb18030_2022_uni_wctomb_loop (S fuel) i k1 k2 r) in exact t).
Proof. reflexivity. Qed.
Lemma gb18030_2005_wctomb_loop_S : forall (fuel : nat) (k1 : Z) (k2 : Z) (wc : Z) (n : nat) (r : wlog), gb18030_2005_wctomb_loop (S fuel) k1 k2 wc n r =
  ltac:(let t := eval cbn [gb18030_2005_wctomb_loop] in (gb18030_2005_wctomb_loop (S fuel) k1 k2 wc n r) in exact t).
Proof. reflexivity. Qed.
Lemma gb18030_2022_wctomb_loop_S : forall (fuel : nat) (k1 : Z) (k2 : Z) (wc : Z) (n : nat) (r : wlog), gb18030_2022_wctomb_loop (S fuel) k1 k2 wc n r =
  ltac:(let t := eval cbn [gb18030_2022_wctomb_loop] in (gb18030_2022_wctomb_loop (S fuel) k1 k2 wc n r) in exact t).
Proof. reflexivity. Qed.
Lemma euc_jisx0213_wctomb_loop_S : forall (fuel : nat) (idx : Z) (lasttwo : Z) (len : Z) (wc : Z) (n : nat) (ro : nat) (r : wlog) (ost : Z), euc_jisx0213_wctomb_loop (S fuel) idx lasttwo len wc n ro r ost =
  ltac:(let t := eval cbn [euc_jisx0213_wctomb_loop] in (euc_jisx0213_wctomb_loop (S fuel) idx lasttwo len wc n ro r ost) in exact t).
Proof. reflexivity. Qed.
Lemma shift_jisx0213_wctomb_loop_S : forall (fuel : nat) (idx : Z) (lasttwo : Z) (len : Z) (wc : Z) (n : nat) (ro : nat) (r : wlog) (ost : Z), shift_jisx0213_wctomb_loop (S fuel) idx lasttwo len wc n ro r ost =
  ltac:(let t := eval cbn [shift_jisx0213_wctomb_loop] in (shift_jisx0213_wctomb_loop (S fuel) idx lasttwo len wc n ro r ost) in exact t).
Proof. reflexivity. Qed.
Lemma iso2022_jp_mbtowc_loop_S : forall (fuel : nat) (count : Z) (state : Z) (s : list Z) (n : nat) (pwc : option Z) (ibo : Z), iso2022_jp_mbtowc_loop (S fuel) count state s n pwc ibo =
  ltac:(let t := eval cbn [iso2022_jp_mbtowc_loop] in (iso2022_jp_mbtowc_loop (S fuel) count state s n pwc ibo) in exact t).
Proof. reflexivity. Qed.
Lemma iso2022_jp_mbtowc_j_S : forall (fuel : nat) (count : Z) (s : list Z) (n : nat) (pwc : option Z) (ibo : Z), iso2022_jp_mbtowc_j (S fuel) count s n pwc ibo =
  ltac:(let t := eval cbn [iso2022_jp_mbtowc_j] in (iso2022_jp_mbtowc_j (S fuel) count s n pwc ibo) in exact t).
Proof. reflexivity. Qed.
Lemma iso2022_jp1_mbtowc_loop_S : forall (fuel : nat) (count : Z) (state : Z) (s : list Z) (n : nat) (pwc : option Z) (ibo : Z), iso2022_jp1_mbtowc_loop (S fuel) count state s n pwc ibo =
  ltac:(let t := eval cbn [iso2022_jp1_mbtowc_loop] in (iso2022_jp1_mbtowc_loop (S fuel) count state s n pwc ibo) in exact t).
Proof. reflexivity. Qed.
Lemma iso2022_jp1_mbtowc_j_S : forall (fuel : nat) (count : Z) (s : list Z) (n : nat) (pwc : option Z) (ibo : Z), iso2022_jp1_mbtowc_j (S fuel) count s n pwc ibo =
  ltac:(let t := eval cbn [iso2022_jp1_mbtowc_j] in (iso2022_jp1_mbtowc_j (S fuel) count s n pwc ibo) in exact t).
Proof. reflexivity. Qed.
Lemma iso2022_jp2_mbtowc_loop_S : forall (fuel : nat) (count : Z) (state1 : Z) (state2 : Z) (s : list Z) (n : nat) (pwc : option Z) (ibo : Z), iso2022_jp2_mbtowc_loop (S fuel) count state1 state2 s n pwc ibo =
  ltac:(let t := eval cbn [iso2022_jp2_mbtowc_loop] in (iso2022_jp2_mbtowc_loop (S fuel) count state1 state2 s n pwc ibo) in exact t).
Proof. reflexivity. Qed.
Lemma iso2022_jp2_mbtowc_j_S : forall (fuel : nat) (count : Z) (state2 : Z) (s : list Z) (n : nat) (pwc : option Z) (ibo : Z), iso2022_jp2_mbtowc_j (S fuel) count state2 s n pwc ibo =
  ltac:(let t := eval cbn [iso2022_jp2_mbtowc_j] in (iso2022_jp2_mbtowc_j (S fuel) count state2 s n pwc ibo) in exact t).
Proof. reflexivity. Qed.
Lemma iso2022_jp2_wctomb_loop_S : forall (fuel : nat) (buf : wlog) (conversion_list : Z) (state1 : Z) (state2 : Z) (state3 : Z) (wc : Z) (n : nat) (ro : nat) (r : wlog) (ost : Z), iso2022_jp2_wctomb_loop (S fuel) buf conversion_list state1 state2 state3 wc n ro r ost =
  ltac:(let t := eval cbn [iso2022_jp2_wctomb_loop] in (iso2022_jp2_wctomb_loop (S fuel) buf conversion_list state1 state2 state3 wc n ro r ost) in exact t).
Proof. reflexivity. Qed.
Lemma iso2022_jp2_wctomb_j6_S : forall (fuel : nat) (buf : wlog) (conversion_list : Z) (state1 : Z) (state2 : Z) (state3 : Z) (wc : Z) (n : nat) (ro : nat) (r : wlog) (ost : Z), iso2022_jp2_wctomb_j6 (S fuel) buf conversion_list state1 state2 state3 wc n ro r ost =
  ltac:(let t := eval cbn [iso2022_jp2_wctomb_j6] in (iso2022_jp2_wctomb_j6 (S fuel) buf conversion_list state1 state2 state3 wc n ro r ost) in exact t).
Proof. reflexivity. Qed.
Lemma iso2022_jp2_wctomb_j8_S : forall (fuel : nat) (buf : wlog) (conversion_list : Z) (state1 : Z) (state2 : Z) (state3 : Z) (wc : Z) (n : nat) (ro : nat) (r : wlog) (ost : Z), iso2022_jp2_wctomb_j8 (S fuel) buf conversion_list state1 state2 state3 wc n ro r ost =
  ltac:(let t := eval cbn [iso2022_jp2_wctomb_j8] in (iso2022_jp2_wctomb_j8 (S fuel) buf conversion_list state1 state2 state3 wc n ro r ost) in exact t).
Proof. reflexivity. Qed.
Lemma iso2022_jp2_wctomb_j11_S : forall (fuel : nat) (buf : wlog) (conversion_list : Z) (state1 : Z) (state2 : Z) (state3 : Z) (wc : Z) (n : nat) (ro : nat) (r : wlog) (ost : Z), iso2022_jp2_wctomb_j11 (S fuel) buf conversion_list state1 state2 state3 wc n ro r ost =
  ltac:(let t := eval cbn [iso2022_jp2_wctomb_j11] in (iso2022_jp2_wctomb_j11 (S fuel) buf conversion_list state1 state2 state3 wc n ro r ost) in exact t).
Proof. reflexivity. Qed.
Lemma iso2022_jp2_wctomb_j13_S : forall (fuel : nat) (buf : wlog) (conversion_list : Z) (state1 : Z) (state2 : Z) (state3 : Z) (wc : Z) (n : nat) (ro : nat) (r : wlog) (ost : Z), iso2022_jp2_wctomb_j13 (S fuel) buf conversion_list state1 state2 state3 wc n ro r ost =
  ltac:(let t := eval cbn [iso2022_jp2_wctomb_j13] in (iso2022_jp2_wctomb_j13 (S fuel) buf conversion_list state1 state2 state3 wc n ro r ost) in exact t).
Proof. reflexivity. Qed.
Lemma iso2022_jpms_mbtowc_loop_S : forall (fuel : nat) (count : Z) (state : Z) (s : list Z) (n : nat) (pwc : option Z) (ibo : Z), iso2022_jpms_mbtowc_loop (S fuel) count state s n pwc ibo =
  ltac:(let t := eval cbn [iso2022_jpms_mbtowc_loop] in (iso2022_jpms_mbtowc_loop (S fuel) count state s n pwc ibo) in exact t).
Proof. reflexivity. Qed.
Lemma iso2022_jpms_mbtowc_j_S : forall (fuel : nat) (count : Z) (s : list Z) (n : nat) (pwc : option Z) (ibo : Z), iso2022_jpms_mbtowc_j (S fuel) count s n pwc ibo =
  ltac:(let t := eval cbn [iso2022_jpms_mbtowc_j] in (iso2022_jpms_mbtowc_j (S fuel) count s n pwc ibo) in exact t).
Proof. reflexivity. Qed.
Lemma iso2022_jpms_mbtowc_j2_S : forall (fuel : nat) (count : Z) (state : Z) (s : list Z) (n : nat) (pwc : option Z) (ibo : Z), iso2022_jpms_mbtowc_j2 (S fuel) count state s n pwc ibo =
  ltac:(let t := eval cbn [iso2022_jpms_mbtowc_j2] in (iso2022_jpms_mbtowc_j2 (S fuel) count state s n pwc ibo) in exact t).
Proof. reflexivity. Qed.
Lemma iso2022_jpms_mbtowc_j3_S : forall (fuel : nat) (count : Z) (state : Z) (s : list Z) (n : nat) (pwc : option Z) (ibo : Z), iso2022_jpms_mbtowc_j3 (S fuel) count state s n pwc ibo =
  ltac:(let t := eval cbn [iso2022_jpms_mbtowc_j3] in (iso2022_jpms_mbtowc_j3 (S fuel) count state s n pwc ibo) in exact t).
Proof. reflexivity. Qed.
Lemma hz_mbtowc_loop_S : forall (fuel : nat) (count : Z) (state : Z) (s : list Z) (n : nat) (pwc : option Z) (ibo : Z), hz_mbtowc_loop (S fuel) count state s n pwc ibo =
  ltac:(let t := eval cbn [hz_mbtowc_loop] in (hz_mbtowc_loop (S fuel) count state s n pwc ibo) in exact t).
Proof. reflexivity. Qed.
Lemma iso2022_cn_mbtowc_loop_S : forall (fuel : nat) (count : Z) (state1 : Z) (state2 : Z) (state3 : Z) (s : list Z) (n : nat) (pwc : option Z) (ibo : Z), iso2022_cn_mbtowc_loop (S fuel) count state1 state2 state3 s n pwc ibo =
  ltac:(let t := eval cbn [iso2022_cn_mbtowc_loop] in (iso2022_cn_mbtowc_loop (S fuel) count state1 state2 state3 s n pwc ibo) in exact t).
Proof. reflexivity. Qed.
Lemma iso2022_cn_mbtowc_j_S : forall (fuel : nat) (count : Z) (state1 : Z) (state2 : Z) (state3 : Z) (x2 : Z) (x3 : Z) (s : list Z) (n : nat) (pwc : option Z) (ibo : Z), iso2022_cn_mbtowc_j (S fuel) count state1 state2 state3 x2 x3 s n pwc ibo =
  ltac:(let t := eval cbn [iso2022_cn_mbtowc_j] in (iso2022_cn_mbtowc_j (S fuel) count state1 state2 state3 x2 x3 s n pwc ibo) in exact t).
Proof. reflexivity. Qed.
Lemma iso2022_cn_ext_mbtowc_loop_S : forall (fuel : nat) (count : Z) (state1 : Z) (state2 : Z) (state3 : Z) (state4 : Z) (s : list Z) (n : nat) (pwc : option Z) (ibo : Z), iso2022_cn_ext_mbtowc_loop (S fuel) count state1 state2 state3 state4 s n pwc ibo =
  ltac:(let t := eval cbn [iso2022_cn_ext_mbtowc_loop] in (iso2022_cn_ext_mbtowc_loop (S fuel) count state1 state2 state3 state4 s n pwc ibo) in exact t).
Proof. reflexivity. Qed.
Lemma iso2022_cn_ext_mbtowc_j_S : forall (fuel : nat) (count : Z) (state1 : Z) (state2 : Z) (state3 : Z) (state4 : Z) (x2 : Z) (x3 : Z) (s : list Z) (n : nat) (pwc : option Z) (ibo : Z), iso2022_cn_ext_mbtowc_j (S fuel) count state1 state2 state3 state4 x2 x3 s n pwc ibo =
  ltac:(let t := eval cbn [iso2022_cn_ext_mbtowc_j] in (iso2022_cn_ext_mbtowc_j (S fuel) count state1 state2 state3 state4 x2 x3 s n pwc ibo) in exact t).
Proof. reflexivity. Qed.
Lemma iso2022_cn_ext_mbtowc_j2_S : forall (fuel : nat) (count : Z) (state1 : Z) (state2 : Z) (state3 : Z) (state4 : Z) (x2 : Z) (x3 : Z) (s : list Z) (n : nat) (pwc : option Z) (ibo : Z), iso2022_cn_ext_mbtowc_j2 (S fuel) count state1 state2 state3 state4 x2 x3 s n pwc ibo =
  ltac:(let t := eval cbn [iso2022_cn_ext_mbtowc_j2] in (iso2022_cn_ext_mbtowc_j2 (S fuel) count state1 state2 state3 state4 x2 x3 s n pwc ibo) in exact t).
Proof. reflexivity. Qed.
Lemma iso2022_kr_mbtowc_loop_S : forall (fuel : nat) (count : Z) (state1 : Z) (state2 : Z) (s : list Z) (n : nat) (pwc : option Z) (ibo : Z), iso2022_kr_mbtowc_loop (S fuel) count state1 state2 s n pwc ibo =
  ltac:(let t := eval cbn [iso2022_kr_mbtowc_loop] in (iso2022_kr_mbtowc_loop (S fuel) count state1 state2 s n pwc ibo) in exact t).
Proof. reflexivity. Qed.
Lemma iso2022_jp3_mbtowc_loop_S : forall (fuel : nat) (count : Z) (state : Z) (s : list Z) (n : nat) (pwc : option Z) (ibo : Z), iso2022_jp3_mbtowc_loop (S fuel) count state s n pwc ibo =
  ltac:(let t := eval cbn [iso2022_jp3_mbtowc_loop] in (iso2022_jp3_mbtowc_loop (S fuel) count state s n pwc ibo) in exact t).
Proof. reflexivity. Qed.
Lemma iso2022_jp3_mbtowc_j_S : forall (fuel : nat) (count : Z) (s : list Z) (n : nat) (pwc : option Z) (ibo : Z), iso2022_jp3_mbtowc_j (S fuel) count s n pwc ibo =
  ltac:(let t := eval cbn [iso2022_jp3_mbtowc_j] in (iso2022_jp3_mbtowc_j (S fuel) count s n pwc ibo) in exact t).
Proof. reflexivity. Qed.
Lemma iso2022_jp3_mbtowc_j2_S : forall (fuel : nat) (count : Z) (s : list Z) (n : nat) (pwc : option Z) (ibo : Z), iso2022_jp3_mbtowc_j2 (S fuel) count s n pwc ibo =
  ltac:(let t := eval cbn [iso2022_jp3_mbtowc_j2] in (iso2022_jp3_mbtowc_j2 (S fuel) count s n pwc ibo) in exact t).
Proof. reflexivity. Qed.
Lemma iso2022_jp3_wctomb_loop_S : forall (fuel : nat) (buf : wlog) (idx : Z) (lasttwo : Z) (len : Z) (prevstate : Z) (state : Z) (wc : Z) (n : nat) (ro : nat) (r : wlog) (ost : Z), iso2022_jp3_wctomb_loop (S fuel) buf idx lasttwo len prevstate state wc n ro r ost =
  ltac:(let t := eval cbn [iso2022_jp3_wctomb_loop] in (iso2022_jp3_wctomb_loop (S fuel) buf idx lasttwo len prevstate state wc n ro r ost) in exact t).
Proof. reflexivity. Qed.

Ltac sx_unroll m :=
  let h := head_of m in
  lazymatch h with
  | c99_mbtowc_loop => eapply holds_same; [apply c99_mbtowc_loop_S|]
  | c99_mbtowc_j => eapply holds_same; [apply c99_mbtowc_j_S|]
  | c99_mbtowc_loop2 => eapply holds_same; [apply c99_mbtowc_loop2_S|]
  | c99_mbtowc_j2 => eapply holds_same; [apply c99_mbtowc_j2_S|]
  | c99_wctomb_loop => eapply holds_same; [apply c99_wctomb_loop_S|]
  | java_mbtowc_loop2 => eapply holds_same; [apply java_mbtowc_loop2_S|]
  | java_mbtowc_j2 => eapply holds_same; [apply java_mbtowc_j2_S|]
  | java_mbtowc_loop => eapply holds_same; [apply java_mbtowc_loop_S|]
  | java_mbtowc_j => eapply holds_same; [apply java_mbtowc_j_S|]
  | ucs2_mbtowc_loop => eapply holds_same; [apply ucs2_mbtowc_loop_S|]
  | ucs2_mbtowc_j => eapply holds_same; [apply ucs2_mbtowc_j_S|]
  | ucs2_mbtowc_j2 => eapply holds_same; [apply ucs2_mbtowc_j2_S|]
  | ucs4_mbtowc_loop => eapply holds_same; [apply ucs4_mbtowc_loop_S|]
  | ucs4_mbtowc_j => eapply holds_same; [apply ucs4_mbtowc_j_S|]
  | ucs4_mbtowc_j2 => eapply holds_same; [apply ucs4_mbtowc_j2_S|]
  | utf16_mbtowc_loop => eapply holds_same; [apply utf16_mbtowc_loop_S|]
  | utf16_mbtowc_j => eapply holds_same; [apply utf16_mbtowc_j_S|]
  | utf16_mbtowc_j3 => eapply holds_same; [apply utf16_mbtowc_j3_S|]
  | utf32_mbtowc_loop => eapply holds_same; [apply utf32_mbtowc_loop_S|]
  | utf32_mbtowc_j => eapply holds_same; [apply utf32_mbtowc_j_S|]
  | utf32_mbtowc_j2 => eapply holds_same; [apply utf32_mbtowc_j2_S|]
  | utf7_mbtowc_active => eapply holds_same; [apply utf7_mbtowc_active_S|]
  | utf7_mbtowc_inactive => eapply holds_same; [apply utf7_mbtowc_inactive_S|]
  | utf7_mbtowc_j => eapply holds_same; [apply utf7_mbtowc_j_S|]
  | utf7_mbtowc_loop => eapply holds_same; [apply utf7_mbtowc_loop_S|]
  | utf7_mbtowc_j2 => eapply holds_same; [apply utf7_mbtowc_j2_S|]
  | utf7_mbtowc_j3 => eapply holds_same; [apply utf7_mbtowc_j3_S|]
  | utf7_mbtowc_j4 => eapply holds_same; [apply utf7_mbtowc_j4_S|]
  | utf7_mbtowc_j5 => eapply holds_same; [apply utf7_mbtowc_j5_S|]
  | utf7_wctomb_loop => eapply holds_same; [apply utf7_wctomb_loop_S|]
  | utf7_wctomb_j9 => eapply holds_same; [apply utf7_wctomb_j9_S|]
  | utf7_wctomb_j10 => eapply holds_same; [apply utf7_wctomb_j10_S|]
  | cp1255_mbtowc_loop => eapply holds_same; [apply cp1255_mbtowc_loop_S|]
  | cp1255_wctomb_loop => eapply holds_same; [apply cp1255_wctomb_loop_S|]
  | cp1258_mbtowc_loop => eapply holds_same; [apply cp1258_mbtowc_loop_S|]
  | cp1258_wctomb_loop => eapply holds_same; [apply cp1258_wctomb_loop_S|]
  | tcvn_mbtowc_loop => eapply holds_same; [apply tcvn_mbtowc_loop_S|]
  | tcvn_wctomb_loop => eapply holds_same; [apply tcvn_wctomb_loop_S|]
  | gb18030_2005_uni_mbtowc_loop => eapply holds_same; [apply gb18030_2005_uni_mbtowc_loop_S|]
  | gb18030_2022_uni_mbtowc_loop => eapply holds_same; [apply gb18030_2022_uni_mbtowc_loop_S|]
  | gb18030_2005_uni_wctomb_loop => eapply holds_same; [apply gb18030_2005_uni_wctomb_loop_S|]
  | gb18030_2022_uni_wctomb_loop => eapply holds_same; [apply gb18030_2022_uni_wctomb_loop_S|]
  | gb18030_2005_wctomb_loop => eapply holds_same; [apply gb18030_2005_wctomb_loop_S|]
  | gb18030_2022_wctomb_loop => eapply holds_same; [apply gb18030_2022_wctomb_loop_S|]
  | euc_jisx0213_wctomb_loop => eapply holds_same; [apply euc_jisx0213_wctomb_loop_S|]
  | shift_jisx0213_wctomb_loop => eapply holds_same; [apply shift_jisx0213_wctomb_loop_S|]
  | iso2022_jp_mbtowc_loop => eapply holds_same; [apply iso2022_jp_mbtowc_loop_S|]
  | iso2022_jp_mbtowc_j => eapply holds_same; [apply iso2022_jp_mbtowc_j_S|]
  | iso2022_jp1_mbtowc_loop => eapply holds_same; [apply iso2022_jp1_mbtowc_loop_S|]
  | iso2022_jp1_mbtowc_j => eapply holds_same; [apply iso2022_jp1_mbtowc_j_S|]
  | iso2022_jp2_mbtowc_loop => eapply holds_same; [apply iso2022_jp2_mbtowc_loop_S|]
  | iso2022_jp2_mbtowc_j => eapply holds_same; [apply iso2022_jp2_mbtowc_j_S|]
  | iso2022_jp2_wctomb_loop => eapply holds_same; [apply iso2022_jp2_wctomb_loop_S|]
  | iso2022_jp2_wctomb_j6 => eapply holds_same; [apply iso2022_jp2_wctomb_j6_S|]
  | iso2022_jp2_wctomb_j8 => eapply holds_same; [apply iso2022_jp2_wctomb_j8_S|]
  | iso2022_jp2_wctomb_j11 => eapply holds_same; [apply iso2022_jp2_wctomb_j11_S|]
  | iso2022_jp2_wctomb_j13 => eapply holds_same; [apply iso2022_jp2_wctomb_j13_S|]
  | iso2022_jpms_mbtowc_loop => eapply holds_same; [apply iso2022_jpms_mbtowc_loop_S|]
  | iso2022_jpms_mbtowc_j => eapply holds_same; [apply iso2022_jpms_mbtowc_j_S|]
  | iso2022_jpms_mbtowc_j2 => eapply holds_same; [apply iso2022_jpms_mbtowc_j2_S|]
  | iso2022_jpms_mbtowc_j3 => eapply holds_same; [apply iso2022_jpms_mbtowc_j3_S|]
  | hz_mbtowc_loop => eapply holds_same; [apply hz_mbtowc_loop_S|]
  | iso2022_cn_mbtowc_loop => eapply holds_same; [apply iso2022_cn_mbtowc_loop_S|]
  | iso2022_cn_mbtowc_j => eapply holds_same; [apply iso2022_cn_mbtowc_j_S|]
  | iso2022_cn_ext_mbtowc_loop => eapply holds_same; [apply iso2022_cn_ext_mbtowc_loop_S|]
  | iso2022_cn_ext_mbtowc_j => eapply holds_same; [apply iso2022_cn_ext_mbtowc_j_S|]
  | iso2022_cn_ext_mbtowc_j2 => eapply holds_same; [apply iso2022_cn_ext_mbtowc_j2_S|]
  | iso2022_kr_mbtowc_loop => eapply holds_same; [apply iso2022_kr_mbtowc_loop_S|]
  | iso2022_jp3_mbtowc_loop => eapply holds_same; [apply iso2022_jp3_mbtowc_loop_S|]
  | iso2022_jp3_mbtowc_j => eapply holds_same; [apply iso2022_jp3_mbtowc_j_S|]
  | iso2022_jp3_mbtowc_j2 => eapply holds_same; [apply iso2022_jp3_mbtowc_j2_S|]
  | iso2022_jp3_wctomb_loop => eapply holds_same; [apply iso2022_jp3_wctomb_loop_S|]
  end.
Ltac sx_fix m ::= sx_unroll m.
