(** Properties C37 and C38, continued: EUC-TW and the plain character sets; the encodings that hold a character back. *)
From Coq Require Import ZArith List Bool Lia.
From Verif Require Import Base Indexes Loop Contract LoopLib LoopProps Spec SpecProps Encodings Api AllOk Public Demo UniSpec UniProps C_iconv C_api C_uni Whole C_comb
  CharLib C_char Round RtLib Rt_euctw Rt_raw Rt_jisx Rt_hkscs2 Rt_comb Rt_jp3 C_state.
Import ListNotations.
Open Scope Z_scope.

(** A text that converts to UTF-8 without loss, has no tags, and was converted to one of these encodings without loss: converting the result to
    any encoding gives what converting the original does.  Tag characters are dropped without being counted. *)
Definition cjk_plain : list Z :=
  [ei_euc_tw; ei_jisx0208; ei_jisx0212; ei_gb2312; ei_ksc5601].
Lemma cjk_carries : forall e, In e cjk_plain -> exists f, nth_error all_encodings (Z.to_nat e) = Some f /\ carries f (plain []) /\ target e /\ source e.
Proof.
  intros e H. unfold cjk_plain in H. cbn [In] in H.
  repeat (destruct H as [H|H]; [subst e; eexists; split; [reflexivity|]; split; [|split; [apply targetb_ok|apply sourceb_ok]; reflexivity]|]); [..|contradiction].
  - exact euc_tw_carries.
  - exact jisx0208_carries.
  - exact jisx0212_carries.
  - exact gb2312_carries.
  - exact ksc5601_carries.
Qed.
Theorem C37_cjk_reads_back : forall a e b flags s u v cs out n, In e cjk_plain -> source a -> target b -> input s -> input u ->
  whole (opened a ei_utf8 flags) s v 0 -> text utf8_form cs = Some v -> Forall (fun c => tag c = false) cs ->
  whole (opened a e flags) s u 0 -> (whole (opened a b flags) s out n <-> whole (opened e b flags) u out n).
Proof.
  intros a e b flags s u v cs out n H Sa Tb I1 I2 W8 T F W. destruct (cjk_carries e H) as (f & Nf & C & Te & Se).
  eapply (pivot a e b f (plain [])); eauto.
  intros cs0 i R. eapply Forall_impl; [|exact (text_kept a e flags s v cs _ Sa Te I1 W8 T F cs0 i R)]. intros c (A & B). repeat split; auto.
Qed.
Theorem C37_cjk_round_trip : forall e flags s u cs, In e cjk_plain -> input s -> input u -> text utf8_form cs = Some s -> Forall (fun c => tag c = false) cs ->
  whole (opened ei_utf8 e flags) s u 0 -> whole (opened e ei_utf8 flags) u s 0.
Proof.
  intros e flags s u cs H I1 I2 T F W. pose proof (utf8_same flags s cs I1 T) as W8.
  apply (C37_cjk_reads_back ei_utf8 e ei_utf8 flags s u s cs s 0); auto; [apply sourceb_ok|apply targetb_ok]; reflexivity.
Qed.
Theorem C37_tag_refuted : whole (opened ei_utf8 ei_euc_tw 0) [0x61; 0xf3; 0xa0; 0x81; 0x81] [0x61] 0 /\ whole (opened ei_euc_tw ei_utf8 0) [0x61] [0x61] 0.
Proof. split; wrun 40%nat. Qed.

(** "a", U+4E2D, U+4E42 *)
Example C37_euc_tw_case : let s := [0x61; 0xe4; 0xb8; 0xad; 0xe4; 0xb9; 0x82] in let u := [97; 196; 227; 142; 162; 161; 161] in
  text utf8_form [0x61; 0x4e2d; 0x4e42] = Some s /\ whole (opened ei_utf8 ei_euc_tw 0) s u 0 /\ whole (opened ei_euc_tw ei_utf8 0) u s 0.
Proof.
  cbv zeta. match goal with |- ?A /\ ?B /\ _ => assert (X : A) by reflexivity; assert (Y : B) by wrun 60%nat; split; [exact X|]; split; [exact Y|] end.
  eapply (C37_cjk_round_trip ei_euc_tw 0 _ _ _ ltac:(cbn; tauto)); [inp|inp|exact X|repeat constructor|exact Y].
Qed.
(** Not so in GB18030, 2005 edition: U+E78D is written like U+FE10. *)
Theorem C37_gb18030_2005_refuted :
  match reiconv_iconv (opened ei_utf8 ei_gb18030_2005 0) (Some [0xee; 0x9e; 0x8d]) (Some (repeat 0 8)) 8 with Ok r => Some (r_ret r, produced r) | _ => None end = Some (Num 0, [0xa6; 0xd9]) /\
  whole (opened ei_gb18030_2005 ei_utf8 0) [0xa6; 0xd9] [0xef; 0xb8; 0x90] 0.
Proof. split; [vm_compute; reflexivity|wrun 40%nat]. Qed.

(** ** Encodings that hold a character back *)
(** The JISX0213 and HKSCS encodings write some pairs of characters as one code, and the writer keeps a character until the next one decides.  CP1255,
    CP1258 and TCVN write some characters as a letter and a mark, and the reader keeps a letter until the next character decides.  ISO-2022-JP-3 has
    the pairs of JISX0213 and escape sequences.  With each the characters that do not come back: marks that the reader joins to the letter before,
    characters written like another, and ESC. *)
Definition holding : list (Z * list Z) :=
  [(ei_euc_jisx0213, []); (ei_shift_jisx0213, []); (ei_big5hkscs1999, []); (ei_big5hkscs2001, []); (ei_big5hkscs2004, []); (ei_big5hkscs2008, []);
   (ei_cp1255, [0x5b4; 0x5b7; 0x5b8; 0x5b9; 0x5bc; 0x5bf; 0x5c1; 0x5c2]); (ei_cp1258, [0x300; 0x301; 0x303; 0x309; 0x323; 0x340; 0x341; 0x1fee]);
   (ei_tcvn, [0x300; 0x301; 0x303; 0x309; 0x323; 0x340; 0x341; 0xb4; 0x2dc]); (ei_iso2022_jp3, [0x1b])].
Lemma holding_carries : forall e marks, In (e, marks) holding -> exists f, nth_error all_encodings (Z.to_nat e) = Some f /\ carries f (plain marks) /\ target e /\ source e.
Proof.
  intros e marks H. unfold holding in H. cbn [In] in H.
  repeat (destruct H as [H|H]; [injection H as <- <-; eexists; split; [reflexivity|]; split; [|split; [apply targetb_ok|apply sourceb_ok]; reflexivity]|]); [..|contradiction].
  - exact euc_jisx0213_carries.
  - exact shift_jisx0213_carries.
  - exact big5hkscs1999_carries.
  - exact big5hkscs2001_carries.
  - exact big5hkscs2004_carries.
  - exact big5hkscs2008_carries.
  - exact cp1255_carries.
  - exact cp1258_carries.
  - exact tcvn_carries.
  - exact iso2022_jp3_carries.
Qed.
Theorem C38_holding_reads_back : forall a e marks b flags s u v cs out n, In (e, marks) holding -> source a -> target b -> input s -> input u ->
  whole (opened a ei_utf8 flags) s v 0 -> text utf8_form cs = Some v -> Forall (fun c => tag c = false /\ ~ In c marks) cs ->
  whole (opened a e flags) s u 0 -> (whole (opened a b flags) s out n <-> whole (opened e b flags) u out n).
Proof.
  intros a e marks b flags s u v cs out n H Sa Tb I1 I2 W8 T F W. destruct (holding_carries e marks H) as (f & Nf & C & Te & Se).
  eapply (pivot a e b f (plain marks)); eauto. intros cs0 i R. eapply Forall_impl; [|exact (text_kept a e flags s v cs _ Sa Te I1 W8 T F cs0 i R)].
  intros c (A & B & D). repeat split; auto.
Qed.
Theorem C38_holding_round_trip : forall e marks flags s u cs, In (e, marks) holding -> input s -> input u -> text utf8_form cs = Some s ->
  Forall (fun c => tag c = false /\ ~ In c marks) cs -> whole (opened ei_utf8 e flags) s u 0 -> whole (opened e ei_utf8 flags) u s 0.
Proof.
  intros e marks flags s u cs H I1 I2 T F W. pose proof (utf8_same flags s cs I1 T) as W8.
  apply (C38_holding_reads_back ei_utf8 e marks ei_utf8 flags s u s cs s 0); auto; [apply sourceb_ok|apply targetb_ok]; reflexivity.
Qed.
(** "a", U+304B U+309A (one code of JIS X 0213), U+304B, "b" *)
Example C38_jisx0213_case : let s := [0x61; 0xe3; 0x81; 0x8b; 0xe3; 0x82; 0x9a; 0xe3; 0x81; 0x8b; 0x62] in let u := [97; 0xa4; 0xf7; 0xa4; 0xab; 98] in
  text utf8_form [0x61; 0x304b; 0x309a; 0x304b; 0x62] = Some s /\ whole (opened ei_utf8 ei_euc_jisx0213 0) s u 0 /\ whole (opened ei_euc_jisx0213 ei_utf8 0) u s 0.
Proof.
  cbv zeta. match goal with |- ?A /\ ?B /\ _ => assert (X : A) by reflexivity; assert (Y : B) by wrun 60%nat; split; [exact X|]; split; [exact Y|] end.
  eapply (C38_holding_round_trip ei_euc_jisx0213 _ 0 _ _ _ ltac:(cbn; tauto)); [inp|inp|exact X|keep|exact Y].
Qed.
(** U+00CA U+0304 (one code of HKSCS), U+4E2D, U+00CA *)
Example C38_hkscs_case : let s := [0xc3; 0x8a; 0xcc; 0x84; 0xe4; 0xb8; 0xad; 0xc3; 0x8a] in let u := [0x88; 0x62; 0xa4; 0xa4; 0x88; 0x66] in
  text utf8_form [0xca; 0x304; 0x4e2d; 0xca] = Some s /\ whole (opened ei_utf8 ei_big5hkscs2008 0) s u 0 /\ whole (opened ei_big5hkscs2008 ei_utf8 0) u s 0.
Proof.
  cbv zeta. match goal with |- ?A /\ ?B /\ _ => assert (X : A) by reflexivity; assert (Y : B) by wrun 60%nat; split; [exact X|]; split; [exact Y|] end.
  eapply (C38_holding_round_trip ei_big5hkscs2008 _ 0 _ _ _ ltac:(cbn; tauto)); [inp|inp|exact X|keep|exact Y].
Qed.
(** U+1EA4 (written as a letter and a mark), "a", U+00C1 *)
Example C38_cp1258_case : let s := [225; 186; 164; 97; 195; 129] in let u := [194; 236; 97; 193] in
  text utf8_form [0x1ea4; 0x61; 0xc1] = Some s /\ whole (opened ei_utf8 ei_cp1258 0) s u 0 /\ whole (opened ei_cp1258 ei_utf8 0) u s 0.
Proof.
  cbv zeta. match goal with |- ?A /\ ?B /\ _ => assert (X : A) by reflexivity; assert (Y : B) by wrun 60%nat; split; [exact X|]; split; [exact Y|] end.
  eapply (C38_holding_round_trip ei_cp1258 _ 0 _ _ _ ltac:(cbn; tauto)); [inp|inp|exact X|keep|exact Y].
Qed.
(** U+FB2A (written as a letter and a mark), U+05D0 *)
Example C38_cp1255_case : let s := [239; 172; 170; 215; 144] in let u := [249; 209; 224] in
  text utf8_form [0xfb2a; 0x5d0] = Some s /\ whole (opened ei_utf8 ei_cp1255 0) s u 0 /\ whole (opened ei_cp1255 ei_utf8 0) u s 0.
Proof.
  cbv zeta. match goal with |- ?A /\ ?B /\ _ => assert (X : A) by reflexivity; assert (Y : B) by wrun 60%nat; split; [exact X|]; split; [exact Y|] end.
  eapply (C38_holding_round_trip ei_cp1255 _ 0 _ _ _ ltac:(cbn; tauto)); [inp|inp|exact X|keep|exact Y].
Qed.
(** U+00D1 (written as a letter and a mark), "a", U+00D2 *)
Example C38_tcvn_case : let s := [195; 145; 97; 195; 146] in let u := [0x4e; 0xb2; 97; 146] in
  text utf8_form [0xd1; 0x61; 0xd2] = Some s /\ whole (opened ei_utf8 ei_tcvn 0) s u 0 /\ whole (opened ei_tcvn ei_utf8 0) u s 0.
Proof.
  cbv zeta. match goal with |- ?A /\ ?B /\ _ => assert (X : A) by reflexivity; assert (Y : B) by wrun 60%nat; split; [exact X|]; split; [exact Y|] end.
  eapply (C38_holding_round_trip ei_tcvn _ 0 _ _ _ ltac:(cbn; tauto)); [inp|inp|exact X|keep|exact Y].
Qed.
(** U+304B U+309A, U+304B, "a", U+00E6 U+0300, U+00E6 *)
Example C38_jp3_case : let s := [0xe3; 0x81; 0x8b; 0xe3; 0x82; 0x9a; 0xe3; 0x81; 0x8b; 0x61; 0xc3; 0xa6; 0xcc; 0x80; 0xc3; 0xa6] in
  let u := [27; 36; 40; 81; 36; 119; 27; 36; 66; 36; 43; 27; 40; 66; 97; 27; 36; 40; 81; 43; 68; 41; 92; 27; 40; 66] in
  text utf8_form [0x304b; 0x309a; 0x304b; 0x61; 0xe6; 0x300; 0xe6] = Some s /\ whole (opened ei_utf8 ei_iso2022_jp3 0) s u 0 /\ whole (opened ei_iso2022_jp3 ei_utf8 0) u s 0.
Proof.
  cbv zeta. match goal with |- ?A /\ ?B /\ _ => assert (X : A) by reflexivity; assert (Y : B) by wrun 80%nat; split; [exact X|]; split; [exact Y|] end.
  eapply (C38_holding_round_trip ei_iso2022_jp3 _ 0 _ _ _ ltac:(cbn; tauto)); [inp|inp|exact X|keep|exact Y].
Qed.
(** The characters left out do not come back: CP1258 joins "A" and U+0301 to U+00C1 when reading; TCVN writes U+00B4 as a space and U+0301. *)
Theorem C38_cp1258_mark_refuted : whole (opened ei_utf8 ei_cp1258 0) [0x41; 0xcc; 0x81] [0x41; 0xec] 0 /\ whole (opened ei_cp1258 ei_utf8 0) [0x41; 0xec] [0xc3; 0x81] 0.
Proof. split; wrun 20%nat. Qed.
Theorem C38_tcvn_accent_refuted : whole (opened ei_utf8 ei_tcvn 0) [0xc2; 0xb4] [0x20; 0xb3] 0 /\ whole (opened ei_tcvn ei_utf8 0) [0x20; 0xb3] [0x20; 0xcc; 0x81] 0.
Proof. split; wrun 20%nat. Qed.
