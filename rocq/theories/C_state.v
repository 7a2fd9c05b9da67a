(** Property C38: texts in encodings with escape sequences read back. *)
From Coq Require Import ZArith List Bool Lia.
From Verif Require Import Base Indexes Loop Contract LoopLib LoopProps Spec SpecProps Encodings Api AllOk Public Demo UniSpec UniProps C_iconv C_api C_uni Whole C_comb
  CharLib C_char Round RtLib Rt_kr Rt_jp Rt_jp2 Rt_cn Rt_cnext Rt_jpms.
Import ListNotations.
Open Scope Z_scope.

(** The encodings and the characters that steer them: ESC, shift out, shift in; for HZ the tilde. *)
Definition escaped : list (Z * list Z) :=
  [(ei_iso2022_jp, [0x0e; 0x0f; 0x1b]); (ei_iso2022_jp1, [0x0e; 0x0f; 0x1b]); (ei_iso2022_jp2, [0x1b]); (ei_iso2022_kr, [0x0e; 0x0f; 0x1b]);
   (ei_iso2022_cn, [0x0e; 0x0f; 0x1b]); (ei_iso2022_cn_ext, [0x0e; 0x0f; 0x1b]); (ei_hz, [0x7e])].
Lemma escaped_carries : forall e steer, In (e, steer) escaped -> exists f, nth_error all_encodings (Z.to_nat e) = Some f /\ carries f (plain steer) /\ target e /\ source e.
Proof.
  intros e steer H. unfold escaped in H. cbn [In] in H.
  repeat (destruct H as [H|H]; [injection H as <- <-; eexists; split; [reflexivity|]; split; [|split; [apply targetb_ok|apply sourceb_ok]; reflexivity]|]); [..|contradiction].
  - exact Rt_jp.iso2022_jp_carries.
  - exact Rt_jp.iso2022_jp1_carries.
  - exact iso2022_jp2_carries.
  - exact iso2022_kr_carries.
  - exact iso2022_cn_carries.
  - exact iso2022_cn_ext_carries.
  - exact hz_carries.
Qed.
Lemma text_kept : forall a e flags s v cs P, source a -> target e -> input s -> whole (opened a ei_utf8 flags) s v 0 -> text utf8_form cs = Some v ->
  Forall P cs -> forall cs0 i, rd (opened a e flags) s cs0 AtEnd [] i -> Forall (fun c => scalar c = true /\ P c) (cs0 ++ held (ifuncs (opened a e flags)) (fst i)).
Proof.
  intros a e flags s v cs P Sa Te I W T F cs0 i R. pose proof (chars_text a e flags s v Sa Te I W cs0 i R) as X.
  rewrite <- (form_text_det enc_utf8 utf8_form _ _ _ utf8_implements T X). apply Forall_forall. intros c Hc.
  pose proof (text_scalar _ _ T) as S. rewrite Forall_forall in S, F. split; auto.
Qed.
(** A text that converts to UTF-8 without loss, has no tags and no character that steers the encoding, and was converted to it without loss:
    converting the result to any encoding gives what converting the original does. *)
Theorem C38_escaped_reads_back : forall a e steer b flags s u v cs out n, In (e, steer) escaped -> source a -> target b -> input s -> input u ->
  whole (opened a ei_utf8 flags) s v 0 -> text utf8_form cs = Some v -> Forall (fun c => tag c = false /\ ~ In c steer) cs ->
  whole (opened a e flags) s u 0 -> (whole (opened a b flags) s out n <-> whole (opened e b flags) u out n).
Proof.
  intros a e steer b flags s u v cs out n H Sa Tb I1 I2 W8 T F W. destruct (escaped_carries e steer H) as (f & Nf & C & Te & Se).
  eapply (pivot a e b f (plain steer)); eauto. intros cs0 i R. eapply Forall_impl; [|exact (text_kept a e flags s v cs _ Sa Te I1 W8 T F cs0 i R)].
  intros c (A & B & D). repeat split; auto.
Qed.
(** ISO-2022-JP-MS: the same, but for U+301D and U+E178..U+E2EF. *)
Theorem C38_jpms_reads_back : forall a b flags s u v cs out n, source a -> target b -> input s -> input u ->
  whole (opened a ei_utf8 flags) s v 0 -> text utf8_form cs = Some v ->
  Forall (fun c => tag c = false /\ ~ In c [0x0e; 0x0f; 0x1b; 0x301d] /\ ~ (0xe178 <= c < 0xe2f0)) cs ->
  whole (opened a ei_iso2022_jpms flags) s u 0 -> (whole (opened a b flags) s out n <-> whole (opened ei_iso2022_jpms b flags) u out n).
Proof.
  intros a b flags s u v cs out n Sa Tb I1 I2 W8 T F W.
  assert (Te : target ei_iso2022_jpms) by (apply targetb_ok; reflexivity). assert (Se : source ei_iso2022_jpms) by (apply sourceb_ok; reflexivity).
  eapply (pivot a ei_iso2022_jpms b _ jpms_text); eauto; [reflexivity|exact iso2022_jpms_carries|].
  intros cs0 i R. eapply Forall_impl; [|exact (text_kept a ei_iso2022_jpms flags s v cs _ Sa Te I1 W8 T F cs0 i R)].
  intros c (A & B & D & E). repeat split; auto.
Qed.
Lemma utf8_same : forall flags s cs, input s -> text utf8_form cs = Some s -> whole (opened ei_utf8 ei_utf8 flags) s s 0.
Proof.
  intros flags s cs I T. destruct (opened_index ei_utf8 ei_utf8 flags) as (A1 & A2 & A3 & A4 & A5 & A6 & A7); try (unfold ei_utf8; lia).
  assert (H : reachable (opened ei_utf8 ei_utf8 flags)).
  { apply (reach_open ei_utf8 ei_utf8 flags); [apply sourceb_ok; reflexivity|apply targetb_ok; reflexivity|]. apply open_ok; unfold ei_utf8; lia. }
  apply whole_iff; [exact H|exact I|]. pose proof (rd_text _ utf8_form cs s H ltac:(rewrite A1; cbn; auto) T) as R.
  pose proof (C31_utf8_encoding _ cs s H A2 T) as W.
  exists cs, (cd_i (opened ei_utf8 ei_utf8 flags)), s, (ostate (opened ei_utf8 ei_utf8 flags)).
  change (ifuncs (opened ei_utf8 ei_utf8 flags)) with enc_utf8. change (ofuncs (opened ei_utf8 ei_utf8 flags)) with enc_utf8. change (held enc_utf8 (fst (cd_i (opened ei_utf8 ei_utf8 flags)))) with (@nil Z). change (closing enc_utf8 (ostate (opened ei_utf8 ei_utf8 flags))) with (@nil Z).
  rewrite !app_nil_r. auto.
Qed.
(** From UTF-8 and back. *)
Theorem C38_escaped_round_trip : forall e steer flags s u cs, In (e, steer) escaped -> input s -> input u -> text utf8_form cs = Some s ->
  Forall (fun c => tag c = false /\ ~ In c steer) cs -> whole (opened ei_utf8 e flags) s u 0 -> whole (opened e ei_utf8 flags) u s 0.
Proof.
  intros e steer flags s u cs H I1 I2 T F W.
  assert (W8 : whole (opened ei_utf8 ei_utf8 flags) s s 0) by (eapply utf8_same; eauto).
  apply (C38_escaped_reads_back ei_utf8 e steer ei_utf8 flags s u s cs s 0); auto; [apply sourceb_ok|apply targetb_ok]; reflexivity.
Qed.
Theorem C38_jpms_round_trip : forall flags s u cs, input s -> input u -> text utf8_form cs = Some s ->
  Forall (fun c => tag c = false /\ ~ In c [0x0e; 0x0f; 0x1b; 0x301d] /\ ~ (0xe178 <= c < 0xe2f0)) cs ->
  whole (opened ei_utf8 ei_iso2022_jpms flags) s u 0 -> whole (opened ei_iso2022_jpms ei_utf8 flags) u s 0.
Proof.
  intros flags s u cs I1 I2 T F W. pose proof (utf8_same flags s cs I1 T) as W8.
  apply (C38_jpms_reads_back ei_utf8 ei_utf8 flags s u s cs s 0); auto; [apply sourceb_ok|apply targetb_ok]; reflexivity.
Qed.
(** "aあé한" *)
Ltac keep := repeat (constructor; [split; [reflexivity|cbn; intuition lia]|]); constructor.
Example C38_jp2_case : let s := [0x61; 0xe3; 0x81; 0x82; 0xc3; 0xa9; 0xed; 0x95; 0x9c] in
  let u := [97; 27; 36; 66; 36; 34; 27; 36; 40; 68; 43; 49; 27; 36; 40; 67; 71; 81; 27; 40; 66] in
  whole (opened ei_utf8 ei_iso2022_jp2 0) s u 0 /\ text utf8_form [0x61; 0x3042; 0xe9; 0xd55c] = Some s /\ whole (opened ei_iso2022_jp2 ei_utf8 0) u s 0.
Proof.
  cbv zeta. match goal with |- ?A /\ ?B /\ _ => assert (X : A) by wrun 60%nat; assert (Y : B) by reflexivity; split; [exact X|]; split; [exact Y|] end.
  eapply (C38_escaped_round_trip ei_iso2022_jp2 [0x1b] 0 _ _ _ ltac:(cbn; tauto)); [inp|inp|exact Y|keep|exact X].
Qed.
(** "中a乂丨\n中" *)
Example C38_cn_ext_case : let s := [228; 184; 173; 97; 228; 185; 130; 228; 184; 168; 10; 228; 184; 173] in
  let u := [27; 36; 41; 65; 14; 86; 80; 15; 97; 27; 36; 42; 72; 27; 78; 33; 33; 14; 88; 45; 15; 10; 27; 36; 41; 65; 14; 86; 80; 15] in
  whole (opened ei_utf8 ei_iso2022_cn_ext 0) s u 0 /\ text utf8_form [0x4e2d; 0x61; 0x4e42; 0x4e28; 10; 0x4e2d] = Some s /\ whole (opened ei_iso2022_cn_ext ei_utf8 0) u s 0.
Proof.
  cbv zeta. match goal with |- ?A /\ ?B /\ _ => assert (X : A) by wrun 60%nat; assert (Y : B) by reflexivity; split; [exact X|]; split; [exact Y|] end.
  eapply (C38_escaped_round_trip ei_iso2022_cn_ext _ 0 _ _ _ ltac:(cbn; tauto)); [inp|inp|exact Y|keep|exact X].
Qed.
(** "a한\n한" *)
Example C38_kr_case : let s := [97; 237; 149; 156; 10; 237; 149; 156] in let u := [97; 27; 36; 41; 67; 14; 71; 81; 15; 10; 27; 36; 41; 67; 14; 71; 81; 15] in
  whole (opened ei_utf8 ei_iso2022_kr 0) s u 0 /\ text utf8_form [0x61; 0xd55c; 10; 0xd55c] = Some s /\ whole (opened ei_iso2022_kr ei_utf8 0) u s 0.
Proof.
  cbv zeta. match goal with |- ?A /\ ?B /\ _ => assert (X : A) by wrun 60%nat; assert (Y : B) by reflexivity; split; [exact X|]; split; [exact Y|] end.
  eapply (C38_escaped_round_trip ei_iso2022_kr _ 0 _ _ _ ltac:(cbn; tauto)); [inp|inp|exact Y|keep|exact X].
Qed.
(** "aｱ①" *)
Example C38_jpms_case : let s := [0x61; 0xef; 0xbd; 0xb1; 0xe2; 0x91; 0xa0] in let u := [97; 27; 40; 73; 49; 27; 36; 66; 45; 33; 27; 40; 66] in
  whole (opened ei_utf8 ei_iso2022_jpms 0) s u 0 /\ text utf8_form [0x61; 0xff71; 0x2460] = Some s /\ whole (opened ei_iso2022_jpms ei_utf8 0) u s 0.
Proof.
  cbv zeta. match goal with |- ?A /\ ?B /\ _ => assert (X : A) by wrun 60%nat; assert (Y : B) by reflexivity; split; [exact X|]; split; [exact Y|] end.
  eapply (C38_jpms_round_trip 0); [inp|inp|exact Y|keep|exact X].
Qed.
(** The characters left out do not come back: HZ writes a tilde as it is, so that "~{" turns into the start of Chinese text;
    ISO-2022-JP writes ESC as it is; ISO-2022-JP-MS reads U+301D back as U+301E. *)
Theorem C38_hz_tilde_refuted : whole (opened ei_utf8 ei_hz 0) [0x7e; 0x7b] [0x7e; 0x7b] 0 /\ whole (opened ei_hz ei_utf8 0) [0x7e; 0x7b] [] 0.
Proof. split; wrun 20%nat. Qed.
Theorem C38_escape_refuted : whole (opened ei_utf8 ei_iso2022_jp 0) [0x1b; 0x28; 0x42] [0x1b; 0x28; 0x42] 0 /\ whole (opened ei_iso2022_jp ei_utf8 0) [0x1b; 0x28; 0x42] [] 0.
Proof. split; wrun 20%nat. Qed.
Theorem C38_jpms_quote_refuted : whole (opened ei_utf8 ei_iso2022_jpms 0) [0xe3; 0x80; 0x9d] [27; 36; 66; 45; 96; 27; 40; 66] 0 /\
  whole (opened ei_iso2022_jpms ei_utf8 0) [27; 36; 66; 45; 96; 27; 40; 66] [0xe3; 0x80; 0x9e] 0.
Proof. split; wrun 20%nat. Qed.
