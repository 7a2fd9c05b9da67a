(** Property C37, continued: GB18030. *)
From Coq Require Import ZArith List Bool Lia.
From Verif Require Import Base Indexes Loop Contract LoopLib LoopProps Spec SpecProps Encodings Api AllOk Public Demo UniSpec UniProps C_iconv C_api C_uni Whole C_comb
  CharLib C_char Round RtLib Rt_gb18030 C_state.
Import ListNotations.
Open Scope Z_scope.

(** A text that converts to UTF-8 without loss has a GB18030 (2022) form, and that form stands for it: converting it to any encoding gives what
    converting the original does. *)
Theorem C37_gb18030_reads_back : forall a b flags s u v out n, source a -> target b -> input s -> input u ->
  whole (opened a ei_utf8 flags) s v 0 -> whole (opened a ei_gb18030_2022 flags) s u 0 ->
  (whole (opened a b flags) s out n <-> whole (opened ei_gb18030_2022 b flags) u out n).
Proof.
  intros a b flags s u v out n Sa Tb I1 I2 W W'. apply (scalar_pivot a ei_gb18030_2022 b enc_gb18030_2022 flags s u v out n); auto; [apply targetb_ok; reflexivity|apply sourceb_ok; reflexivity|exact gb18030_carries].
Qed.
Theorem C37_gb18030_expresses_everything : forall a flags s v, source a -> input s -> whole (opened a ei_utf8 flags) s v 0 ->
  exists u, whole (opened a ei_gb18030_2022 flags) s u 0 /\ (input u -> whole (opened ei_gb18030_2022 ei_utf8 flags) u v 0).
Proof.
  intros a flags s v Sa I W.
  destruct (scalar_expressed a ei_gb18030_2022 enc_gb18030_2022 flags s v (fun o => o = 0)) as (u & U); auto using gb18030_expresses; [apply targetb_ok; reflexivity|].
  exists u. split; [exact U|]. intros Iu. apply (C37_gb18030_reads_back a ei_utf8 flags s u v v 0); auto. apply targetb_ok; reflexivity.
Qed.
Theorem C37_gb18030_round_trip : forall flags s cs, input s -> text utf8_form cs = Some s ->
  exists u, whole (opened ei_utf8 ei_gb18030_2022 flags) s u 0 /\ (input u -> whole (opened ei_gb18030_2022 ei_utf8 flags) u s 0).
Proof.
  intros flags s cs I T. apply (C37_gb18030_expresses_everything ei_utf8 flags s s); [apply sourceb_ok; reflexivity|exact I|]. eapply utf8_same; eauto.
Qed.
(** "a", U+4E2D, U+1F600, U+E78D, "é" *)
Example C37_gb18030_case : let s := [0x61; 0xe4; 0xb8; 0xad; 0xf0; 0x9f; 0x98; 0x80; 0xee; 0x9e; 0x8d; 0xc3; 0xa9] in
  let u := [97; 214; 208; 148; 57; 252; 54; 132; 49; 130; 54; 168; 166] in
  text utf8_form [0x61; 0x4e2d; 0x1f600; 0xe78d; 0xe9] = Some s /\ whole (opened ei_utf8 ei_gb18030_2022 0) s u 0 /\ whole (opened ei_gb18030_2022 ei_utf8 0) u s 0.
Proof.
  cbv zeta. match goal with |- ?A /\ ?B /\ _ => assert (X : A) by reflexivity; assert (Y : B) by wrun 60%nat; split; [exact X|]; split; [exact Y|] end.
  apply (C37_gb18030_reads_back ei_utf8 ei_utf8 0 [0x61; 0xe4; 0xb8; 0xad; 0xf0; 0x9f; 0x98; 0x80; 0xee; 0x9e; 0x8d; 0xc3; 0xa9] _ [0x61; 0xe4; 0xb8; 0xad; 0xf0; 0x9f; 0x98; 0x80; 0xee; 0x9e; 0x8d; 0xc3; 0xa9]);
    [apply sourceb_ok; reflexivity|apply targetb_ok; reflexivity|inp|inp|wrun 60%nat|exact Y|wrun 60%nat].
Qed.
