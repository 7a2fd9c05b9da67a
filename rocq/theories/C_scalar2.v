(** C39 for the remaining encodings without held characters: byte order marks, Java, ISO-2022, HZ, EUC-TW, CP943, GB18030 and the bare character sets. *)
From Coq Require Import ZArith List Bool Lia.
From Verif Require Import Base Indexes Loop Contract LoopLib LoopProps Spec SpecProps Encodings Api AllOk Public Demo UniSpec UniProps Charmap CharLib Tables C_iconv C_api C_uni C_char Whole C_comb Round
  Conv_uni Conv_iso2022 ScLib Sc_sets Sc_iso Sc_uni Sc_gb C_scalar.
Import ListNotations.
Open Scope Z_scope.

Lemma sc_mb0 : forall g s n i b, scp p2 (g s n) -> scp p4 (mb0 g s n i b).
Proof. intros g s n i b H. unfold mb0. destruct (g s n) as [(c, o)| | |]; try exact I. exact H. Qed.
(** A decoder that holds no character back and stores only scalar values. *)
Definition plain (f : funcs) : Prop := f_flush f = None /\ forall s i, bytes s -> scp p4 (f_mb f s (length s) (fst i) (snd i)).
Definition more : list (Z * funcs) := [(ei_ucs2, enc_ucs2); (ei_utf16, enc_utf16); (ei_utf32, enc_utf32); (ei_java, enc_java); (ei_iso2022_jp, enc_iso2022_jp); (ei_iso2022_jp1, enc_iso2022_jp1); (ei_iso2022_jp2, enc_iso2022_jp2); (ei_iso2022_jpms, enc_iso2022_jpms); (ei_iso2022_cn, enc_iso2022_cn); (ei_iso2022_cn_ext, enc_iso2022_cn_ext); (ei_hz, enc_hz); (ei_euc_tw, enc_euc_tw); (ei_iso2022_kr, enc_iso2022_kr); (ei_jisx0208, enc_jisx0208); (ei_jisx0212, enc_jisx0212); (ei_gb2312, enc_gb2312); (ei_ksc5601, enc_ksc5601); (ei_cp943, enc_cp943); (ei_gb18030_2005, enc_gb18030_2005); (ei_gb18030_2022, enc_gb18030_2022)].
Definition more_sources : list Z := map fst more.
Lemma more_ok : Forall (fun x => nth_error all_encodings (Z.to_nat (fst x)) = Some (snd x) /\ plain (snd x)) more.
Proof.
  unfold more. repeat (apply Forall_cons; [split; [reflexivity|split; [reflexivity|]]; cbn [fst snd]; intros s i B|]); [..|constructor].
  - now apply sc_ucs2.
  - now apply sc_utf16.
  - now apply sc_utf32.
  - apply sc_mb0. now apply sc_java.
  - now apply sc_iso2022_jp.
  - now apply sc_iso2022_jp1.
  - now apply sc_iso2022_jp2.
  - now apply sc_iso2022_jpms.
  - now apply sc_iso2022_cn.
  - now apply sc_iso2022_cn_ext.
  - now apply sc_hz.
  - apply sc_mb0. now apply sc_euc_tw.
  - now apply sc_iso2022_kr.
  - apply sc_mb0. apply sc_jisx0208.
  - apply sc_mb0. apply sc_jisx0212.
  - apply sc_mb0. apply sc_gb2312.
  - apply sc_mb0. apply sc_ksc5601.
  - apply sc_mb0. now apply sc_cp932.
  - apply sc_mb0. now apply sc_gb18030_2005.
  - apply sc_mb0. now apply sc_gb18030_2022.
Qed.
Lemma more_plain : forall cd, reachable cd -> In (iindex cd) more_sources -> plain (ifuncs cd).
Proof.
  intros cd H I. destruct (source_funcs cd H) as (E & _). unfold more_sources in I. apply in_map_iff in I. destruct I as ((j & f) & J & I0). cbn [fst] in J. rewrite <- J in E.
  pose proof more_ok as A. rewrite Forall_forall in A. destruct (A _ I0) as (E' & P). cbn [fst snd] in *. rewrite E in E'. injection E' as ->. exact P.
Qed.
Lemma plain_reads : forall f u skip s i cs st r i', plain f -> reads f u skip s i cs st r i' -> bytes s -> Forall (fun c => scalar c = true) cs.
Proof.
  intros f u skip s i cs st r i' P R. induction R; intros B; try (constructor; fail); try (apply IHR; now apply bytes_skipn).
  constructor; [|apply IHR; now apply bytes_skipn].
  pose proof (proj2 P s i B) as S. unfold dec, dview in H0. destruct (f_mb f s (length s) (fst i) (snd i)) as [(((c, w), i2'), b)| | |]; try discriminate.
  cbn in S. destruct (c <? 0); [destruct (Z.even _); discriminate|]. destruct w as [w|]; [|discriminate]. injection H0 as <- <- _. exact S.
Qed.
Lemma plain_held : forall f i, plain f -> held f i = [].
Proof. intros f i (P & _). unfold held. now rewrite P. Qed.
(** All sources for which every delivered character is a scalar value. *)
Definition all_scalar_sources : list Z := scalar_sources ++ more_sources.
Lemma rd_scalar2 : forall cd s cs st r i, reachable cd -> In (iindex cd) all_scalar_sources -> input s -> rd cd s cs st r i -> Forall (fun c => scalar c = true) cs.
Proof.
  intros cd s cs st r i H I In_ R. apply in_app_or in I. destruct I as [I|I]; [eapply rd_scalar; eauto|].
  destruct In_ as (B & _). eapply (plain_reads (ifuncs cd)); [now apply more_plain|exact R|exact B].
Qed.
Lemma no_held2 : forall cd i, reachable cd -> In (iindex cd) all_scalar_sources -> held (ifuncs cd) i = [].
Proof. intros cd i H I. apply in_app_or in I. destruct I as [I|I]; [now apply no_held|]. apply plain_held. now apply more_plain. Qed.
Lemma scalar_source2 : forall a, In a all_scalar_sources -> source a.
Proof.
  intros a H. assert (A : forallb sourceb all_scalar_sources = true) by (vm_compute; reflexivity). rewrite forallb_forall in A. apply sourceb_ok. now apply A.
Qed.

(** What one call writes is text of scalar values, and no character is lost. *)
Theorem C39_each_call_all : forall cd F s outb outleft r, reachable cd -> In (iindex cd) all_scalar_sources -> In (oindex cd, F) forms -> ~ In (oindex cd) narrow_forms ->
  input s -> (outleft <= length outb)%nat -> reiconv_iconv cd (Some s) (Some outb) outleft = Ok r ->
  (exists cs, Forall (fun c => scalar c = true) cs /\ text F cs = Some (produced r)) /\ match r_ret r with Num m => m = 0%nat | _ => True end.
Proof.
  intros cd F s outb outleft r H I O N In_ R E.
  destruct (iconv_meets_spec cd s outb outleft H In_ R) as (r' & E' & S & H'). rewrite E in E'. inversion E'; subst r'; clear E'.
  destruct S as (_ & _ & _ & _ & SD & cs1 & cs2 & st & rest & i' & n & R1 & W & X).
  pose proof (rd_scalar2 cd s _ _ _ _ H I In_ R1) as Sc. apply Forall_app in Sc. destruct Sc as (Sc1 & Sc2).
  destruct (wide_wr cd F cs1 _ _ _ _ H O N Sc1 W) as (-> & _ & T). split; [eauto|]. destruct (r_ret r) as [m|]; [tauto|exact Logic.I].
Qed.
Theorem C39_whole_text_all : forall a e F flags s v n, In a all_scalar_sources -> In (e, F) forms -> ~ In e narrow_forms -> input s ->
  whole (opened a e flags) s v n -> n = 0%nat /\ exists cs, Forall (fun c => scalar c = true) cs /\ text F cs = Some v.
Proof.
  intros a e F flags s v n Ia Ie N I W. pose proof (scalar_source2 a Ia) as Sa. pose proof (form_target e F Ie) as Te.
  pose proof (opened_reachable a e flags Sa Te) as H.
  pose proof (proj1 Sa) as Ra. pose proof (proj1 Te) as Re. rewrite num_encodings in Ra, Re. change (Z.of_nat 198) with 198 in *.
  destruct (opened_index a e flags) as (A1 & A2 & A3 & A4 & A5 & A6 & A7); auto.
  apply whole_iff in W; auto. destruct W as (cs & i & bs & o & R & W & ->).
  assert (Ia' : In (iindex (opened a e flags)) all_scalar_sources) by now rewrite A1.
  rewrite (no_held2 _ _ H Ia'), app_nil_r in W. pose proof (rd_scalar2 _ s _ _ _ _ H Ia' I R) as Sc.
  destruct (wide_wr _ F cs _ _ _ _ H ltac:(rewrite A2; exact Ie) ltac:(rewrite A2; exact N) Sc W) as (-> & _ & T). split; [reflexivity|].
  exists cs. split; [exact Sc|]. destruct (forms_stateless _ _ _ Ie A4) as (_ & Z). unfold closing. rewrite Z. now rewrite app_nil_r.
Qed.
(** So UTF-8 is a pivot for every text in these encodings. *)
Theorem C39_pivot_all : forall a b flags s u m out n, In a all_scalar_sources -> target b -> input s -> input u ->
  whole (opened a ei_utf8 flags) s u m -> (whole (opened a b flags) s out n <-> whole (opened ei_utf8 b flags) u out n).
Proof.
  intros a b flags s u m out n Ia Tb I1 I2 W. assert (F8 : In (ei_utf8, utf8_form) forms) by (cbn; tauto).
  assert (N8 : ~ In ei_utf8 narrow_forms) by (cbn; intros X; repeat (destruct X as [X|X]; [discriminate X|]); exact X).
  destruct (C39_whole_text_all a ei_utf8 utf8_form flags s u m Ia F8 N8 I1 W) as (-> & _).
  apply C40_utf8_pivot; auto. now apply scalar_source2.
Qed.
(** ISO-2022-JP, HZ and UTF-16 are among them. *)
Example C39_sources_all : In ei_iso2022_jp all_scalar_sources /\ In ei_hz all_scalar_sources /\ In ei_utf16 all_scalar_sources /\ length (nodup Z.eq_dec all_scalar_sources) = 181%nat.
Proof. vm_compute. tauto. Qed.
Example C39_case_all : exists v cs, whole (opened ei_iso2022_jp ei_ucs4be 0) [0x1b; 0x24; 0x42; 0x24; 0x22; 0x1b; 0x28; 0x42; 0x61] v 0 /\ Forall (fun c => scalar c = true) cs /\ text ucs4be_form cs = Some v /\ cs = [0x3042; 0x61].
Proof.
  exists [0; 0; 0x30; 0x42; 0; 0; 0; 0x61], [0x3042; 0x61]. split; [wrun 60%nat|]. split; [repeat constructor|]. split; reflexivity.
Qed.
