(** C39: which characters a conversion delivers. *)
From Coq Require Import ZArith List Bool Lia.
From Verif Require Import Base Indexes Loop Contract LoopLib LoopProps Spec SpecProps Encodings Api AllOk Public Demo UniSpec UniProps Charmap CharLib Tables C_iconv C_api C_uni C_char Whole C_comb Round.
Import ListNotations.
Open Scope Z_scope.

(** The encodings whose characters are all Unicode scalar values: those with a charmap, and the Unicode forms other than UCS-4. *)
Definition ucs4_forms : list Z := [ei_ucs4be; ei_ucs4le; ei_ucs4internal; ei_ucs4swapped].
Definition scalar_sources : list Z := map (fun x => fst (fst x)) tables ++ filter (fun i => negb (existsb (Z.eqb i) ucs4_forms)) (map fst forms).

Definition map_scalar (m : charmap) : bool := forallb (fun r => forallb (fun c => if c <? 0 then true else scalar c) (snd r)) m.
Lemma tables_scalar : forallb (fun x => map_scalar (snd (fst x))) tables = true.
Proof. vm_compute. reflexivity. Qed.
Lemma nth_char_in : forall l i c, nth_char l i = Some c -> In c l /\ 0 <= c.
Proof.
  induction l as [|x l IH]; cbn [nth_char]; intros i c H; [discriminate|]. destruct (i =? 0).
  - destruct (Z.ltb_spec x 0); [discriminate|]. injection H as <-. split; [now left|assumption].
  - destruct (IH _ _ H). split; [now right|assumption].
Qed.
Lemma map_scalar_ok : forall m c bs, map_scalar m = true -> stands_for m c bs -> scalar c = true.
Proof.
  intros m c bs H S. destruct (char_of_some m bs c S) as (p & b & _ & G). destruct (char_at_in _ _ _ _ G) as (st & cs & I & _ & N).
  unfold map_scalar in H. rewrite forallb_forall in H. specialize (H _ I). cbn [snd] in H. rewrite forallb_forall in H.
  destruct (nth_char_in _ _ _ N) as (J & P). specialize (H _ J). destruct (Z.ltb_spec c 0); [lia|exact H].
Qed.
Lemma forms_scalar : forall i F c bs, In (i, F) forms -> ~ In i ucs4_forms -> F c = Some bs -> scalar c = true.
Proof.
  intros i F c bs H N E. unfold forms in H. cbn [In] in H.
  repeat (destruct H as [H|H]; [injection H as <- <-;
    first [ exfalso; apply N; unfold ucs4_forms; cbn [In]; tauto
          | unfold utf8_form, utf16be_form, utf16le_form, utf32be_form, utf32le_form, ucs2be_form, ucs2le_form, ascii_form, latin1_form in E;
            destruct (scalar c) eqn:Q; [reflexivity|exfalso; unfold scalar in Q; cbn [andb] in E;
              first [discriminate E | match type of E with context [if ?b then _ else _] => destruct b eqn:B; [|discriminate E] end; lia]] ]|]).
  destruct H.
Qed.
Lemma scalar_reads_as : forall i, In i scalar_sources -> exists D, reads_as i D /\ forall c bs, D c bs -> scalar c = true.
Proof.
  intros i H. unfold scalar_sources in H. apply in_app_or in H. destruct H as [H|H].
  - apply in_map_iff in H. destruct H as (((j & m) & irr) & <- & I). cbn [fst]. exists (stands_for m). split; [econstructor; exact I|].
    intros c bs. apply map_scalar_ok. pose proof tables_scalar as T. rewrite forallb_forall in T. exact (T _ I).
  - apply filter_In in H. destruct H as (H & N). apply in_map_iff in H. destruct H as ((j & F) & <- & I). cbn [fst] in *.
    exists (fun c bs => F c = Some bs). split; [now constructor|]. intros c bs. apply (forms_scalar j F c bs I). intros X.
    apply negb_true_iff in N. rewrite <- not_true_iff_false in N. apply N. apply existsb_exists. exists j. split; [exact X|apply Z.eqb_refl].
Qed.
Lemma reads_scalar : forall f u skip D, decodes f D -> (forall c bs, D c bs -> scalar c = true) -> forall s i cs st r i', reads f u skip s i cs st r i' ->
  bytes s -> Z.of_nat (length s) <= LIM -> Forall (fun c => scalar c = true) cs.
Proof.
  intros f u skip D M P s i cs st r i' R.
  assert (S : forall k s, bytes s -> Z.of_nat (length s) <= LIM -> bytes (skipn k s) /\ Z.of_nat (length (skipn k s)) <= LIM).
  { intros k t B L. split; [now apply Forall_skipn|]. rewrite skipn_length. lia. }
  induction R; intros B L; try constructor.
  - destruct (de_only f D M s i k wc i1 B H L H0) as (X & _). exact (P _ _ X).
  - apply IHR; now apply S.
  - apply IHR; now apply S.
  - apply IHR; now apply S.
Qed.
Lemma rd_scalar : forall cd s cs st r i, reachable cd -> In (iindex cd) scalar_sources -> input s -> rd cd s cs st r i -> Forall (fun c => scalar c = true) cs.
Proof.
  intros cd s cs st r i H I (B & L) R. destruct (scalar_reads_as _ I) as (D & RA & P). eapply reads_scalar; [eapply source_decodes; eauto|exact P|exact R|exact B|exact L].
Qed.
Lemma no_held : forall cd i, reachable cd -> In (iindex cd) scalar_sources -> held (ifuncs cd) i = [].
Proof.
  intros cd i H I. destruct (scalar_reads_as _ I) as (D & RA & _). unfold held. now rewrite (de_flush _ _ (source_decodes cd D H RA)).
Qed.

(** The forms that have all scalar values, and no limit beyond that (UCS-4 can write anything). *)
Definition narrow_forms : list Z := [ei_ascii; ei_ucs2be; ei_ucs2le; ei_ucs2internal; ei_ucs2swapped; ei_iso8859_1].
Lemma wide_form : forall e F c, In (e, F) forms -> ~ In e narrow_forms -> scalar c = true -> F c <> None.
Proof.
  intros e F c H N S. unfold forms in H. cbn [In] in H.
  repeat (destruct H as [H|H]; [injection H as <- <-;
    first [ exfalso; apply N; unfold narrow_forms; cbn [In]; tauto
          | unfold utf8_form, utf16be_form, utf16le_form, utf32be_form, utf32le_form; rewrite S; discriminate
          | unfold ucs4be_form, ucs4le_form; unfold scalar in S; match goal with |- context [if ?b then _ else _] => destruct b eqn:B; [discriminate|lia] end ]|]).
  destruct H.
Qed.
Lemma wide_text : forall e F cs, In (e, F) forms -> ~ In e narrow_forms -> Forall (fun c => scalar c = true) cs -> exists v, text F cs = Some v.
Proof.
  intros e F cs H N. induction cs as [|c cs IH]; intros S; [now exists []|]. inversion S as [|? ? S1 S2]; subst. destruct (IH S2) as (v & E). cbn. rewrite E.
  pose proof (wide_form e F c H N S1). destruct (F c); [eauto|congruence].
Qed.
Lemma wide_wr : forall cd F cs out n o bad, reachable cd -> In (oindex cd, F) forms -> ~ In (oindex cd) narrow_forms -> Forall (fun c => scalar c = true) cs ->
  wr cd cs = (out, n, o, bad) -> n = 0%nat /\ bad = [] /\ text F cs = Some out.
Proof.
  intros cd F cs out n o bad H I N S W. destruct (wide_text _ F cs I N S) as (v & E). unfold wr in W.
  rewrite (wr_text _ (skipping cd) F cs v (ostate cd) (target_form cd F H I) E) in W. inversion W; subst. auto.
Qed.

(** Whatever is converted from such an encoding to a Unicode form is text of Unicode scalar values; nothing is lost; the only illegal sequences are
    those that stand for no character. *)
Theorem C39_each_call : forall cd F s outb outleft r, reachable cd -> In (iindex cd) scalar_sources -> In (oindex cd, F) forms -> ~ In (oindex cd) narrow_forms ->
  input s -> (outleft <= length outb)%nat -> reiconv_iconv cd (Some s) (Some outb) outleft = Ok r ->
  (exists cs, Forall (fun c => scalar c = true) cs /\ text F cs = Some (produced r)) /\
  match r_ret r with
  | Num m => m = 0%nat
  | Err EILSEQ => forall D, reads_as (iindex cd) D -> ~ begins D (r_in r)
  | _ => True
  end.
Proof.
  intros cd F s outb outleft r H I O N In_ R E.
  destruct (iconv_meets_spec cd s outb outleft H In_ R) as (r' & E' & S & H'). rewrite E in E'. inversion E'; subst r'; clear E'.
  destruct S as (_ & _ & _ & _ & SD & cs1 & cs2 & st & rest & i' & n & R1 & W & X).
  pose proof (rd_scalar cd s _ _ _ _ H I In_ R1) as Sc. apply Forall_app in Sc. destruct Sc as (Sc1 & Sc2).
  destruct (wide_wr cd F cs1 _ _ _ _ H O N Sc1 W) as (-> & _ & T). split; [eauto|].
  destruct (r_ret r) as [m|[]] eqn:Er; try exact Logic.I; [tauto|]. intros D RA B.
  destruct (skipping cd) eqn:K.
  { destruct X as (K' & _). congruence. }
  destruct (char_decoding cd D s outb outleft r H RA K In_ R E) as (cs & pre & n' & _ & _ & _ & Y). rewrite Er in Y.
  destruct Y as [(_ & Y & _)|(c & bs & t & Dc & _ & Wc)]; [exact (Y B)|].
  destruct (scalar_reads_as _ I) as (D' & RA' & P).
  pose proof (source_decodes cd D H RA) as M0. pose proof (source_decodes cd D' H RA') as M'.
  assert (Sc : scalar c = true).
  { destruct (de_pos _ _ M0 c bs Dc) as (Nb & Bb & Lb).
    assert (L4 : Z.of_nat (length (bs ++ [])) <= LIM) by (rewrite app_nil_r; unfold LIM; lia).
    pose proof (de_char _ _ M0 c bs [] (0, 0) Dc ltac:(constructor) L4) as Dd. rewrite app_nil_r in *.
    destruct (de_only _ _ M' bs (0, 0) _ c _ Bb Nb L4 Dd) as (Q & _). exact (P _ _ Q). }
  pose proof (wide_form _ F c O N Sc) as Fc. destruct (F c) as [x|] eqn:Ex; [|congruence].
  pose proof (target_form cd F H O) as M. destruct (im_pos _ _ M c x Ex) as (_ & _ & U & _).
  unfold write1 in Wc. rewrite (im_enc _ F M c _ U), Ex in Wc. discriminate.
Qed.
Lemma scalar_source : forall a, In a scalar_sources -> source a.
Proof.
  intros a H. assert (A : forallb sourceb scalar_sources = true) by (vm_compute; reflexivity). rewrite forallb_forall in A. apply sourceb_ok. now apply A.
Qed.
Lemma form_target : forall e F, In (e, F) forms -> target e.
Proof.
  intros e F H. assert (A : forallb (fun x => targetb (fst x)) forms = true) by (vm_compute; reflexivity). rewrite forallb_forall in A. apply targetb_ok. now apply (A _ H).
Qed.
Lemma opened_reachable : forall a e flags, source a -> target e -> reachable (opened a e flags).
Proof.
  intros a e flags Sa Te. pose proof (proj1 Sa) as Ra. pose proof (proj1 Te) as Re. rewrite num_encodings in Ra, Re.
  eapply reach_open; [exact Sa|exact Te|]. apply open_ok; lia.
Qed.
Theorem C39_whole_text : forall a e F flags s v n, In a scalar_sources -> In (e, F) forms -> ~ In e narrow_forms -> input s ->
  whole (opened a e flags) s v n -> n = 0%nat /\ exists cs, Forall (fun c => scalar c = true) cs /\ text F cs = Some v.
Proof.
  intros a e F flags s v n Ia Ie N I W. pose proof (scalar_source a Ia) as Sa. pose proof (form_target e F Ie) as Te.
  pose proof (opened_reachable a e flags Sa Te) as H.
  pose proof (proj1 Sa) as Ra. pose proof (proj1 Te) as Re. rewrite num_encodings in Ra, Re. change (Z.of_nat 198) with 198 in *.
  destruct (opened_index a e flags) as (A1 & A2 & A3 & A4 & A5 & A6 & A7); auto.
  apply whole_iff in W; auto. destruct W as (cs & i & bs & o & R & W & ->).
  assert (Ia' : In (iindex (opened a e flags)) scalar_sources) by now rewrite A1.
  rewrite (no_held _ _ H Ia'), app_nil_r in W. pose proof (rd_scalar _ s _ _ _ _ H Ia' I R) as Sc.
  destruct (wide_wr _ F cs _ _ _ _ H ltac:(rewrite A2; exact Ie) ltac:(rewrite A2; exact N) Sc W) as (-> & _ & T). split; [reflexivity|].
  exists cs. split; [exact Sc|]. destruct (forms_stateless _ _ _ Ie A4) as (_ & Z). unfold closing. rewrite Z. now rewrite app_nil_r.
Qed.
(** So UTF-8 is a pivot for every text in these encodings. *)
Theorem C39_pivot : forall a b flags s u m out n, In a scalar_sources -> target b -> input s -> input u ->
  whole (opened a ei_utf8 flags) s u m -> (whole (opened a b flags) s out n <-> whole (opened ei_utf8 b flags) u out n).
Proof.
  intros a b flags s u m out n Ia Tb I1 I2 W. assert (F8 : In (ei_utf8, utf8_form) forms) by (cbn; tauto).
  assert (N8 : ~ In ei_utf8 narrow_forms) by (cbn; intros X; repeat (destruct X as [X|X]; [discriminate X|]); exact X).
  destruct (C39_whole_text a ei_utf8 utf8_form flags s u m Ia F8 N8 I1 W) as (-> & _).
  apply C40_utf8_pivot; auto. now apply scalar_source.
Qed.

(** Shift_JIS, CP1252 and UTF-16LE are among them. *)
Example C39_sources : In ei_sjis scalar_sources /\ In ei_cp1252 scalar_sources /\ In ei_utf16le scalar_sources /\ length scalar_sources = 163%nat.
Proof. vm_compute. tauto. Qed.
Example C39_case : exists v cs, whole (opened ei_sjis ei_ucs4be 0) [0x82; 0xa0; 0x61] v 0 /\ Forall (fun c => scalar c = true) cs /\ text ucs4be_form cs = Some v /\ cs = [0x3042; 0x61].
Proof.
  exists [0; 0; 0x30; 0x42; 0; 0; 0; 0x61], [0x3042; 0x61]. split; [wrun 60%nat|]. split; [repeat constructor|]. split; reflexivity.
Qed.

(** It does not hold for UCS-4, UTF-7 and C99: a value above 10FFFF, a lone surrogate, and a value above 10FFFF from
    an escape with a letter that is no hexadecimal digit. *)
Theorem C39_ucs4_refuted : whole (opened ei_ucs4be ei_ucs4le 0) [0; 0x11; 0; 0] [0; 0; 0x11; 0] 0.
Proof. wrun 32%nat. Qed.
Theorem C39_utf7_refuted : whole (opened ei_utf7 ei_ucs4be 0) [0x2b; 0x33; 0x41; 0x41; 0x2d] [0; 0; 0xdc; 0] 0.
Proof. wrun 32%nat. Qed.
Theorem C39_c99_refuted : whole (opened ei_c99 ei_ucs4be 0) [0x5c; 0x55; 0x5a; 0x38; 0x30; 0x30; 0x30; 0x30; 0x30; 0x30] [0x38; 0; 0; 0] 0.
Proof. wrun 32%nat. Qed.
