(** Properties C30-C33: the Unicode encoding forms. *)
From Coq Require Import ZArith List Bool Lia.
From Verif Require Import Base Indexes Loop Contract LoopLib LoopProps Spec SpecProps Encodings Api AllOk Public Demo UniSpec UniProps C_iconv.
Import ListNotations.
Open Scope Z_scope.

(** The encodings that are given by a form of UniSpec.v. *)
Definition forms : list (Z * form) :=
  [(ei_ascii, ascii_form); (ei_utf8, utf8_form); (ei_ucs2be, ucs2be_form); (ei_ucs2le, ucs2le_form); (ei_ucs4be, ucs4be_form); (ei_ucs4le, ucs4le_form);
   (ei_utf16be, utf16be_form); (ei_utf16le, utf16le_form); (ei_utf32be, utf32be_form); (ei_utf32le, utf32le_form);
   (ei_ucs2internal, ucs2le_form); (ei_ucs2swapped, ucs2be_form); (ei_ucs4internal, ucs4le_form); (ei_ucs4swapped, ucs4be_form);
   (ei_iso8859_1, latin1_form)].

Lemma forms_implemented : forall i F, In (i, F) forms -> exists f, nth_error all_encodings (Z.to_nat i) = Some f /\ implements f F.
Proof.
  intros i F H.
  repeat (destruct H as [H|H]; [inversion H; subst i F; eexists; split; [reflexivity|]|]); [..|destruct H].
  - exact ascii_implements.
  - exact utf8_implements.
  - exact ucs2be_implements.
  - exact ucs2le_implements.
  - exact ucs4be_implements.
  - exact ucs4le_implements.
  - exact utf16be_implements.
  - exact utf16le_implements.
  - exact utf32be_implements.
  - exact utf32le_implements.
  - exact ucs2internal_implements.
  - exact ucs2swapped_implements.
  - exact ucs4internal_implements.
  - exact ucs4swapped_implements.
  - exact latin1_implements.
Qed.

(** Of a byte string: it begins with the bytes of a character; it could still become such a string. *)
Definition starts (F : form) (s : list Z) : Prop := exists c bs t, F c = Some bs /\ s = bs ++ t.
Definition unfinished (F : form) (s : list Z) : Prop := exists c bs t, F c = Some bs /\ bs = s ++ t.

(** ** Reading and writing with a form *)
Lemma reads_form : forall f u F inv pend, implements f F -> dec_ok f u inv pend ucs4 -> dec_stable f inv ->
  forall s i cs st r i', reads f u false s i cs st r i' -> inv i -> bytes s -> Z.of_nat (length s) <= LIM ->
  i' = i /\ exists pre, text F cs = Some pre /\ s = pre ++ r /\
   match st with
   | AtEnd => r = []
   | Truncated => r <> [] /\ ~ starts F r
   | Invalid => r <> [] /\ ~ starts F r /\ ~ unfinished F r
   end.
Proof.
  intros f u F inv pend I D S s i cs st r i' R. 
  remember false as skip eqn:K in R.
  induction R; intros J B L; try (subst; discriminate).
  - split; [reflexivity|]. exists []. auto.
  - destruct (im_only f F I s i k wc i1 B H H0) as (E1 & ->).
    destruct IHR as (-> & pre & T & E & X); auto.
    { now apply Forall_skipn. }
    { rewrite skipn_length. lia. }
    split; [reflexivity|]. exists (firstn k s ++ pre). cbn. rewrite E1, T. split; [reflexivity|]. split; [|exact X].
    rewrite <- app_assoc, <- E. symmetry. apply firstn_skipn.
  - exfalso. pose proof (im_st f F I s i _ B H H0) as (X & _). discriminate.
  - pose proof (im_st f F I s i _ B H H0) as (_ & ->). split; [reflexivity|]. exists []. cbn. split; [reflexivity|]. split; [reflexivity|]. split; [exact H|].
    intros (c & bs & t & F1 & E). rewrite E, (im_dec f F I c bs t i F1) in H0. discriminate.
  - pose proof (im_st f F I s i _ B H H1) as (-> & ->). split; [reflexivity|]. exists []. cbn. split; [reflexivity|]. split; [reflexivity|]. split; [exact H|].
    split.
    + intros (c & bs & t & F1 & E). rewrite E, (im_dec f F I c bs t i F1) in H1. discriminate.
    + intros (c & bs & t & F1 & E). pose proof (im_pos f F I c bs F1) as (_ & Bb & _ & L4).
      assert (Lb : Z.of_nat (length bs) <= LIM) by (unfold LIM; lia).
      rewrite E in Bb. apply Forall_app in Bb. destruct Bb as (_ & Bt).
      rewrite E in Lb. pose proof (s_ill f inv S s t i 0 i J B Bt Lb H H1) as X.
      rewrite <- E in X. rewrite <- (app_nil_r bs), (im_dec f F I c bs [] i F1) in X. discriminate.
Qed.

Lemma source_funcs : forall cd, reachable cd -> nth_error all_encodings (Z.to_nat (iindex cd)) = Some (ifuncs cd) /\
  nth_error all_encodings (Z.to_nat (oindex cd)) = Some (ofuncs cd).
Proof.
  intros cd H. destruct (reachable_opened cd H) as (from & to & flags & cd0 & (S1 & _) & (T1 & _) & E & (D1 & D2 & D3 & D4 & _)).
  unfold reiconv_open_from_index, encoding_at in E.
  destruct (Z.ltb_spec from 0); [lia|]. destruct (Z.ltb_spec to 0); [lia|].
  destruct (nth_error all_encodings (Z.to_nat from)) as [fi|] eqn:Ei; [|discriminate].
  destruct (nth_error all_encodings (Z.to_nat to)) as [fo|] eqn:Eo; [|discriminate].
  inversion E; subst cd0. cbn in D1, D2, D3, D4. rewrite D1, D2, D3, D4. auto.
Qed.
Lemma source_form : forall cd F, reachable cd -> In (iindex cd, F) forms -> implements (ifuncs cd) F.
Proof.
  intros cd F H I. destruct (source_funcs cd H) as (E & _). destruct (forms_implemented _ _ I) as (f & E' & M). congruence.
Qed.
Lemma target_form : forall cd F, reachable cd -> In (oindex cd, F) forms -> implements (ofuncs cd) F.
Proof.
  intros cd F H I. destruct (source_funcs cd H) as (_ & E). destruct (forms_implemented _ _ I) as (f & E' & M). congruence.
Qed.

(** What a descriptor reads from a source with a form. *)
Lemma rd_form : forall cd F s cs st rest i, reachable cd -> In (iindex cd, F) forms -> skipping cd = false -> input s ->
  rd cd s cs st rest i ->
  i = cd_i cd /\ exists pre, text F cs = Some pre /\ s = pre ++ rest /\
   match st with
   | AtEnd => rest = []
   | Truncated => rest <> [] /\ ~ starts F rest
   | Invalid => rest <> [] /\ ~ starts F rest /\ ~ unfinished F rest
   end.
Proof.
  intros cd F s cs st rest i H I K (B & L) R. pose proof (source_form cd F H I) as M.
  destruct (reachable_good cd H) as (inv & oinv & pend & A1 & A2 & A3 & A4 & A5 & A6).
  unfold rd in R. rewrite K in R. eapply reads_form; eauto. apply A5.
Qed.
(** Reading well-formed bytes gives the characters, whatever follows. *)
Lemma reads_text : forall f u skip F, implements f F -> forall cs pre t i cs2 st r i', text F cs = Some pre ->
  reads f u skip t i cs2 st r i' -> reads f u skip (pre ++ t) i (cs ++ cs2) st r i'.
Proof.
  intros f u skip F M cs. induction cs as [|c cs IH]; cbn; intros pre t i cs2 st r i' T R.
  - inversion T. exact R.
  - destruct (F c) as [a|] eqn:E; [|discriminate]. destruct (text F cs) as [b|] eqn:E2; [|discriminate]. inversion T; subst pre.
    rewrite <- app_assoc. destruct (im_pos f F M c a E) as (N & _). eapply reads_char.
    + destruct a; [congruence|discriminate].
    + exact (im_dec f F M c a (b ++ t) i E).
    + rewrite skipn_app, skipn_all, Nat.sub_diag. cbn. eapply IH; eauto.
Qed.
Lemma rd_text : forall cd F cs s, reachable cd -> In (iindex cd, F) forms -> text F cs = Some s -> rd cd s cs AtEnd [] (cd_i cd).
Proof.
  intros cd F cs s H I T. pose proof (source_form cd F H I) as M. unfold rd.
  rewrite <- (app_nil_r s), <- (app_nil_r cs). eapply reads_text; eauto. constructor.
Qed.

(** ** What comes out of a source with a form *)
Theorem form_decoding : forall cd F s outb outleft r, reachable cd -> In (iindex cd, F) forms -> skipping cd = false ->
  input s -> (outleft <= length outb)%nat -> reiconv_iconv cd (Some s) (Some outb) outleft = Ok r ->
  exists cs pre n, text F cs = Some pre /\ s = pre ++ r_in r /\ wr cd cs = (produced r, n, ostate (r_cd r), []) /\
   match r_ret r with
   | Num m => m = n /\ r_in r = []
   | Err EINVAL => r_in r <> [] /\ ~ starts F (r_in r)
   | Err EILSEQ => r_in r <> [] /\ ~ starts F (r_in r) /\ ~ unfinished F (r_in r) \/
       exists c bs t, F c = Some bs /\ r_in r = bs ++ t /\ write1 (ofuncs cd) false c (ostate (r_cd r)) = None
   | Err E2BIG => exists c bs t, F c = Some bs /\ r_in r = bs ++ t
   | Err ENOMEM => False
   end.
Proof.
  intros cd F s outb outleft r H I K In_ R E.
  destruct (iconv_meets_spec cd s outb outleft H In_ R) as (r' & E' & S & H'). rewrite E in E'. inversion E'; subst r'; clear E'.
  destruct S as (_ & _ & _ & (k & Lk & Ek) & SD & cs1 & cs2 & st & rest & i' & n & R1 & W & X).
  destruct (rd_form cd F s _ _ _ _ H I K In_ R1) as (-> & pre & T & Es & Y).
  assert (TA : forall a b p, text F (a ++ b) = Some p -> exists p1 p2, text F a = Some p1 /\ text F b = Some p2 /\ p = p1 ++ p2).
  { clear. induction a as [|c a IH]; cbn; intros b p T; [exists [], p; auto|].
    destruct (F c) as [x|]; [|discriminate]. destruct (text F (a ++ b)) as [y|] eqn:Ey; [|discriminate]. inversion T; subst.
    destruct (IH b y Ey) as (p1 & p2 & -> & E2 & ->). exists (x ++ p1), p2. rewrite <- app_assoc. auto. }
  destruct (TA cs1 cs2 pre T) as (p1 & p2 & T1 & T2 & ->).
  pose proof SD as (D1 & D2 & D3 & D4 & D5).
  assert (K' : skipping (r_cd r) = false) by (unfold skipping in *; now rewrite D5).
  assert (I' : In (iindex (r_cd r), F) forms) by now rewrite D1.
  assert (In' : input (r_in r)).
  { destruct In_ as (B & L). rewrite Ek. split; [now apply Forall_skipn|]. rewrite skipn_length. lia. }
  (* the input left over starts with the characters that were not written *)
  assert (Q : rd (r_cd r) (r_in r) cs2 st rest (cd_i cd) -> r_in r = p2 ++ rest).
  { intros R2. destruct (rd_form _ F _ _ _ _ _ H' I' K' In' R2) as (_ & q & Tq & -> & _). congruence. }
  exists cs1, p1, n. split; [exact T1|].
  assert (C1 : forall c cs, cs2 = c :: cs -> exists bs t, F c = Some bs /\ p2 = bs ++ t).
  { intros c cs ->. cbn in T2. destruct (F c) as [x|]; [|discriminate]. destruct (text F cs); [|discriminate]. inversion T2. eauto. }
  destruct (r_ret r) as [m|[]].
  - destruct X as (-> & -> & -> & E1 & E2). cbn in T2. inversion T2; subst p2. rewrite E1, Es, Y, !app_nil_r. auto.
  - destruct X as (c & cs & Ec & (R2 & _) & _). rewrite (Q R2). destruct (C1 c cs Ec) as (bs & t & Fc & ->).
    split; [rewrite Es; now rewrite !app_assoc|]. split; [exact W|]. exists c, bs, (t ++ rest). rewrite app_assoc. auto.
  - destruct X as (_ & [(-> & -> & E1 & E2 & E3 & E4)|(c & cs & Ec & Wc & R2 & _)]).
    + cbn in T2. inversion T2; subst p2. rewrite E1, Es, app_nil_r. auto.
    + rewrite (Q R2). destruct (C1 c cs Ec) as (bs & t & Fc & ->). split; [rewrite Es; now rewrite !app_assoc|]. split; [exact W|]. right.
      exists c, bs, (t ++ rest). rewrite app_assoc. rewrite K in Wc. auto.
  - destruct X as (-> & -> & E1 & E2 & E3 & E4). cbn in T2. inversion T2; subst p2. rewrite E1, Es, app_nil_r. auto.
  - destruct X.
Qed.

(** ** What goes into a target with a form *)
Lemma wr_text : forall f skip G cs out o, implements f G -> text G cs = Some out -> writes_all f skip cs o = (out, 0%nat, o, []).
Proof.
  intros f skip G cs out o M. revert out. induction cs as [|c cs IH]; cbn; intros out T; [now inversion T|].
  destruct (G c) as [a|] eqn:E; [|discriminate]. destruct (text G cs) as [b|]; [|discriminate]. inversion T; subst out.
  pose proof (im_pos f G M c a E) as (_ & _ & U & _). unfold write1. rewrite (im_enc f G M c o U), E. now rewrite (IH b eq_refl).
Qed.
Theorem form_encoding : forall cd G cs out, reachable cd -> In (oindex cd, G) forms -> text G cs = Some out ->
  wr cd cs = (out, 0%nat, ostate cd, []).
Proof. intros cd G cs out H I T. eapply wr_text; [eapply target_form; eauto|exact T]. Qed.
(** A code point outside the form is not written (it is replaced, dropped or reported). *)
Theorem form_not_encodable : forall cd G c, reachable cd -> In (oindex cd, G) forms -> ucs4 c -> G c = None ->
  emit (ofuncs cd) c (ostate cd) = None.
Proof. intros cd G c H I U N. rewrite (im_enc _ G (target_form cd G H I) c _ U), N. reflexivity. Qed.

Lemma text_app : forall F a b, text F (a ++ b) = match text F a, text F b with Some x, Some y => Some (x ++ y) | _, _ => None end.
Proof.
  intros F a b. induction a as [|c a IH]; cbn; [now destruct (text F b)|]. rewrite IH.
  destruct (F c); [|reflexivity]. destruct (text F a); [|reflexivity]. destruct (text F b); [|reflexivity]. now rewrite app_assoc.
Qed.

(** Input that reads as cs is converted to the form of cs, into a buffer of exactly the right size or larger. *)
Lemma transcode_rd : forall cd G cs s i out outb outleft, reachable cd -> In (oindex cd, G) forms -> input s ->
  rd cd s cs AtEnd [] i -> text G cs = Some out -> (length out <= outleft <= length outb)%nat ->
  exists r, reiconv_iconv cd (Some s) (Some outb) outleft = Ok r /\ r_ret r = Num 0 /\ produced r = out /\ r_in r = [].
Proof.
  intros cd G cs s i out outb outleft H O In_ R0 T2 R. pose proof (target_form cd G H O) as MG.
  destruct (iconv_meets_spec cd s outb outleft H In_) as (r & E & S & _); [lia|]. exists r. split; [exact E|].
  destruct S as (S1 & _ & S3 & _ & _ & cs1 & cs2 & st & rest & i' & n & R1 & W & X).
  destruct (rd_det _ _ _ _ _ _ _ _ _ _ R1 R0) as (<- & -> & -> & ->).
  rewrite text_app in T2. destruct (text G cs1) as [o1|] eqn:T3; [|discriminate]. destruct (text G cs2) as [o2|] eqn:T4; [|discriminate]. inversion T2; subst out; clear T2.
  unfold wr in W. rewrite (wr_text _ _ G cs1 o1 _ MG T3) in W. inversion W as [[Wp Wn Wo]].
  assert (P : r_pos r = length o1) by (rewrite Wp; unfold produced; rewrite firstn_length, S1; lia).
  assert (C1 : forall c l, cs2 = c :: l -> exists bs, emit (ofuncs cd) c (ostate (r_cd r)) = Some (bs, ostate (r_cd r)) /\ (1 <= length bs <= length o2)%nat).
  { intros c l ->. cbn in T4. destruct (G c) as [a|] eqn:Ea; [|discriminate]. destruct (text G l) as [b|]; [|discriminate]. inversion T4; subst o2.
    destruct (im_pos _ _ MG c a Ea) as (N & _ & U & _). exists a. rewrite (im_enc _ G MG c _ U), Ea. split; [reflexivity|]. rewrite app_length. destruct a; [congruence|cbn; lia]. }
  rewrite app_length in R.
  destruct (r_ret r) as [m|[]].
  - destruct X as (-> & -> & _ & E1 & _). cbn in T4. inversion T4; subst o2. rewrite app_nil_r. auto.
  - exfalso. destruct X as (c & l & Ec & _ & _ & Y). destruct (C1 c l Ec) as (bs & Eb & Lb). specialize (Y bs _ Eb). lia.
  - exfalso. destruct X as (_ & [(_ & X & _)|(c & l & Ec & Wc & _)]); [discriminate|]. destruct (C1 c l Ec) as (bs & Eb & Lb). unfold write1 in Wc. rewrite Eb in Wc. discriminate.
  - destruct X as (_ & X & _). discriminate.
  - destruct X.
Qed.
Lemma text_bytes : forall f F cs s, implements f F -> text F cs = Some s -> bytes s.
Proof.
  intros f F cs s M. revert s. induction cs as [|c cs IH]; cbn; intros s T; [inversion T; constructor|].
  destruct (F c) as [a|] eqn:E; [|discriminate]. destruct (text F cs) as [b|]; [|discriminate]. inversion T; subst s.
  apply Forall_app. split; [apply (im_pos _ _ M c a E)|now apply IH].
Qed.
(** Between two encodings with forms, text that both can express is converted exactly, without loss. *)
Theorem form_transcoding : forall cd F G cs s out outb outleft, reachable cd -> In (iindex cd, F) forms -> In (oindex cd, G) forms ->
  text F cs = Some s -> text G cs = Some out -> Z.of_nat (length s) <= LIM -> (length out <= outleft <= length outb)%nat ->
  exists r, reiconv_iconv cd (Some s) (Some outb) outleft = Ok r /\ r_ret r = Num 0 /\ produced r = out /\ r_in r = [].
Proof.
  intros cd F G cs s out outb outleft H I O T1 T2 L R.
  eapply transcode_rd; eauto; [|now apply rd_text with F].
  split; [|exact L]. eapply text_bytes; [eapply source_form; eauto|exact T1].
Qed.

(** Converting to an encoding that covers the source and back gives the original bytes. *)
Definition covers (G F : form) : Prop := forall c bs, F c = Some bs -> exists bs', G c = Some bs'.
Lemma text_covers : forall F G cs s, covers G F -> text F cs = Some s -> exists t, text G cs = Some t.
Proof.
  intros F G cs. induction cs as [|c cs IH]; cbn; intros s C T; [eauto|].
  destruct (F c) as [a|] eqn:E; [|discriminate]. destruct (text F cs) as [b|]; [|discriminate].
  destruct (C c a E) as (x & ->). destruct (IH b C eq_refl) as (t & ->). eauto.
Qed.
Theorem form_round_trip : forall cd1 cd2 F G s outb outleft r outb2 outleft2, reachable cd1 -> reachable cd2 ->
  In (iindex cd1, F) forms -> In (oindex cd1, G) forms -> In (iindex cd2, G) forms -> In (oindex cd2, F) forms -> covers G F ->
  skipping cd1 = false -> input s -> (outleft <= length outb)%nat -> Z.of_nat outleft <= LIM ->
  reiconv_iconv cd1 (Some s) (Some outb) outleft = Ok r -> r_ret r = Num 0 ->
  (length s <= outleft2 <= length outb2)%nat ->
  exists r2, reiconv_iconv cd2 (Some (produced r)) (Some outb2) outleft2 = Ok r2 /\ r_ret r2 = Num 0 /\ produced r2 = s /\ r_in r2 = [].
Proof.
  intros cd1 cd2 F G s outb outleft r outb2 outleft2 H1 H2 I1 O1 I2 O2 C K In_ R L E N R2.
  destruct (form_decoding cd1 F s outb outleft r H1 I1 K In_ R E) as (cs & pre & n & T & Es & W & X). rewrite N in X. destruct X as (<- & Er).
  rewrite Er, app_nil_r in Es. subst pre.
  destruct (text_covers F G cs s C T) as (t & Tt). rewrite (form_encoding cd1 G cs t H1 O1 Tt) in W. inversion W as [[Wp Wo]].
  rewrite <- Wp. eapply (form_transcoding cd2 G F cs t s); eauto. 
  assert (length t <= outleft)%nat; [|lia]. rewrite Wp. unfold produced. rewrite firstn_length.
  destruct (C02_iconv_accounting cd1 s outb outleft r H1 In_ R E) as (_ & Q & _). lia.
Qed.

(** Text followed by an incomplete character. *)
Lemma rd_cut : forall cd F cs pre c a b, reachable cd -> In (iindex cd, F) forms -> text F cs = Some pre ->
  F c = Some (a ++ b) -> a <> [] -> b <> [] -> input (pre ++ a) -> exists i, rd cd (pre ++ a) cs Truncated a i.
Proof.
  intros cd F cs pre c a b H I T Fc Na Nb (B & L). pose proof (source_form cd F H I) as M.
  destruct (reachable_good cd H) as (inv & oinv & pend & A1 & A2 & A3 & A4 & A5 & A6).
  apply Forall_app in B. destruct B as (_ & Ba). rewrite app_length in L.
  destruct (im_pos _ _ M c _ Fc) as (_ & Bb & _ & L4). apply Forall_app in Bb. destruct Bb as (_ & Bb).
  assert (LL : Z.of_nat (length (a ++ b)) <= LIM) by (unfold LIM; lia).
  assert (Iv : inv (cd_i cd)) by apply A5.
  pose proof (im_dec _ _ M c _ [] (cd_i cd) Fc) as Dc. rewrite app_nil_r in Dc.
  destruct (d_run _ _ _ _ _ A1 a (cd_i cd) Iv Na Ba) as (d & Dd & _); [lia|].
  pose proof (im_st _ _ M a _ d Ba Na Dd) as St.
  exists (cd_i cd). rewrite <- (app_nil_r cs). eapply reads_text; eauto.
  destruct d as [k w i'|k i'|k i'].
  - exfalso. pose proof (s_char _ _ A2 a b _ _ _ _ Iv Ba Bb LL Na Dd) as X. rewrite Dc in X. inversion X; subst.
    destruct (im_only _ _ M a _ _ _ _ Ba Na Dd) as (Y & _). rewrite Fc in Y. inversion Y as [Z0]. apply (f_equal (@length Z)) in Z0.
    rewrite firstn_length, app_length in Z0. destruct b; [congruence|cbn in Z0; lia].
  - destruct St as (-> & ->). now apply reads_trunc.
  - exfalso. destruct St as (-> & ->). pose proof (s_ill _ _ A2 a b _ _ _ Iv Ba Bb LL Na Dd) as X. rewrite Dc in X. discriminate.
Qed.
Theorem form_incomplete : forall cd F cs pre c a b out n o outb outleft r, reachable cd -> In (iindex cd, F) forms -> text F cs = Some pre ->
  F c = Some (a ++ b) -> a <> [] -> b <> [] -> input (pre ++ a) ->
  wr cd cs = (out, n, o, []) -> (length out + MAXNEED <= outleft <= length outb)%nat ->
  reiconv_iconv cd (Some (pre ++ a)) (Some outb) outleft = Ok r ->
  r_ret r = Err EINVAL /\ r_in r = a /\ produced r = out.
Proof.
  intros cd F cs pre c a b out n o outb outleft r H I T Fc Na Nb In_ W R E.
  destruct (rd_cut cd F cs pre c a b H I T Fc Na Nb In_) as (i0 & R0).
  destruct (iconv_meets_spec cd (pre ++ a) outb outleft H In_) as (r' & E' & S & _); [lia|]. rewrite E in E'. inversion E'; subst r'; clear E'.
  destruct S as (S1 & _ & S3 & _ & _ & cs1 & cs2 & st & rest & i' & n' & R1 & W1 & X).
  destruct (rd_det _ _ _ _ _ _ _ _ _ _ R1 R0) as (<- & -> & -> & ->).
  rewrite (wr_app _ _ cs2 _ _ _ W1) in W.
  destruct (writes_all (ofuncs cd) (skipping cd) cs2 (ostate (r_cd r))) as [[[o2 n2] oo] bad] eqn:W2. inversion W; subst out n oo bad; clear W.
  assert (P : length (produced r) = r_pos r) by (unfold produced; rewrite firstn_length, S1; lia).
  rewrite app_length in R.
  destruct (r_ret r) as [m|[]].
  - destruct X as (_ & _ & X & _). discriminate.
  - exfalso. destruct X as (_ & _ & _ & _ & X & _). unfold MAXNEED in *. lia.
  - exfalso. destruct X as (_ & [(_ & X & _)|(w & l & -> & Wc & _)]); [discriminate|].
    cbn [writes_all] in W2. rewrite Wc in W2. discriminate.
  - destruct X as (-> & _ & X & _). cbn in W2. inversion W2; subst. rewrite app_nil_r. auto.
  - destruct X.
Qed.

(** * C30: UTF-8 as source *)
Theorem C30_utf8_decoding : forall cd s outb outleft r, reachable cd -> iindex cd = ei_utf8 -> skipping cd = false ->
  input s -> (outleft <= length outb)%nat -> reiconv_iconv cd (Some s) (Some outb) outleft = Ok r ->
  exists cs pre n, text utf8_form cs = Some pre /\ s = pre ++ r_in r /\ wr cd cs = (produced r, n, ostate (r_cd r), []) /\
   match r_ret r with
   | Num m => m = n /\ r_in r = []
   | Err EINVAL => r_in r <> [] /\ ~ starts utf8_form (r_in r)
   | Err EILSEQ => r_in r <> [] /\ ~ starts utf8_form (r_in r) /\ ~ unfinished utf8_form (r_in r) \/
       exists c bs t, utf8_form c = Some bs /\ r_in r = bs ++ t /\ write1 (ofuncs cd) false c (ostate (r_cd r)) = None
   | Err E2BIG => exists c bs t, utf8_form c = Some bs /\ r_in r = bs ++ t
   | Err ENOMEM => False
   end.
Proof. intros cd s outb outleft r H I. apply form_decoding; auto. rewrite I. cbn. auto. Qed.
Theorem C30_utf8_incomplete : forall cd cs pre c a b out n o outb outleft r, reachable cd -> iindex cd = ei_utf8 -> text utf8_form cs = Some pre ->
  utf8_form c = Some (a ++ b) -> a <> [] -> b <> [] -> input (pre ++ a) ->
  wr cd cs = (out, n, o, []) -> (length out + MAXNEED <= outleft <= length outb)%nat ->
  reiconv_iconv cd (Some (pre ++ a)) (Some outb) outleft = Ok r ->
  r_ret r = Err EINVAL /\ r_in r = a /\ produced r = out.
Proof. intros cd cs pre c a b out n o outb outleft r H I. apply form_incomplete; auto. rewrite I. cbn. auto. Qed.
(** Well-formed text is never rejected: with a target that can express it, the call succeeds. *)
Theorem C30_utf8_accepted : forall cd G cs s out outb outleft, reachable cd -> iindex cd = ei_utf8 -> In (oindex cd, G) forms ->
  text utf8_form cs = Some s -> text G cs = Some out -> Z.of_nat (length s) <= LIM -> (length out <= outleft <= length outb)%nat ->
  exists r, reiconv_iconv cd (Some s) (Some outb) outleft = Ok r /\ r_ret r = Num 0 /\ produced r = out /\ r_in r = [].
Proof. intros cd G cs s out outb outleft H I. eapply form_transcoding; auto. rewrite I. cbn. auto. Qed.
(** A start byte that no character has is reported as incomplete, not as invalid, until more bytes arrive. *)
Theorem C30_hopeless_start_is_incomplete : exists cd s outb outleft r, reachable cd /\ iindex cd = ei_utf8 /\ input s /\
  reiconv_iconv cd (Some s) (Some outb) outleft = Ok r /\ r_ret r = Err EINVAL /\ r_in r = s /\ ~ unfinished utf8_form s.
Proof.
  exists (opened ei_utf8 ei_utf32be 0), [0xf5], (repeat 0 4), 4%nat, (call (opened ei_utf8 ei_utf32be 0) [0xf5] 4).
  split; [opn|]. split; [reflexivity|]. split; [inp|]. split; [apply call_ok; [opn|inp]|]. split; [run|]. split; [run|].
  intros (c & bs & t & H & E). unfold utf8_form in H. destruct (scalar c) eqn:S; [|discriminate]. apply scalar_spec in S. apply some_inj in H. rewrite H in E. clear H.
  unfold utf8_bytes in E. apply (f_equal (hd 0)) in E. repeat cmph E; cbn [hd app] in E; Z.to_euclidean_division_equations; lia.
Qed.

(** * C31: UTF-8 as target *)
Theorem C31_utf8_encoding : forall cd cs out, reachable cd -> oindex cd = ei_utf8 -> text utf8_form cs = Some out ->
  wr cd cs = (out, 0%nat, ostate cd, []).
Proof. intros cd cs out H O. apply form_encoding; auto. rewrite O. cbn. auto. Qed.
Theorem C31_utf8_rejects : forall cd c, reachable cd -> oindex cd = ei_utf8 -> ucs4 c -> scalar c = false ->
  emit (ofuncs cd) c (ostate cd) = None.
Proof. intros cd c H O U N. eapply (form_not_encodable cd utf8_form); auto. { rewrite O. cbn. auto. } unfold utf8_form. now rewrite N. Qed.
Theorem C31_utf8_unique : forall cs cs' out, text utf8_form cs = Some out -> text utf8_form cs' = Some out -> cs = cs'.
Proof.
  intros cs cs' out T T'. 
  assert (H : reachable (opened ei_utf8 ei_utf8 0)) by opn.
  destruct (rd_det _ _ _ _ _ _ _ _ _ _ (rd_text _ utf8_form cs out H ltac:(cbn; auto) T) (rd_text _ utf8_form cs' out H ltac:(cbn; auto) T')) as (E & _). exact E.
Qed.
Theorem C31_utf8_round_trip : forall cd1 cd2 G s outb outleft r outb2 outleft2, reachable cd1 -> reachable cd2 ->
  iindex cd1 = ei_utf8 -> In (oindex cd1, G) forms -> In (iindex cd2, G) forms -> oindex cd2 = ei_utf8 -> covers G utf8_form ->
  skipping cd1 = false -> input s -> (outleft <= length outb)%nat -> Z.of_nat outleft <= LIM ->
  reiconv_iconv cd1 (Some s) (Some outb) outleft = Ok r -> r_ret r = Num 0 ->
  (length s <= outleft2 <= length outb2)%nat ->
  exists r2, reiconv_iconv cd2 (Some (produced r)) (Some outb2) outleft2 = Ok r2 /\ r_ret r2 = Num 0 /\ produced r2 = s /\ r_in r2 = [].
Proof.
  intros cd1 cd2 G s outb outleft r outb2 outleft2 H1 H2 I1 O1 I2 O2. eapply form_round_trip; eauto; [rewrite I1|rewrite O2]; cbn; auto.
Qed.
Lemma utf_cover : forall F, In F [utf8_form; utf16be_form; utf16le_form; utf32be_form; utf32le_form; ucs4be_form; ucs4le_form] -> covers F utf8_form.
Proof.
  intros F H c bs E. unfold utf8_form in E. destruct (scalar c) eqn:S; [|discriminate].
  assert (U : (0 <=? c) && (c <? 0x100000000) = true) by (apply scalar_spec in S; apply andb_true_iff; lia).
  repeat (destruct H as [<-|H]; [unfold utf8_form, utf16be_form, utf16le_form, utf32be_form, utf32le_form, ucs4be_form, ucs4le_form; rewrite ?S, ?U; eauto|]). destruct H.
Qed.


(** * C32 and C33: the other forms *)
Definition utf_forms : list (Z * form) :=
  [(ei_utf16be, utf16be_form); (ei_utf16le, utf16le_form); (ei_utf32be, utf32be_form); (ei_utf32le, utf32le_form)].
Definition ucs_forms : list (Z * form) :=
  [(ei_ucs2be, ucs2be_form); (ei_ucs2le, ucs2le_form); (ei_ucs4be, ucs4be_form); (ei_ucs4le, ucs4le_form);
   (ei_ucs2internal, ucs2le_form); (ei_ucs2swapped, ucs2be_form); (ei_ucs4internal, ucs4le_form); (ei_ucs4swapped, ucs4be_form)].
Lemma utf_in : forall x, In x utf_forms -> In x forms.
Proof. intros x H. unfold forms. cbn in *. tauto. Qed.
Lemma ucs_in : forall x, In x ucs_forms -> In x forms.
Proof. intros x H. unfold forms. cbn in *. tauto. Qed.
(** What any source with one of these forms delivers. *)
Definition decoding (fs : list (Z * form)) : Prop := forall cd F s outb outleft r, reachable cd -> In (iindex cd, F) fs -> skipping cd = false ->
  input s -> (outleft <= length outb)%nat -> reiconv_iconv cd (Some s) (Some outb) outleft = Ok r ->
  exists cs pre n, text F cs = Some pre /\ s = pre ++ r_in r /\ wr cd cs = (produced r, n, ostate (r_cd r), []) /\
   match r_ret r with
   | Num m => m = n /\ r_in r = []
   | Err EINVAL => r_in r <> [] /\ ~ starts F (r_in r)
   | Err EILSEQ => r_in r <> [] /\ ~ starts F (r_in r) /\ ~ unfinished F (r_in r) \/
       exists c bs t, F c = Some bs /\ r_in r = bs ++ t /\ write1 (ofuncs cd) false c (ostate (r_cd r)) = None
   | Err E2BIG => exists c bs t, F c = Some bs /\ r_in r = bs ++ t
   | Err ENOMEM => False
   end.
Definition incomplete (fs : list (Z * form)) : Prop := forall cd F cs pre c a b out n o outb outleft r, reachable cd -> In (iindex cd, F) fs ->
  text F cs = Some pre -> F c = Some (a ++ b) -> a <> [] -> b <> [] -> input (pre ++ a) ->
  wr cd cs = (out, n, o, []) -> (length out + MAXNEED <= outleft <= length outb)%nat ->
  reiconv_iconv cd (Some (pre ++ a)) (Some outb) outleft = Ok r ->
  r_ret r = Err EINVAL /\ r_in r = a /\ produced r = out.
Definition transcoding (fs gs : list (Z * form)) : Prop := forall cd F G cs s out outb outleft, reachable cd -> In (iindex cd, F) fs -> In (oindex cd, G) gs ->
  text F cs = Some s -> text G cs = Some out -> Z.of_nat (length s) <= LIM -> (length out <= outleft <= length outb)%nat ->
  exists r, reiconv_iconv cd (Some s) (Some outb) outleft = Ok r /\ r_ret r = Num 0 /\ produced r = out /\ r_in r = [].
Theorem C32_decoding : decoding utf_forms.
Proof. intros cd F s outb outleft r H I. apply form_decoding; auto using utf_in. Qed.
Theorem C32_incomplete : incomplete utf_forms.
Proof. intros cd F cs pre c a b out n o outb outleft r H I. apply form_incomplete; auto using utf_in. Qed.
Theorem C32_transcoding : transcoding forms utf_forms /\ transcoding utf_forms forms.
Proof. split; intros cd F G cs s out outb outleft H I O; apply form_transcoding; auto using utf_in. Qed.
Theorem C32_rejects : forall cd G c, reachable cd -> In (oindex cd, G) utf_forms -> ucs4 c -> scalar c = false ->
  emit (ofuncs cd) c (ostate cd) = None.
Proof.
  intros cd G c H O U N. eapply (form_not_encodable cd G); auto using utf_in. 
  repeat (destruct O as [O|O]; [inversion O; subst G; unfold utf16be_form, utf16le_form, utf32be_form, utf32le_form; now rewrite N|]). destruct O.
Qed.
Theorem C33_decoding : decoding ucs_forms.
Proof. intros cd F s outb outleft r H I. apply form_decoding; auto using ucs_in. Qed.
Theorem C33_incomplete : incomplete ucs_forms.
Proof. intros cd F cs pre c a b out n o outb outleft r H I. apply form_incomplete; auto using ucs_in. Qed.
Theorem C33_transcoding : transcoding forms ucs_forms /\ transcoding ucs_forms forms.
Proof. split; intros cd F G cs s out outb outleft H I O; apply form_transcoding; auto using ucs_in. Qed.
Theorem C33_round_trip : forall cd1 cd2 F s outb outleft r outb2 outleft2, reachable cd1 -> reachable cd2 ->
  In (iindex cd1, F) ucs_forms -> In (oindex cd1, ucs4be_form) forms -> In (iindex cd2, ucs4be_form) forms -> In (oindex cd2, F) ucs_forms ->
  skipping cd1 = false -> input s -> (outleft <= length outb)%nat -> Z.of_nat outleft <= LIM ->
  reiconv_iconv cd1 (Some s) (Some outb) outleft = Ok r -> r_ret r = Num 0 ->
  (length s <= outleft2 <= length outb2)%nat ->
  exists r2, reiconv_iconv cd2 (Some (produced r)) (Some outb2) outleft2 = Ok r2 /\ r_ret r2 = Num 0 /\ produced r2 = s /\ r_in r2 = [].
Proof.
  intros cd1 cd2 F s outb outleft r outb2 outleft2 H1 H2 I1 O1 I2 O2.
  assert (C : covers ucs4be_form F).
  { intros c bs E. 
    assert (U : ucs4 c). { destruct (forms_implemented _ _ (ucs_in _ I1)) as (f & _ & M). now apply (im_pos _ _ M c bs). }
    unfold ucs4be_form. unfold ucs4 in U. destruct (Z.leb_spec 0 c); [|lia]. destruct (Z.ltb_spec c 0x100000000); [|lia]. cbn. eauto. }
  eapply form_round_trip; eauto using ucs_in.
Qed.

(** ** Concrete cases *)
Example C30_example : let r := call (opened ei_utf8 ei_utf16le 0) [0x41; 0xe2; 0x82; 0xac; 0xf0; 0x9f; 0x98; 0x80; 0xed; 0xa0; 0x80] 16 in
  r_ret r = Err EILSEQ /\ produced r = [0x41; 0; 0xac; 0x20; 0x3d; 0xd8; 0; 0xde] /\ r_in r = [0xed; 0xa0; 0x80].
Proof. vm_compute. repeat split. Qed.
Example C30_example_overlong : r_ret (call (opened ei_utf8 ei_utf32be 0) [0xc0; 0x80] 16) = Err EILSEQ.
Proof. run. Qed.
Example C31_example : text utf8_form [0x20ac; 0x1f600] = Some [0xe2; 0x82; 0xac; 0xf0; 0x9f; 0x98; 0x80] /\ scalar 0xd800 = false /\
  covers utf16le_form utf8_form.
Proof. split; [run|]. split; [run|]. apply utf_cover. cbn. auto. Qed.
Example C32_example : seen (call (opened ei_utf16be ei_utf32le 0) [0xd8; 0x3d; 0xde; 0; 0; 0x41] 8) = (Num 0, [0; 0xf6; 1; 0; 0x41; 0; 0; 0], []) /\
  r_ret (call (opened ei_utf16be ei_utf32le 0) [0xd8; 0x3d; 0; 0x41] 8) = Err EILSEQ /\
  r_ret (call (opened ei_utf16be ei_utf32le 0) [0xd8; 0x3d] 8) = Err EINVAL.
Proof. split; [|split]; run. Qed.
Example C33_example : seen (call (opened ei_ucs4le ei_ucs2be 0) [0xac; 0x20; 0; 0] 2) = (Num 0, [0x20; 0xac], []).
Proof. run. Qed.
