(** Properties C36 and C37: encodings given by charmaps. *)
From Coq Require Import ZArith List Bool Lia.
From Verif Require Import Base Indexes Loop Contract LoopLib LoopProps Spec SpecProps Encodings Api AllOk Public Demo UniSpec UniProps C_iconv C_api C_uni Whole Charmap CharLib.
From Verif Require Import Maps_sb1 Chk_sb1 Chk_sb2 Chk_sb3 Chk_sb4 Maps_sjis Tables.
Import ListNotations.
Open Scope Z_scope.

(** What the bytes of encoding i stand for, and how characters are written in encoding i: by a published charmap or by an encoding form. *)
Inductive reads_as : Z -> (Z -> list Z -> Prop) -> Prop :=
| ra_table : forall i m irr, In (i, m, irr) tables -> reads_as i (stands_for m)
| ra_form : forall i F, In (i, F) forms -> reads_as i (fun c bs => F c = Some bs).
Inductive writes_as : Z -> (Z -> list Z -> Prop) -> Prop :=
| wa_table : forall i m irr, In (i, m, irr) tables -> writes_as i (maps_to m irr)
| wa_form : forall i F, In (i, F) forms -> writes_as i (fun c bs => F c = Some bs).

Lemma form_decodes : forall f F, implements f F -> f_flush f = None -> decodes f (fun c bs => F c = Some bs).
Proof.
  intros f F M N. constructor; [| | | |exact N].
  - intros c bs t i H _ _. now apply (im_dec f F M).
  - intros s i k c i' B Ns _ D. now apply (im_only f F M s i k c i').
  - intros s i d B Ns _ D. now apply (im_st f F M s i d).
  - intros c bs H. destruct (im_pos f F M c bs H) as (A & B & _ & C). auto.
Qed.
Lemma form_encodes : forall f F, implements f F -> f_reset f = None -> encodes f (fun c bs => F c = Some bs).
Proof.
  intros f F M N. constructor; [| | |exact N].
  - intros c bs o U. rewrite (im_enc f F M c o U). destruct (F c); split; intros H; inversion H; auto.
  - intros c bs o o' U. rewrite (im_enc f F M c o U). destruct (F c); intros H; inversion H; auto.
  - intros c bs H. destruct (im_pos f F M c bs H) as (A & _ & U & _). auto.
Qed.
Lemma forms_stateless : forall i F f, In (i, F) forms -> nth_error all_encodings (Z.to_nat i) = Some f -> f_flush f = None /\ f_reset f = None.
Proof.
  intros i F f H E. assert (A : forallb (fun x => match nth_error all_encodings (Z.to_nat (fst x)) with Some g => match f_flush g, f_reset g with None, None => true | _, _ => false end | None => false end) forms = true) by (vm_compute; reflexivity).
  rewrite forallb_forall in A. specialize (A _ H). cbn [fst] in A. rewrite E in A. destruct (f_flush f), (f_reset f); try discriminate. auto.
Qed.
Lemma source_decodes : forall cd D, reachable cd -> reads_as (iindex cd) D -> decodes (ifuncs cd) D.
Proof.
  intros cd D H R. destruct (source_funcs cd H) as (E & _). inversion R as [i m irr I E1 E2|i F I E1 E2]; subst.
  - destruct (proj1 (Forall_forall _ _) tables_ok _ I) as (f & E' & X & _). cbn [fst snd] in *. congruence.
  - destruct (forms_implemented _ _ I) as (f & E' & M). rewrite E in E'. inversion E'; subst f. apply form_decodes; [exact M|]. now destruct (forms_stateless _ _ _ I E).
Qed.
Lemma target_encodes : forall cd R, reachable cd -> writes_as (oindex cd) R -> encodes (ofuncs cd) R.
Proof.
  intros cd D H R. destruct (source_funcs cd H) as (_ & E). inversion R as [i m irr I E1 E2|i F I E1 E2]; subst.
  - destruct (proj1 (Forall_forall _ _) tables_ok _ I) as (f & E' & _ & X). cbn [fst snd] in *. congruence.
  - destruct (forms_implemented _ _ I) as (f & E' & M). rewrite E in E'. inversion E'; subst f. apply form_encodes; [exact M|]. now destruct (forms_stateless _ _ _ I E).
Qed.

(** ** Spelling *)
Lemma spelled_nil : forall R, spelled R [] [].
Proof. intros R. exists []. split; [constructor|reflexivity]. Qed.
Lemma spelled_cons : forall (R : Z -> list Z -> Prop) c bs cs s, R c bs -> spelled R cs s -> spelled R (c :: cs) (bs ++ s).
Proof. intros R c bs cs s H (p & F & ->). exists (bs :: p). split; [now constructor|reflexivity]. Qed.
Lemma spelled_inv : forall R c cs s, spelled R (c :: cs) s -> exists bs t, R c bs /\ spelled R cs t /\ s = bs ++ t.
Proof. intros R c cs s (p & F & ->). inversion F; subst. exists y, (concat l'). split; [assumption|]. split; [now exists l'|reflexivity]. Qed.
Lemma spelled_nil_inv : forall R s, spelled R [] s -> s = [].
Proof. intros R s (p & F & ->). now inversion F. Qed.
Lemma spelled_app : forall R a b s, spelled R (a ++ b) s -> exists p q, spelled R a p /\ spelled R b q /\ s = p ++ q.
Proof.
  induction a as [|c a IH]; intros b s H; [exists [], s; split; [apply spelled_nil|auto]|]. cbn in H. apply spelled_inv in H. destruct H as (bs & t & Hc & Ht & ->).
  destruct (IH b t Ht) as (p & q & Hp & Hq & ->). exists (bs ++ p), q. split; [now apply spelled_cons|]. split; [exact Hq|]. now rewrite app_assoc.
Qed.
Lemma spelled_mono : forall (R R' : Z -> list Z -> Prop) cs s, (forall c bs, R c bs -> R' c bs) -> spelled R cs s -> spelled R' cs s.
Proof. intros R R' cs s M (p & F & ->). exists p. split; [|reflexivity]. induction F; constructor; auto. Qed.

(** ** Reading *)
Definition begins (D : Z -> list Z -> Prop) (s : list Z) : Prop := exists c bs t, D c bs /\ s = bs ++ t.
Definition partial (D : Z -> list Z -> Prop) (s : list Z) : Prop := exists c bs t, D c bs /\ bs = s ++ t.
Lemma reads_rel : forall f u D inv pend, decodes f D -> dec_ok f u inv pend ucs4 -> dec_stable f inv ->
  forall s i cs st r i', reads f u false s i cs st r i' -> inv i -> bytes s -> Z.of_nat (length s) <= LIM ->
  i' = i /\ exists pre, spelled D cs pre /\ s = pre ++ r /\
   match st with
   | AtEnd => r = []
   | Truncated => r <> [] /\ ~ begins D r
   | Invalid => r <> [] /\ ~ begins D r /\ ~ partial D r
   end.
Proof.
  intros f u F inv pend I D S s i cs st r i' R. 
  remember false as skip eqn:K in R.
  assert (NB : forall s i d, bytes s -> Z.of_nat (length s) <= LIM -> dec f s i = Some d -> (forall k c i', d <> DChar k c i') -> ~ begins F s).
  { intros s0 i0 d B0 L0 E0 N0 (c & bs & t & F1 & E). subst s0. apply Forall_app in B0. destruct B0 as (_ & B0). rewrite (de_char f F I c bs t i0 F1 B0 L0) in E0. inversion E0. now apply (N0 _ _ _ (eq_sym H0)). }
  induction R; intros J B L; try (subst; discriminate).
  - split; [reflexivity|]. exists []. split; [apply spelled_nil|auto].
  - destruct (de_only f F I s i k wc i1 B H L H0) as (E1 & ->).
    destruct IHR as (-> & pre & T & E & X); auto.
    { now apply Forall_skipn. }
    { rewrite skipn_length. lia. }
    split; [reflexivity|]. exists (firstn k s ++ pre). split; [now apply spelled_cons|]. split; [|exact X].
    rewrite <- app_assoc, <- E. symmetry. apply firstn_skipn.
  - exfalso. pose proof (de_st f F I s i _ B H L H0) as (X & _). discriminate.
  - pose proof (de_st f F I s i _ B H L H0) as (_ & ->). split; [reflexivity|]. exists []. cbn. split; [apply spelled_nil|]. split; [reflexivity|]. split; [exact H|].
    apply (NB s i _ B L H0). discriminate.
  - pose proof (de_st f F I s i _ B H L H1) as (-> & ->). split; [reflexivity|]. exists []. cbn. split; [apply spelled_nil|]. split; [reflexivity|]. split; [exact H|].
    split.
    + apply (NB s i _ B L H1). discriminate.
    + intros (c & bs & t & F1 & E). pose proof (de_pos f F I c bs F1) as (_ & Bb & L4).
      assert (Lb : Z.of_nat (length bs) <= LIM) by (unfold LIM; lia).
      rewrite E in Bb. apply Forall_app in Bb. destruct Bb as (_ & Bt).
      rewrite E in Lb. pose proof (s_ill f inv S s t i 0 i J B Bt Lb H H1) as X.
      rewrite <- E in X, Lb. rewrite <- (app_nil_r bs) in X, Lb. rewrite (de_char f F I c bs [] i F1 (Forall_nil _) Lb) in X. discriminate.
Qed.
Lemma rd_rel : forall cd D s cs st rest i, reachable cd -> reads_as (iindex cd) D -> skipping cd = false -> input s ->
  rd cd s cs st rest i ->
  i = cd_i cd /\ exists pre, spelled D cs pre /\ s = pre ++ rest /\
   match st with
   | AtEnd => rest = []
   | Truncated => rest <> [] /\ ~ begins D rest
   | Invalid => rest <> [] /\ ~ begins D rest /\ ~ partial D rest
   end.
Proof.
  intros cd F s cs st rest i H I K (B & L) R. pose proof (source_decodes cd F H I) as M.
  destruct (reachable_good cd H) as (inv & oinv & pend & A1 & A2 & A3 & A4 & A5 & A6).
  unfold rd in R. rewrite K in R. eapply reads_rel; eauto. apply A5.
Qed.
Lemma reads_spelled : forall f u skip D, decodes f D -> forall cs pre t i cs2 st r i', spelled D cs pre -> bytes t -> Z.of_nat (length (pre ++ t)) <= LIM ->
  reads f u skip t i cs2 st r i' -> reads f u skip (pre ++ t) i (cs ++ cs2) st r i'.
Proof.
  intros f u skip D M cs. induction cs as [|c cs IH]; intros pre t i cs2 st r i' T Bt L R.
  - apply spelled_nil_inv in T. subst pre. exact R.
  - apply spelled_inv in T. destruct T as (a & b & Da & Tb & ->). rewrite <- app_assoc in *. destruct (de_pos f D M c a Da) as (N & _).
    assert (Bb : bytes b).
    { clear - M Tb. revert b Tb. induction cs as [|x cs IH]; intros b T; [apply spelled_nil_inv in T; subst; constructor|].
      apply spelled_inv in T. destruct T as (y & z & Dy & Tz & ->). apply Forall_app. split; [apply (de_pos f D M x y Dy)|now apply IH]. }
    eapply reads_char.
    + destruct a; [congruence|discriminate].
    + apply (de_char f D M c a (b ++ t) i Da); [apply Forall_app; auto|exact L].
    + rewrite skipn_app, skipn_all, Nat.sub_diag. cbn. eapply IH; eauto. rewrite app_length in L. lia.
Qed.
Lemma spelled_bytes : forall f D cs s, decodes f D -> spelled D cs s -> bytes s.
Proof.
  intros f D cs s M. revert s. induction cs as [|x cs IH]; intros b T; [apply spelled_nil_inv in T; subst; constructor|].
  apply spelled_inv in T. destruct T as (y & z & Dy & Tz & ->). apply Forall_app. split; [apply (de_pos f D M x y Dy)|now apply IH].
Qed.
Lemma rd_spelled : forall cd D cs s, reachable cd -> reads_as (iindex cd) D -> spelled D cs s -> Z.of_nat (length s) <= LIM -> rd cd s cs AtEnd [] (cd_i cd).
Proof.
  intros cd D cs s H I T L. pose proof (source_decodes cd D H I) as M. unfold rd.
  rewrite <- (app_nil_r s), <- (app_nil_r cs). eapply reads_spelled; eauto; [constructor|now rewrite app_nil_r|constructor].
Qed.
Lemma takes_rel : forall f u D, decodes f D -> forall s i cs r i', takes f u false s i cs r i' -> bytes s -> Z.of_nat (length s) <= LIM ->
  i' = i /\ exists pre, spelled D cs pre /\ s = pre ++ r.
Proof.
  intros f u D M s i cs r i' T. remember false as skip eqn:K in T. induction T; intros B L; try (subst; discriminate).
  - split; [reflexivity|]. exists []. split; [apply spelled_nil|reflexivity].
  - destruct (de_only f D M s i k wc i1 B H L H0) as (E1 & ->).
    destruct IHT as (-> & pre & P & E); auto.
    { now apply Forall_skipn. }
    { rewrite skipn_length. lia. }
    split; [reflexivity|]. exists (firstn k s ++ pre). split; [now apply spelled_cons|].
    rewrite <- app_assoc, <- E. symmetry. apply firstn_skipn.
  - exfalso. pose proof (de_st f D M s i _ B H L H0) as (X & _). discriminate.
Qed.
Lemma tk_rel : forall cd D s cs r, reachable cd -> reads_as (iindex cd) D -> skipping cd = false -> input s -> tk cd s cs r ->
  exists pre, spelled D cs pre /\ s = pre ++ r.
Proof.
  intros cd D s cs r H I K (B & L) (i & T). rewrite K in T. exact (proj2 (takes_rel _ _ D (source_decodes cd D H I) _ _ _ _ _ T B L)).
Qed.
(** What a call does: it converts characters that the bytes stand for, and stops at bytes that stand for none. *)
Theorem char_decoding : forall cd D s outb outleft r, reachable cd -> reads_as (iindex cd) D -> skipping cd = false ->
  input s -> (outleft <= length outb)%nat -> reiconv_iconv cd (Some s) (Some outb) outleft = Ok r ->
  exists cs pre n, spelled D cs pre /\ s = pre ++ r_in r /\ wr cd cs = (produced r, n, ostate (r_cd r), []) /\
   match r_ret r with
   | Num m => m = n /\ r_in r = []
   | Err EINVAL => r_in r <> [] /\ ~ begins D (r_in r)
   | Err EILSEQ => r_in r <> [] /\ ~ begins D (r_in r) /\ ~ partial D (r_in r) \/
       exists c bs t, D c bs /\ r_in r = bs ++ t /\ write1 (ofuncs cd) false c (ostate (r_cd r)) = None
   | Err E2BIG => exists c bs t, D c bs /\ r_in r = bs ++ t
   | Err ENOMEM => False
   end.
Proof.
  intros cd F s outb outleft r H I K In_ R E.
  destruct (iconv_meets_spec cd s outb outleft H In_ R) as (r' & E' & S & H'). rewrite E in E'. inversion E'; subst r'; clear E'.
  destruct S as (_ & _ & _ & (k & Lk & Ek) & SD & cs1 & cs2 & st & rest & i' & n & R1 & W & X).
  destruct (rd_rel cd F s _ _ _ _ H I K In_ R1) as (-> & pre & T & Es & Y).
  pose proof SD as (D1 & D2 & D3 & D4 & D5).
  assert (K' : skipping (r_cd r) = false) by (unfold skipping in *; now rewrite D5).
  assert (I' : reads_as (iindex (r_cd r)) F) by now rewrite D1.
  assert (In' : input (r_in r)).
  { destruct In_ as (B & L). rewrite Ek. split; [now apply Forall_skipn|]. rewrite skipn_length. lia. }
  (* the input left over starts with the character that was not written *)
  assert (Q : forall c cs, cs2 = c :: cs -> rd (r_cd r) (r_in r) cs2 st rest (cd_i cd) -> exists bs t, F c bs /\ r_in r = bs ++ t).
  { intros c cs -> R2. destruct (rd_rel _ F _ _ _ _ _ H' I' K' In' R2) as (_ & q & Tq & -> & _).
    apply spelled_inv in Tq. destruct Tq as (bs & t & Fc & _ & ->). exists bs, (t ++ rest). rewrite app_assoc. auto. }
  destruct (r_ret r) as [m|[]].
  - destruct X as (-> & -> & -> & E1 & E2). rewrite app_nil_r in T. exists cs1, pre, n. subst rest. rewrite E1. auto.
  - destruct X as (c & cs & Ec & (R2 & T2) & _). destruct (tk_rel cd F s cs1 (r_in r) H I K In_ T2) as (p & Tp & Ep).
    exists cs1, p, n. split; [exact Tp|]. split; [exact Ep|]. split; [exact W|].
    destruct (Q c cs Ec R2) as (bs & t & Fc & Er). exists c, bs, t. auto.
  - destruct X as (_ & [(-> & -> & E1 & E2 & E3 & E4)|(c & cs & Ec & Wc & R2 & T2)]).
    + rewrite app_nil_r in T. exists cs1, pre, n. rewrite E1. auto.
    + destruct (tk_rel cd F s cs1 (r_in r) H I K In_ T2) as (p & Tp & Ep).
      exists cs1, p, n. split; [exact Tp|]. split; [exact Ep|]. split; [exact W|]. right.
      destruct (Q c cs Ec R2) as (bs & t & Fc & Er). exists c, bs, t. rewrite K in Wc. auto.
  - destruct X as (-> & -> & E1 & E2 & E3 & E4). rewrite app_nil_r in T. exists cs1, pre, n. rewrite E1. auto.
  - destruct X.
Qed.

(** ** Writing *)
(** How a character is rendered, and how many characters that loses: as itself, not at all for a tag character,
    as U+FFFD otherwise. *)
Inductive renders (R : Z -> list Z -> Prop) (c : Z) : list Z -> nat -> Prop :=
| ren_self : forall bs, R c bs -> renders R c bs 0
| ren_tag : (forall bs, ~ R c bs) -> tag c = true -> renders R c [] 0
| ren_subst : forall bs, (forall bs', ~ R c bs') -> tag c = false -> R 0xfffd bs -> renders R c bs 1.
Inductive rendered (R : Z -> list Z -> Prop) : list Z -> list Z -> nat -> Prop :=
| rend_nil : rendered R [] [] 0
| rend_cons : forall c bs k cs out n, renders R c bs k -> rendered R cs out n -> rendered R (c :: cs) (bs ++ out) (k + n).

Lemma emit_rel : forall f R c o, encodes f R -> ucs4 c ->
  (exists bs, R c bs /\ emit f c o = Some (bs, o)) \/ ((forall bs, ~ R c bs) /\ emit f c o = None).
Proof.
  intros f R c o M U. destruct (emit f c o) as [[bs o']|] eqn:E.
  - left. pose proof (en_st f R M c bs o o' U E). subst o'. exists bs. split; [|reflexivity]. now apply (en_iff f R M c bs o U).
  - right. split; [|reflexivity]. intros bs X. apply (en_iff f R M c bs o U) in X. congruence.
Qed.
Lemma rel_det : forall f R c bs bs', encodes f R -> R c bs -> R c bs' -> bs = bs'.
Proof.
  intros f R c bs bs' M A B. destruct (en_pos f R M c bs A) as (U & _). apply (en_iff f R M c bs 0 U) in A. apply (en_iff f R M c bs' 0 U) in B. congruence.
Qed.
Lemma fffd_ucs4 : ucs4 0xfffd.
Proof. unfold ucs4. lia. Qed.
Lemma write1_rel : forall f R c o, encodes f R -> ucs4 c ->
  match write1 f false c o with
  | Some (bs, o', k) => o' = o /\ renders R c bs k
  | None => forall bs k, ~ renders R c bs k
  end.
Proof.
  intros f R c o M U. unfold write1. destruct (emit_rel f R c o M U) as [(bs & X & ->)|(X & ->)].
  - split; [reflexivity|now constructor].
  - destruct (tag c) eqn:T; [split; [reflexivity|now constructor]|].
    destruct (emit_rel f R 0xfffd o M fffd_ucs4) as [(bs & Y & ->)|(Y & ->)].
    + split; [reflexivity|now constructor].
    + intros bs k Z. inversion Z; subst; [eapply X; eauto|congruence|eapply Y; eauto].
Qed.
Lemma renders_det : forall f R c bs k bs' k', encodes f R -> renders R c bs k -> renders R c bs' k' -> bs = bs' /\ k = k'.
Proof.
  intros f R c bs k bs' k' M A B. inversion A; subst; inversion B; subst; try congruence;
  try (exfalso; match goal with X : forall bs, ~ R c bs, Y : R c _ |- _ => exact (X _ Y) end); auto; (split; [eapply rel_det; eauto|reflexivity]).
Qed.
Lemma writes_rel : forall f R cs o, encodes f R -> Forall ucs4 cs -> forall out n o',
  (writes_all f false cs o = (out, n, o', []) <-> o' = o /\ rendered R cs out n).
Proof.
  intros f R cs o M. induction cs as [|c cs IH]; intros U out n o'.
  - cbn. split; intros H; [inversion H; subst; split; [reflexivity|constructor]|]. destruct H as (-> & H). now inversion H.
  - inversion U as [|x y U1 U2]; subst. specialize (IH U2). cbn [writes_all]. pose proof (write1_rel f R c o M U1) as X.
    destruct (write1 f false c o) as [[[bs o1] k]|].
    + destruct X as (-> & X). destruct (writes_all f false cs o) as [[[b n2] oo] bad]. split; intros H.
      * inversion H; subst. destruct (proj1 (IH b n2 o') eq_refl) as (-> & Y). split; [reflexivity|now constructor].
      * destruct H as (-> & H). inversion H; subst. destruct (renders_det f R c bs k bs0 k0 M X) as (-> & ->); [assumption|].
        assert (Z : (b, n2, oo, bad) = (out0, n0, o, [])) by (apply IH; auto). inversion Z; subst. reflexivity.
    + split; intros H; [inversion H|]. destruct H as (-> & H). inversion H; subst. exfalso. eapply X; eauto.
Qed.
Lemma decodes_ucs4 : forall cd D c bs, reachable cd -> reads_as (iindex cd) D -> D c bs -> ucs4 c.
Proof.
  intros cd D c bs H I X. pose proof (source_decodes cd D H I) as M. destruct (de_pos _ _ M c bs X) as (N & B & L4).
  destruct (reachable_good cd H) as (inv & oinv & pend & A1 & A2 & A3 & A4 & A5 & A6).
  assert (Iv : inv (cd_i cd)) by apply A5.
  destruct (d_run _ _ _ _ _ A1 bs (cd_i cd) Iv N B) as (d & Dd & P); [unfold LIM; lia|].
  pose proof (de_char _ _ M c bs [] (cd_i cd) X (Forall_nil _)) as Dc. rewrite app_nil_r in Dc.
  rewrite Dc in Dd by (unfold LIM; lia). inversion Dd; subst d. cbn in P. apply P.
Qed.
Lemma spelled_ucs4 : forall cd D cs s, reachable cd -> reads_as (iindex cd) D -> spelled D cs s -> Forall ucs4 cs.
Proof.
  intros cd D cs s H I. revert s. induction cs as [|c cs IH]; intros s T; [constructor|]. apply spelled_inv in T. destruct T as (bs & t & X & T & _).
  constructor; [now apply (decodes_ucs4 cd D c bs)|eauto].
Qed.

(** Conversion of a whole text between two such encodings is what the charmaps say, no more and no less. *)
Theorem char_whole : forall cd D R s out n, reachable cd -> reads_as (iindex cd) D -> writes_as (oindex cd) R -> skipping cd = false -> input s ->
  (whole cd s out n <-> exists cs, spelled D cs s /\ rendered R cs out n).
Proof.
  intros cd D R s out n H I O K In_. pose proof (source_decodes cd D H I) as MD. pose proof (target_encodes cd R H O) as MR.
  rewrite whole_iff by assumption.
  assert (HN : forall i, held (ifuncs cd) i = []) by (intros i; unfold held; now rewrite (de_flush _ _ MD)).
  assert (CN : forall o, closing (ofuncs cd) o = []) by (intros o; unfold closing; now rewrite (en_reset _ _ MR)).
  split.
  - intros (cs & i & bs & o & R1 & W & ->). rewrite HN, app_nil_r in W. rewrite CN, app_nil_r. exists cs.
    destruct (rd_rel cd D s _ _ _ _ H I K In_ R1) as (-> & pre & T & Es & _). rewrite app_nil_r in Es. subst pre. split; [exact T|].
    unfold wr in W. rewrite K in W. apply (writes_rel _ R cs (ostate cd) MR (spelled_ucs4 cd D cs s H I T)) in W. apply W.
  - intros (cs & T & W). exists cs, (cd_i cd), out, (ostate cd). split; [apply (rd_spelled cd D); auto; apply In_|]. split; [|now rewrite CN, app_nil_r].
    rewrite HN, app_nil_r. unfold wr. rewrite K. apply (writes_rel _ R cs (ostate cd) MR (spelled_ucs4 cd D cs s H I T)). auto.
Qed.
(** A single call, into a buffer of exactly the right size or larger. *)
Theorem char_transcoding : forall cd D R cs s out outb outleft, reachable cd -> reads_as (iindex cd) D -> writes_as (oindex cd) R ->
  spelled D cs s -> spelled R cs out -> Z.of_nat (length s) <= LIM -> (length out <= outleft <= length outb)%nat ->
  exists r, reiconv_iconv cd (Some s) (Some outb) outleft = Ok r /\ r_ret r = Num 0 /\ produced r = out /\ r_in r = [].
Proof.
  intros cd D R cs s out outb outleft H I O T1 T2 L B. pose proof (source_decodes cd D H I) as MD. pose proof (target_encodes cd R H O) as MR.
  assert (In_ : input s) by (split; [exact (spelled_bytes _ _ _ _ MD T1)|exact L]).
  pose proof (rd_spelled cd D cs s H I T1 L) as R0.
  assert (WS : forall cs out, spelled R cs out -> writes_all (ofuncs cd) (skipping cd) cs (ostate cd) = (out, 0%nat, ostate cd, [])).
  { clear - MR. induction cs as [|c cs IH]; intros out T; [apply spelled_nil_inv in T; now subst|].
    apply spelled_inv in T. destruct T as (bs & t & X & T & ->). cbn [writes_all]. destruct (en_pos _ _ MR c bs X) as (U & _).
    unfold write1. rewrite (proj2 (en_iff _ _ MR c bs (ostate cd) U) X), (IH t T). reflexivity. }
  destruct (iconv_meets_spec cd s outb outleft H In_) as (r & E & S & _); [lia|]. exists r. split; [exact E|].
  destruct S as (S1 & _ & S3 & _ & _ & cs1 & cs2 & st & rest & i' & n & R1 & W & X).
  destruct (rd_det _ _ _ _ _ _ _ _ _ _ R1 R0) as (<- & -> & -> & ->).
  apply spelled_app in T2. destruct T2 as (o1 & o2 & T3 & T4 & ->).
  unfold wr in W. rewrite (WS cs1 o1 T3) in W. inversion W as [[Wp Wn Wo]].
  assert (P : r_pos r = length o1) by (rewrite Wp; unfold produced; rewrite firstn_length, S1; lia).
  assert (C1 : forall c l, cs2 = c :: l -> exists bs, emit (ofuncs cd) c (ostate (r_cd r)) = Some (bs, ostate (r_cd r)) /\ (1 <= length bs <= length o2)%nat).
  { intros c l ->. apply spelled_inv in T4. destruct T4 as (a & b & Ra & Tb & ->).
    destruct (en_pos _ _ MR c a Ra) as (U & N). exists a. split; [now apply (en_iff _ _ MR c a _ U)|]. rewrite app_length. destruct a; [congruence|cbn; lia]. }
  rewrite app_length in B.
  destruct (r_ret r) as [m|[]].
  - destruct X as (-> & -> & _ & E1 & _). apply spelled_nil_inv in T4. subst o2. rewrite app_nil_r. auto.
  - exfalso. destruct X as (c & l & Ec & _ & _ & Y). destruct (C1 c l Ec) as (bs & Eb & Lb). specialize (Y bs _ Eb). lia.
  - exfalso. destruct X as (_ & [(_ & X & _)|(c & l & Ec & Wc & _)]); [discriminate|]. destruct (C1 c l Ec) as (bs & Eb & Lb). unfold write1 in Wc. rewrite Eb in Wc. discriminate.
  - destruct X as (_ & X & _). discriminate.
  - destruct X.
Qed.

(** ** Round trips *)
Lemma maps_to_unlisted : forall m irr c bs, listed irr bs c = false -> (maps_to m irr c bs <-> stands_for m c bs).
Proof.
  intros m irr c bs L. unfold maps_to, maps_tob, stands_for. rewrite L, xorb_false_r. destruct (char_of m bs) as [d|]; [|split; discriminate].
  split; intros H; [apply Z.eqb_eq in H; congruence|inversion H; apply Z.eqb_refl].
Qed.
Lemma rendered_spelled : forall R cs out n, rendered R cs out n -> n = 0%nat -> Forall (fun c => tag c = false) cs -> spelled R cs out.
Proof.
  intros R cs out n H. induction H as [|c bs k cs out n A B IH]; intros E T; [apply spelled_nil|].
  inversion T; subst. apply spelled_cons; [|apply IH; [lia|assumption]]. inversion A; subst; [assumption|congruence|lia].
Qed.
Lemma spelled_rendered : forall R cs out, spelled R cs out -> rendered R cs out 0.
Proof.
  induction cs as [|c cs IH]; intros out H; [apply spelled_nil_inv in H; subst; constructor|].
  apply spelled_inv in H. destruct H as (bs & t & A & B & ->). change 0%nat with (0 + 0)%nat. constructor; [now constructor|auto].
Qed.
Lemma text_spelled : forall F cs s, text F cs = Some s <-> spelled (fun c bs => F c = Some bs) cs s.
Proof.
  induction cs as [|c cs IH]; intros s; cbn [text].
  - split; intros H; [inversion H; apply spelled_nil|]. apply spelled_nil_inv in H. now subst.
  - split; intros H.
    + destruct (F c) as [a|] eqn:E; [|discriminate]. destruct (text F cs) as [b|]; [|discriminate]. inversion H. apply (spelled_cons (fun c bs => F c = Some bs)); [exact E|]. now apply IH.
    + apply spelled_inv in H. destruct H as (a & b & A & B & ->). rewrite A. apply IH in B. now rewrite B.
Qed.
Lemma form_text_det : forall f F cs cs' s, implements f F -> text F cs = Some s -> text F cs' = Some s -> cs = cs'.
Proof.
  intros f F cs. induction cs as [|c cs IH]; intros cs' s M A B.
  - cbn in A. inversion A; subst s. destruct cs' as [|d cs']; [reflexivity|]. cbn in B. destruct (F d) as [x|] eqn:Ex; [|discriminate]. destruct (text F cs'); [|discriminate].
    destruct (im_pos f F M d x Ex) as (N & _). destruct x; [congruence|discriminate].
  - cbn in A. destruct (F c) as [a|] eqn:E; [|discriminate]. destruct (text F cs) as [b|] eqn:Eb; [|discriminate]. inversion A; subst s.
    destruct (im_pos f F M c a E) as (N & _). destruct cs' as [|d cs']; [cbn in B; inversion B; destruct a; [congruence|discriminate]|].
    cbn in B. destruct (F d) as [x|] eqn:Ex; [|discriminate]. destruct (text F cs') as [y|] eqn:Ey; [|discriminate]. inversion B as [X].
    pose proof (im_dec f F M c a b (0, 0) E) as P. pose proof (im_dec f F M d x y (0, 0) Ex) as Q. rewrite X, P in Q. inversion Q; subst d.
    assert (a = x) by congruence. subst x. apply app_inv_head in X. subst y. f_equal. eapply IH; eauto.
Qed.

(** Characters that survive in the charmap: not a tag character, and not in the list of irreversible pairs. *)
Definition regular (irr : pairs) (c : Z) : Prop := tag c = false /\ forall bs, listed irr bs c = false.
(** Text written in form F, to the charmap encoding and back. *)
Theorem char_there_and_back : forall to fro x m irr F cs s out, reachable to -> reachable fro -> In (x, m, irr) tables -> In (iindex to, F) forms ->
  oindex to = x -> iindex fro = x -> oindex fro = iindex to -> skipping to = false -> skipping fro = false -> input s -> input out ->
  text F cs = Some s -> Forall (regular irr) cs -> whole to s out 0 -> whole fro out s 0.
Proof.
  intros to fro x m irr F cs s out H1 H2 X I E1 E2 E3 K1 K2 In1 In2 T G W.
  apply (char_whole to (fun c bs => F c = Some bs) (maps_to m irr)) in W; auto; [|now constructor|rewrite E1; econstructor; eauto].
  destruct W as (cs' & T' & W). apply text_spelled in T'. destruct (forms_implemented _ _ I) as (f & _ & M).
  rewrite <- (form_text_det f F cs cs' s M T T') in W. clear cs' T'.
  apply (char_whole fro (stands_for m) (fun c bs => F c = Some bs)); auto; [rewrite E2; econstructor; eauto|rewrite E3; now constructor|].
  exists cs. apply rendered_spelled in W; [|reflexivity|eapply Forall_impl; [|exact G]; now intros a (A & _)].
  split; [|apply spelled_rendered; now apply text_spelled].
  clear - W G. revert out W. induction cs as [|c cs IH]; intros out W; [apply spelled_nil_inv in W; subst; apply spelled_nil|].
  apply spelled_inv in W. destruct W as (bs & t & A & B & ->). inversion G as [|y l (G1 & G2) G3]; subst. apply spelled_cons; [now apply (maps_to_unlisted m irr)|auto].
Qed.
(** Bytes of the charmap encoding, to form F and back. *)
Definition reversible (m : charmap) (irr : pairs) (c : Z) (bs : list Z) : Prop := stands_for m c bs /\ listed irr bs c = false.
Lemma app_split : forall a x b y : list Z, a ++ b = x ++ y -> length a = length x -> b = y.
Proof.
  induction a as [|u a IH]; intros [|v x] b y E L; cbn in *; try discriminate; [exact E|]. inversion E. apply (IH x); [assumption|lia].
Qed.
Lemma char_text_det : forall f D, decodes f D -> forall cs cs' s, spelled D cs s -> spelled D cs' s -> Z.of_nat (length s) <= LIM -> cs = cs'.
Proof.
  intros f D M. induction cs as [|c cs IH]; intros cs' s A B L.
  - apply spelled_nil_inv in A. subst s. destruct cs' as [|d cs']; [reflexivity|]. apply spelled_inv in B. destruct B as (bs & t & P & _ & E).
    destruct (de_pos f D M d bs P) as (N & _). destruct bs; [congruence|discriminate].
  - apply spelled_inv in A. destruct A as (a & b & P & A & ->). destruct (de_pos f D M c a P) as (N & _).
    destruct cs' as [|d cs']; [apply spelled_nil_inv in B; destruct a; [congruence|discriminate]|].
    apply spelled_inv in B. destruct B as (x & y & Q & B & E).
    pose proof (de_char f D M c a b (0, 0) P (spelled_bytes _ _ _ _ M A) L) as V1. rewrite E in L, V1.
    rewrite (de_char f D M d x y (0, 0) Q (spelled_bytes _ _ _ _ M B) L) in V1. inversion V1 as [[V2 V3]]. subst d.
    assert (b = y) by (apply (app_split a x b y); [exact E|lia]).
    subst y. f_equal. apply (IH cs' b); auto. rewrite app_length in L. lia.
Qed.
Theorem char_bytes_and_back : forall to fro x m irr F cs s out, reachable to -> reachable fro -> In (x, m, irr) tables -> In (oindex to, F) forms ->
  iindex to = x -> oindex fro = x -> iindex fro = oindex to -> skipping to = false -> skipping fro = false -> input s -> input out ->
  spelled (reversible m irr) cs s -> Forall (fun c => tag c = false) cs -> whole to s out 0 -> whole fro out s 0.
Proof.
  intros to fro x m irr F cs s out H1 H2 X I E1 E2 E3 K1 K2 In1 In2 T G W.
  assert (RA : reads_as (iindex to) (stands_for m)) by (rewrite E1; econstructor; eauto).
  apply (char_whole to (stands_for m) (fun c bs => F c = Some bs)) in W; auto; [|now constructor].
  destruct W as (cs' & T' & W).
  assert (T2 : spelled (stands_for m) cs s) by (eapply spelled_mono; [|exact T]; now intros c bs (A & _)).
  rewrite <- (char_text_det _ _ (source_decodes to _ H1 RA) cs cs' s T2 T' (proj2 In1)) in W. clear cs' T'.
  apply (char_whole fro (fun c bs => F c = Some bs) (maps_to m irr)); auto; [rewrite E3; now constructor|rewrite E2; econstructor; eauto|].
  exists cs. split; [now apply rendered_spelled with 0%nat|]. apply spelled_rendered. eapply spelled_mono; [|exact T].
  intros c bs (A & B). now apply maps_to_unlisted.
Qed.

(** * C36: single-byte encodings *)
Definition one_byte (x : Z * charmap * pairs) : bool :=
  forallb (fun r => match fst (fst r) with [] => true | _ => false end) (snd (fst x)) && forallb (fun p => match fst p with [_] => true | _ => false end) (snd x).
Lemma sb_one_byte : forallb one_byte sb_tables = true.
Proof. vm_compute. reflexivity. Qed.
Lemma same_spec : forall a b, same a b = true -> a = b.
Proof.
  induction a as [|x a IH]; intros [|y b] H; cbn in H; try discriminate; [reflexivity|]. destruct (Z.eqb_spec x y); [|discriminate]. subst. f_equal. auto.
Qed.
Theorem C36_one_byte_per_character : forall i m irr c bs, In (i, m, irr) sb_tables -> stands_for m c bs \/ maps_to m irr c bs -> length bs = 1%nat.
Proof.
  intros i m irr c bs H Q. pose proof sb_one_byte as A. rewrite forallb_forall in A. specialize (A _ H). unfold one_byte in A. cbn [fst snd] in A.
  apply andb_prop in A. destruct A as (A & B).
  assert (P : forall d, char_of m bs = Some d -> length bs = 1%nat).
  { intros d E. unfold char_of in E. rewrite <- rev_length. destruct (rev bs) as [|b p]; [discriminate|]. cut (rev p = []).
    { intros P. apply (f_equal (@rev Z)) in P. rewrite rev_involutive in P. now subst p. }
    clear - A E. induction m as [|[[q st] l] m IH]; [discriminate|]. cbn in A. apply andb_prop in A. destruct A as (A1 & A2). cbn in E.
    destruct q; [|discriminate]. destruct (same [] (rev p)) eqn:S; [apply same_spec in S; auto|auto]. }
  destruct Q as [Q|Q]; [exact (P c Q)|]. unfold maps_to, maps_tob in Q. destruct (char_of m bs) as [d|]; [exact (P d eq_refl)|]. cbn in Q.
  clear - B Q. induction irr as [|[x d] irr IH]; [discriminate|]. cbn in B. apply andb_prop in B. destruct B as (B1 & B2). cbn in Q.
  destruct (d =? c); [|auto]. destruct (same x bs) eqn:S; [|auto]. apply same_spec in S. subst x. destruct bs as [|? [|]]; try discriminate. reflexivity.
Qed.
Definition stateless (i : Z) : Prop := exists h g, nth_error all_encodings (Z.to_nat i) = Some (mkFuncs (mb0 h) None (wc0 g) None).
Lemma sb_stateless : Forall (fun x => stateless (fst (fst x))) sb_tables.
Proof. unfold sb_tables. repeat (apply Forall_app; split); unfold maps_sb1, maps_sb2, maps_sb3, maps_sb4; repeat (apply Forall_cons; [do 2 eexists; reflexivity|]); apply Forall_nil. Qed.
Definition never_few (i : Z) : bool := match nth_error all_encodings (Z.to_nat i) with
  | Some f => forallb (fun b => match dec f [Z.of_nat b] (0, 0) with Some (DFew _ _) => false | Some _ => true | None => false end) (seq 0 256)
  | None => false end.
Lemma sb_never_few : forallb (fun x => never_few (fst (fst x))) sb_tables = true.
Proof. vm_compute. reflexivity. Qed.
Lemma sb_dec : forall i m irr f b st, In (i, m, irr) sb_tables -> nth_error all_encodings (Z.to_nat i) = Some f -> byte b ->
  (exists c, stands_for m c [b]) \/ dec f [b] st = Some (DIll 0 st).
Proof.
  intros i m irr f b st H E B.
  pose proof (proj1 (Forall_forall _ _) sb_tables_ok _ H) as (f' & E' & M & _). cbn [fst snd] in *. rewrite E in E'. inversion E'; subst f'; clear E'.
  pose proof (proj1 (Forall_forall _ _) sb_stateless _ H) as (h & g & E'). cbn [fst] in E'. rewrite E in E'. inversion E'; subst f; clear E'.
  pose proof sb_never_few as A. rewrite forallb_forall in A. specialize (A _ H). unfold never_few in A. cbn [fst] in A. rewrite E in A.
  rewrite forallb_forall in A. unfold byte in B. specialize (A (Z.to_nat b)). rewrite Z2Nat.id in A by lia. rewrite in_seq in A.
  assert (Bb : bytes [b]) by (repeat constructor; unfold byte; lia).
  rewrite dec_mb0. destruct (dec _ [b] (0, 0)) as [d|] eqn:D; [|specialize (A ltac:(lia)); discriminate].
  destruct d as [k c j|k j|k j]; [left|specialize (A ltac:(lia)); discriminate|right].
  - destruct (de_only _ _ M [b] (0, 0) k c j Bb ltac:(discriminate) ltac:(cbn; unfold LIM; lia) D) as (X & _).
    exists c. destruct (de_pos _ _ M c _ X) as (N & _). destruct k; [destruct N; reflexivity|]. cbn in X. now rewrite firstn_nil in X.
  - destruct (de_st _ _ M [b] (0, 0) _ Bb ltac:(discriminate) ltac:(cbn; unfold LIM; lia) D) as (-> & _). reflexivity.
Qed.

(** ** Decoding: every byte is a character or is reported as invalid, whatever the buffer. *)
Theorem C36_decoding : forall cd m irr s outb outleft r, reachable cd -> In (iindex cd, m, irr) sb_tables -> skipping cd = false ->
  input s -> (outleft <= length outb)%nat -> reiconv_iconv cd (Some s) (Some outb) outleft = Ok r ->
  exists cs pre n, Forall2 (fun c b => stands_for m c [b]) cs pre /\ s = pre ++ r_in r /\ wr cd cs = (produced r, n, ostate (r_cd r), []) /\
   match r_ret r with
   | Num m => m = n /\ r_in r = []
   | Err EILSEQ => exists b t, r_in r = b :: t /\ forall c, stands_for m c [b] -> write1 (ofuncs cd) false c (ostate (r_cd r)) = None
   | Err E2BIG => exists c b t, stands_for m c [b] /\ r_in r = b :: t
   | Err EINVAL => False
   | Err ENOMEM => False
   end.
Proof.
  intros cd m irr s outb outleft r H T K I R E.
  assert (T' : In (iindex cd, m, irr) tables) by (apply in_or_app; now left).
  assert (RA : reads_as (iindex cd) (stands_for m)) by (econstructor; eauto).
  assert (ONE : forall c bs, stands_for m c bs -> exists b, bs = [b]).
  { intros c bs X. pose proof (C36_one_byte_per_character _ m irr c bs T (or_introl X)). destruct bs as [|b [|]]; try discriminate. eauto. }
  assert (DET : forall c c' b, stands_for m c [b] -> stands_for m c' [b] -> c = c') by (unfold stands_for; congruence).
  destruct (char_decoding cd _ s outb outleft r H RA K I R E) as (cs & pre & n & X & Es & W & Y).
  exists cs, pre, n. split.
  { destruct X as (p & F & ->). clear - F ONE. induction F as [|c bs cs p A F IH]; [constructor|]. destruct (ONE c bs A) as (b & ->). cbn. constructor; auto. }
  split; [exact Es|]. split; [exact W|].
  assert (SR : exists k, r_in r = skipn k s).
  { exists (length pre). rewrite Es, skipn_app, skipn_all, Nat.sub_diag. reflexivity. }
  destruct (r_ret r) as [k|[]] eqn:RR; auto.
  - destruct Y as (c & bs & t & A & B). destruct (ONE c bs A) as (b & ->). exists c, b, t. auto.
  - destruct Y as [(N & A & B)|(c & bs & t & A & B & C)].
    + destruct (r_in r) as [|b t]; [congruence|]. exists b, t. split; [reflexivity|]. intros c X'. exfalso. apply A. exists c, [b], t. auto.
    + destruct (ONE c bs A) as (b & ->). exists b, t. split; [exact B|]. intros c' X'. now rewrite (DET c' c b).
  - destruct Y as (N & A). destruct (r_in r) as [|b t] eqn:Er; [congruence|].
    destruct (source_funcs cd H) as (Ef & _).
    assert (Bs : bytes (b :: t)). { destruct SR as (k & Sk). rewrite Sk. apply Forall_skipn. apply I. }
    destruct (sb_dec (iindex cd) m irr (ifuncs cd) b (cd_i (r_cd r)) T Ef) as [(c & X')|D]; [now inversion Bs|apply A; exists c, [b], t; auto|].
    destruct (iconv_meets_spec cd s outb outleft H I R) as (r' & E' & S & H'). rewrite E in E'. inversion E'; subst r'; clear E'.
    destruct S as (_ & _ & _ & _ & SD & cs1 & cs2 & st & rest & i' & n' & R1 & W1 & Z). rewrite RR in Z. destruct Z as (_ & _ & Z1 & _ & Z2 & Z3).
    rewrite Er in Z1. subst rest. pose proof SD as (D1 & D2 & D3 & D4 & D5).
    assert (L : Z.of_nat (length (b :: t)) <= LIM). { destruct SR as (k & Sk). rewrite Sk, skipn_length. destruct I as (_ & L). lia. }
    destruct (reachable_good (r_cd r) H') as (inv & oinv & pend & A1 & A2 & A3 & A4 & A5 & A6). rewrite D2 in A1, A2.
    inversion Bs; subst.
    pose proof (s_ill _ _ A2 [b] t (cd_i (r_cd r)) 0 (cd_i (r_cd r)) (proj1 (proj2 (proj2 A5))) (Forall_cons b H2 (Forall_nil _)) H3 L ltac:(discriminate) D) as Q.
    assert (K' : skipping (r_cd r) = false) by (unfold skipping in *; now rewrite D5).
    unfold rd in Z3. rewrite D2, K' in Z3. inversion Z3; subst; cbn [app] in *; congruence.
Qed.
(** ** Conversion between a single-byte encoding and any encoding given by a charmap or a form: exactly what the tables say. *)
Theorem C36_conversion_from : forall cd m irr R s out n, reachable cd -> In (iindex cd, m, irr) sb_tables -> writes_as (oindex cd) R -> skipping cd = false -> input s ->
  (whole cd s out n <-> exists cs, Forall2 (fun c b => stands_for m c [b]) cs s /\ rendered R cs out n).
Proof.
  intros cd m irr R s out n H T O K I.
  assert (RA : reads_as (iindex cd) (stands_for m)) by (apply (ra_table _ m irr); apply in_or_app; now left).
  rewrite (char_whole cd _ _ s out n H RA O K I).
  assert (EQ : forall cs s, spelled (stands_for m) cs s <-> Forall2 (fun c b => stands_for m c [b]) cs s).
  { clear - T. induction cs as [|c cs IH]; intros s.
    - split; intros X; [apply spelled_nil_inv in X; subst; constructor|inversion X; apply spelled_nil].
    - split; intros X.
      + apply spelled_inv in X. destruct X as (bs & t & A & B & ->).
        pose proof (C36_one_byte_per_character _ m irr c bs T (or_introl A)) as L. destruct bs as [|b [|]]; try discriminate. constructor; [exact A|now apply IH].
      + inversion X; subst. change (y :: l') with ([y] ++ l'). apply spelled_cons; [assumption|now apply IH]. }
  split; intros (cs & A & B); exists cs; (split; [now apply EQ|exact B]).
Qed.
Theorem C36_conversion_to : forall cd m irr D s out n, reachable cd -> reads_as (iindex cd) D -> In (oindex cd, m, irr) sb_tables -> skipping cd = false -> input s ->
  (whole cd s out n <-> exists cs, spelled D cs s /\ rendered (maps_to m irr) cs out n).
Proof.
  intros cd m irr D s out n H RA T K I. apply char_whole; auto. apply (wa_table _ m irr). apply in_or_app. now left.
Qed.
(** ** Round trips *)
Theorem C36_there_and_back : forall to fro x m irr F cs s out, reachable to -> reachable fro -> In (x, m, irr) sb_tables -> In (iindex to, F) forms ->
  oindex to = x -> iindex fro = x -> oindex fro = iindex to -> skipping to = false -> skipping fro = false -> input s -> input out ->
  text F cs = Some s -> Forall (regular irr) cs -> whole to s out 0 -> whole fro out s 0.
Proof. intros to fro x m irr F cs s out H1 H2 T. exact (char_there_and_back to fro x m irr F cs s out H1 H2 (in_or_app _ _ _ (or_introl T))). Qed.
Theorem C36_bytes_and_back : forall to fro x m irr F cs s out, reachable to -> reachable fro -> In (x, m, irr) sb_tables -> In (oindex to, F) forms ->
  iindex to = x -> oindex fro = x -> iindex fro = oindex to -> skipping to = false -> skipping fro = false -> input s -> input out ->
  spelled (reversible m irr) cs s -> Forall (fun c => tag c = false) cs -> whole to s out 0 -> whole fro out s 0.
Proof. intros to fro x m irr F cs s out H1 H2 T. exact (char_bytes_and_back to fro x m irr F cs s out H1 H2 (in_or_app _ _ _ (or_introl T))). Qed.

(** * C37: stateless multi-byte encodings *)
Theorem C37_decoding_partial : forall cd m irr s outb outleft r, reachable cd -> In (iindex cd, m, irr) mb_tables -> skipping cd = false ->
  input s -> (outleft <= length outb)%nat -> reiconv_iconv cd (Some s) (Some outb) outleft = Ok r ->
  exists cs pre n, spelled (stands_for m) cs pre /\ s = pre ++ r_in r /\ wr cd cs = (produced r, n, ostate (r_cd r), []) /\
   match r_ret r with
   | Num m => m = n /\ r_in r = []
   | Err EINVAL => r_in r <> [] /\ ~ begins (stands_for m) (r_in r)
   | Err EILSEQ => r_in r <> [] /\ ~ begins (stands_for m) (r_in r) /\ ~ partial (stands_for m) (r_in r) \/
       exists c bs t, stands_for m c bs /\ r_in r = bs ++ t /\ write1 (ofuncs cd) false c (ostate (r_cd r)) = None
   | Err E2BIG => exists c bs t, stands_for m c bs /\ r_in r = bs ++ t
   | Err ENOMEM => False
   end.
Proof. intros cd m irr s outb outleft r H T. apply char_decoding; auto. apply (ra_table _ m irr). apply in_or_app. now right. Qed.
Theorem C37_conversion_from_partial : forall cd m irr R s out n, reachable cd -> In (iindex cd, m, irr) mb_tables -> writes_as (oindex cd) R -> skipping cd = false -> input s ->
  (whole cd s out n <-> exists cs, spelled (stands_for m) cs s /\ rendered R cs out n).
Proof. intros cd m irr R s out n H T O K I. apply char_whole; auto. apply (ra_table _ m irr). apply in_or_app. now right. Qed.
Theorem C37_conversion_to_partial : forall cd m irr D s out n, reachable cd -> reads_as (iindex cd) D -> In (oindex cd, m, irr) mb_tables -> skipping cd = false -> input s ->
  (whole cd s out n <-> exists cs, spelled D cs s /\ rendered (maps_to m irr) cs out n).
Proof.
  intros cd m irr D s out n H RA T K I. apply char_whole; auto. apply (wa_table _ m irr). apply in_or_app. now right.
Qed.
Theorem C37_there_and_back_partial : forall to fro x m irr F cs s out, reachable to -> reachable fro -> In (x, m, irr) mb_tables -> In (iindex to, F) forms ->
  oindex to = x -> iindex fro = x -> oindex fro = iindex to -> skipping to = false -> skipping fro = false -> input s -> input out ->
  text F cs = Some s -> Forall (regular irr) cs -> whole to s out 0 -> whole fro out s 0.
Proof. intros to fro x m irr F cs s out H1 H2 T. exact (char_there_and_back to fro x m irr F cs s out H1 H2 (in_or_app _ _ _ (or_intror T))). Qed.
Theorem C37_bytes_and_back_partial : forall to fro x m irr F cs s out, reachable to -> reachable fro -> In (x, m, irr) mb_tables -> In (oindex to, F) forms ->
  iindex to = x -> oindex fro = x -> iindex fro = oindex to -> skipping to = false -> skipping fro = false -> input s -> input out ->
  spelled (reversible m irr) cs s -> Forall (fun c => tag c = false) cs -> whole to s out 0 -> whole fro out s 0.
Proof. intros to fro x m irr F cs s out H1 H2 T. exact (char_bytes_and_back to fro x m irr F cs s out H1 H2 (in_or_app _ _ _ (or_intror T))). Qed.

(** ** Examples *)
Ltac table n := apply in_or_app; left; apply (nth_error_In _ n); reflexivity.
Lemma koi8_r_table : In (ei_koi8_r, map_koi8_r, irr_koi8_r) sb_tables.
Proof. table 16%nat. Qed.
Lemma sjis_table : In (ei_sjis, map_sjis, irr_sjis) mb_tables.
Proof. apply (nth_error_In _ 1%nat). reflexivity. Qed.
(* Russian text in KOI8-R. *)
Example ex_C36_decoding : seen (call (opened ei_koi8_r ei_utf8 0) [0xf0; 0xd2; 0x21] 16) = (Num 0, [0xd0; 0x9f; 0xd1; 0x80; 0x21], []) /\
  stands_for map_koi8_r 0x41f [0xf0] /\ stands_for map_koi8_r 0x440 [0xd2] /\ (exists x m irr b, In (x, m, irr) sb_tables /\ forall c, ~ stands_for m c [b]).
Proof.
  split; [run|]. split; [run|]. split; [run|].
  exists ei_iso8859_3, map_iso8859_3, irr_iso8859_3, 0xa5. split; [table 3%nat|]. intros c H. vm_compute in H. discriminate.
Qed.
Example ex_C36_conversion : whole (opened ei_utf8 ei_koi8_r 0) [0xd0; 0x9f; 0xd1; 0x80; 0x21] [0xf0; 0xd2; 0x21] 0 /\
  rendered (maps_to map_koi8_r irr_koi8_r) [0x41f; 0x440; 0x21] [0xf0; 0xd2; 0x21] 0.
Proof. split; [wrun 16%nat|]. apply spelled_rendered. exists [[0xf0]; [0xd2]; [0x21]]. split; [repeat constructor; vm_compute; reflexivity|reflexivity]. Qed.
Example ex_C36_there_and_back : whole (opened ei_koi8_r ei_utf8 0) [0xf0; 0xd2; 0x21] [0xd0; 0x9f; 0xd1; 0x80; 0x21] 0.
Proof.
  apply (C36_there_and_back (opened ei_utf8 ei_koi8_r 0) _ ei_koi8_r map_koi8_r irr_koi8_r utf8_form [0x41f; 0x440; 0x21]);
    [opn|opn|exact koi8_r_table|cbn; auto|run|run|run|run|run|inp|inp|run| |apply ex_C36_conversion].
  repeat constructor; cbn; auto.
Qed.
Example ex_C36_bytes_and_back : whole (opened ei_utf8 ei_koi8_r 0) [0xd0; 0x9f; 0xd1; 0x80; 0x21] [0xf0; 0xd2; 0x21] 0.
Proof.
  apply (C36_bytes_and_back (opened ei_koi8_r ei_utf8 0) _ ei_koi8_r map_koi8_r irr_koi8_r utf8_form [0x41f; 0x440; 0x21]);
    [opn|opn|exact koi8_r_table|cbn; auto|run|run|run|run|run|inp|inp| |repeat constructor|apply ex_C36_there_and_back].
  exists [[0xf0]; [0xd2]; [0x21]]. split; [repeat constructor; vm_compute; reflexivity|reflexivity].
Qed.
(* The side condition on irreversible pairs is needed: ARMSCII-8 reads 28 as U+0028 but writes U+0028 as A5. *)
Example ex_C36_irreversible : whole (opened ei_utf8 ei_armscii_8 0) [0x28] [0xa5] 0 /\ whole (opened ei_armscii_8 ei_utf8 0) [0xa5] [0x28] 0 /\
  whole (opened ei_armscii_8 ei_utf8 0) [0x28] [0x28] 0.
Proof. split; [wrun 16%nat|]. split; wrun 16%nat. Qed.
(* Japanese text in Shift_JIS. *)
Example ex_C37_decoding : seen (call (opened ei_sjis ei_utf16be 0) [0x93; 0xfa; 0x96; 0x7b; 0x41; 0x93] 16) = (Err EINVAL, [0x65; 0xe5; 0x67; 0x2c; 0; 0x41], [0x93]) /\
  stands_for map_sjis 0x65e5 [0x93; 0xfa] /\ stands_for map_sjis 0x672c [0x96; 0x7b].
Proof. split; [run|]. split; run. Qed.
Example ex_C37_conversion : whole (opened ei_utf16be ei_sjis 0) [0x65; 0xe5; 0x67; 0x2c; 0; 0x41] [0x93; 0xfa; 0x96; 0x7b; 0x41] 0 /\
  rendered (maps_to map_sjis irr_sjis) [0x65e5; 0x672c; 0x41] [0x93; 0xfa; 0x96; 0x7b; 0x41] 0.
Proof. split; [wrun 16%nat|]. apply spelled_rendered. exists [[0x93; 0xfa]; [0x96; 0x7b]; [0x41]]. split; [repeat constructor; vm_compute; reflexivity|reflexivity]. Qed.
Example ex_C37_there_and_back : whole (opened ei_sjis ei_utf16be 0) [0x93; 0xfa; 0x96; 0x7b; 0x41] [0x65; 0xe5; 0x67; 0x2c; 0; 0x41] 0.
Proof.
  apply (C37_there_and_back_partial (opened ei_utf16be ei_sjis 0) _ ei_sjis map_sjis irr_sjis utf16be_form [0x65e5; 0x672c; 0x41]);
    [opn|opn|exact sjis_table|cbn; tauto|run|run|run|run|run|inp|inp|run| |apply ex_C37_conversion].
  repeat constructor; cbn; auto.
Qed.
Example ex_C37_bytes_and_back : whole (opened ei_utf16be ei_sjis 0) [0x65; 0xe5; 0x67; 0x2c; 0; 0x41] [0x93; 0xfa; 0x96; 0x7b; 0x41] 0.
Proof.
  apply (C37_bytes_and_back_partial (opened ei_sjis ei_utf16be 0) _ ei_sjis map_sjis irr_sjis utf16be_form [0x65e5; 0x672c; 0x41]);
    [opn|opn|exact sjis_table|cbn; tauto|run|run|run|run|run|inp|inp| |repeat constructor|apply ex_C37_there_and_back].
  exists [[0x93; 0xfa]; [0x96; 0x7b]; [0x41]]. split; [repeat constructor; vm_compute; reflexivity|reflexivity].
Qed.
