(** The loop functions against the reference meaning of Spec.v. *)
From Coq Require Import ZArith List Bool Lia.
From Verif Require Import Base Loop Contract LoopLib LoopProps Spec.
Import ListNotations.
Open Scope Z_scope.
Ltac Zify.zify_post_hook ::= Z.div_mod_to_equations.

Lemma is_tag_tag : forall wc, is_tag wc = tag wc.
Proof.
  intros wc. unfold is_tag, tag. rewrite Z.shiftr_div_pow2 by lia. change (Z.shiftr 0xe0000 7) with 0x1c00. change (2 ^ 7) with 128.
  destruct (Z.eqb_spec (wc / 128) 0x1c00), (Z.leb_spec 0xe0000 wc), (Z.leb_spec wc 0xe007f); cbn; try reflexivity; lia.
Qed.

Lemma writes_all_app : forall f skip cs1 cs2 ost out1 n1 o1,
  writes_all f skip cs1 ost = (out1, n1, o1, []) ->
  writes_all f skip (cs1 ++ cs2) ost =
    let '(out2, n2, o2, bad) := writes_all f skip cs2 o1 in (out1 ++ out2, (n1 + n2)%nat, o2, bad).
Proof.
  intros f skip cs1. induction cs1 as [|wc cs1 IH]; cbn; intros cs2 ost out1 n1 o1 H.
  - inversion H; subst. destruct (writes_all f skip cs2 o1) as [[[? ?] ?] ?]. reflexivity.
  - destruct (write1 f skip wc ost) as [[[bs ost'] c]|]; [|inversion H].
    destruct (writes_all f skip cs1 ost') as [[[out n] o] bad] eqn:E. inversion H; subst.
    rewrite (IH cs2 _ _ _ _ E). destruct (writes_all f skip cs2 o1) as [[[? ?] ?] ?].
    rewrite app_assoc, Nat.add_assoc. reflexivity.
Qed.

Lemma reads_det : forall f u skip s i cs st r i1, reads f u skip s i cs st r i1 ->
  forall cs' st' r' i1', reads f u skip s i cs' st' r' i1' -> cs = cs' /\ st = st' /\ r = r' /\ i1 = i1'.
Proof.
  intros f u skip s i cs st r i1 H. induction H; intros cs' st' r' i1' H'; inversion H'; subst; try congruence; auto;
  try (match goal with A : dec _ _ _ = _, B : dec _ _ _ = _ |- _ => rewrite A in B; inversion B; subst end);
  try (edestruct IHreads as (? & ? & ? & ?); [eassumption|]; subst); auto; congruence.
Qed.

Lemma reads_head : forall f u skip s i k wc i' cs st r i2, s <> [] -> dec f s i = Some (DChar k wc i') ->
  reads f u skip s i cs st r i2 -> exists cs', cs = wc :: cs'.
Proof.
  intros f u skip s i k wc i' cs st r i2 N D R. inversion R; subst; try congruence.
  match goal with A : dec f s i = _ |- _ => rewrite D in A; inversion A; subst end. eauto.
Qed.

Section S.
Variables (fi fo : funcs) (unit : nat) (inv : Z * Z -> Prop) (pend : Z * Z -> bool) (oinv : Z -> Prop)
  (P : Z -> Prop) (disc : bool).
Hypothesis Hd : dec_ok fi unit inv pend P.
Hypothesis Hs : dec_stable fi inv.
Hypothesis He : enc_ok fo oinv P.
Hypothesis Hunit : (1 <= unit)%nat.
Hypothesis Hfffd : P 0xfffd.

(** ** Encoder side *)
Lemma emit_at : forall wc ost o need, enc_at fo wc ost o need -> (need <= MAXNEED)%nat -> emit fo wc ost = o.
Proof.
  intros wc ost o need H L. unfold emit. destruct H as [need A B C|bs ost' A B].
  - destruct (C 16%nat L) as (log & -> & _). reflexivity.
  - destruct (B 16%nat) as (log & -> & W); [lia|unfold MAXNEED in L; lia|].
    destruct (Z.ltb_spec (Z.of_nat (length bs)) 0); [lia|]. rewrite Nat2Z.id. now rewrite (writes_bytes _ _ W).
Qed.
Lemma emit_enc : forall wc ost o need, P wc -> oinv ost -> enc_at fo wc ost o need -> emit fo wc ost = o.
Proof.
  intros wc ost o need Pw O H. destruct (e_wc _ _ _ He ost wc O Pw) as (o' & n' & L & A & _).
  rewrite (enc_at_det fo oinv P _ _ _ _ _ _ H A). eapply emit_at; eauto.
Qed.
Lemma emit_oinv : forall wc ost bs ost', P wc -> oinv ost -> emit fo wc ost = Some (bs, ost') ->
  oinv ost' /\ (length bs <= MAXNEED)%nat /\ bytes bs.
Proof.
  intros wc ost bs ost' Pw O E. destruct (e_wc _ _ _ He ost wc O Pw) as (o & n & L & A & I).
  rewrite (emit_enc _ _ _ _ Pw O A) in E. subst o. split; [exact I|]. inversion A as [|bs0 ost0 H1 H2]; subst. split; [lia|].
  destruct (H2 (Nat.max 1 (length bs))) as (log & _ & W); [lia|lia|]. eapply writes_byte; eauto.
Qed.

Definition pview (p : pres) : option (list Z * Z * nat) := match p with PBytes bs o c => Some (bs, o, c) | PFail => None end.
Lemma putr_write1 : forall wc ost p need, P wc -> oinv ost -> putr fo disc wc ost p need -> write1 fo disc wc ost = pview p.
Proof.
  intros wc ost p need Pw O H. unfold write1.
  destruct H as [bs ost' need A|need A T|need A T D|need bs ost' need' A T D A'|need need' A T D A'];
  rewrite (emit_enc _ _ _ _ Pw O A); cbn [pview]; auto; rewrite <- is_tag_tag, T, ?D; auto;
  rewrite (emit_enc _ _ _ _ Hfffd O A'); auto.
Qed.
Lemma write1_oinv : forall wc ost bs ost' c, P wc -> oinv ost -> write1 fo disc wc ost = Some (bs, ost', c) ->
  oinv ost' /\ (length bs <= MAXNEED)%nat /\ bytes bs /\ (c <= 1)%nat.
Proof.
  intros wc ost bs ost' c Pw O. unfold write1.
  destruct (emit fo wc ost) as [[b o]|] eqn:E.
  - intros X; inversion X; subst. destruct (emit_oinv _ _ _ _ Pw O E) as (A & B & C). auto.
  - destruct (tag wc); [intros X; inversion X; subst; repeat split; auto; [cbn; lia|constructor]|].
    destruct disc; [intros X; inversion X; subst; repeat split; auto; [cbn; lia|constructor]|].
    destruct (emit fo 65533 ost) as [[b o]|] eqn:E2; [|discriminate].
    intros X; inversion X; subst. destruct (emit_oinv _ _ _ _ Hfffd O E2) as (A & B & C). auto.
Qed.
Lemma enc_at_need : forall wc ost o need o' need', enc_at fo wc ost o need -> enc_at fo wc ost o' need' -> need = need'.
Proof.
  intros wc ost o need o' need' H H'. pose proof (enc_at_det fo oinv P _ _ _ _ _ _ H H') as X. subst o'.
  destruct H as [need L A B|bs ost' A B]; inversion H' as [need2 L2 A2 B2|]; subst; [|reflexivity].
  destruct (Nat.lt_trichotomy need need') as [X|[X|X]]; [exfalso|exact X|exfalso].
  - destruct (B need) as (l & E & _); [lia|]. destruct (A2 need) as (l2 & E2 & _); [lia|]. congruence.
  - destruct (B2 need') as (l & E & _); [lia|]. destruct (A need') as (l2 & E2 & _); [lia|]. congruence.
Qed.
Lemma putr_need : forall wc ost p need p' need', putr fo disc wc ost p need -> putr fo disc wc ost p' need' -> need = need'.
Proof.
  intros wc ost p need p' need' H H'.
  destruct H; destruct H'; try congruence;
  repeat match goal with
  | [ A : enc_at fo ?w ?o ?x _, B : enc_at fo ?w ?o ?y _ |- _ ] =>
     pose proof (enc_at_need _ _ _ _ _ _ A B); pose proof (enc_at_det fo oinv P _ _ _ _ _ _ A B); clear B
  end; congruence.
Qed.
(** Room a character may ask for. *)
Lemma putr_room : forall wc ost p need n, P wc -> oinv ost -> putr fo disc wc ost p need -> (n < need)%nat ->
  (need <= MAXNEED)%nat /\
  forall bs ost', emit fo wc ost = Some (bs, ost') -> (n < Nat.max 1 (length bs))%nat.
Proof.
  intros wc ost p need n Pw O H L. split.
  - destruct (putr_total fo unit oinv P disc He Hunit Hfffd wc ost Pw O) as (p' & need' & H' & N & _).
    rewrite (putr_need _ _ _ _ _ _ H H'). lia.
  - intros bs ost' E. destruct H; try (rewrite (emit_enc _ _ _ _ Pw O H) in E; discriminate).
    rewrite (emit_enc _ _ _ _ Pw O H) in E. inversion E; subst. inversion H; subst. lia.
Qed.

Notation reads := (reads fi unit disc).
Notation writes_all := (writes_all fo disc).
Notation ideal := (ideal fi fo unit disc).

Lemma writes_all_oinv : forall cs ost out n o bad, Forall P cs -> oinv ost -> writes_all cs ost = (out, n, o, bad) ->
  oinv o /\ bytes out /\ (length out <= MAXNEED * length cs)%nat /\ (n <= length cs)%nat /\
  exists cs1, cs = cs1 ++ bad /\ writes_all cs1 ost = (out, n, o, []).
Proof.
  induction cs as [|wc cs IH]; cbn; intros ost out n o bad F O H.
  - inversion H; subst. repeat split; auto; [constructor|]. now exists [].
  - inversion F; subst. destruct (write1 fo disc wc ost) as [[[bs ost'] c]|] eqn:E.
    + destruct (write1_oinv _ _ _ _ _ H2 O E) as (A1 & A2 & A3 & A4).
      destruct (writes_all cs ost') as [[[out2 n2] o2] bad2] eqn:E2. inversion H; subst.
      destruct (IH _ _ _ _ _ H3 A1 E2) as (B1 & B2 & B3 & B4 & cs1 & B5 & B6).
      split; [exact B1|]. split; [now apply Forall_app|]. rewrite app_length.
      split; [unfold MAXNEED in *; lia|]. split; [lia|]. exists (wc :: cs1). split; [cbn; now rewrite <- B5|]. cbn. rewrite E, B6. reflexivity.
    + inversion H; subst. split; [exact O|]. split; [constructor|]. split; [cbn; lia|]. split; [lia|].
      now exists [].
Qed.

(** ** Decoder side *)
Lemma reads_total_aux : forall m s i, (meas pend s i <= m)%nat -> inv i -> bytes s -> Z.of_nat (length s) <= LIM ->
  exists cs st r i', reads s i cs st r i' /\ inv i' /\ Forall P cs /\ (length cs <= m)%nat /\ exists k, (k <= length s)%nat /\ r = skipn k s.
Proof.
  induction m as [|m IH]; intros s i M I B L.
  { destruct s; [|cbn in M; unfold meas in M; cbn in M; lia].
    exists [], AtEnd, [], i. repeat split; auto; [constructor|exists 0%nat; auto]. }
  destruct (list_eq_dec Z.eq_dec s []) as [->|Ns].
  { exists [], AtEnd, [], i. repeat split; auto; [constructor|cbn; lia|exists 0%nat; auto]. }
  destruct (d_run _ _ _ _ _ Hd s i I Ns B L) as (d & E & K).
  assert (Lpos : (1 <= length s)%nat) by (destruct s; [congruence|cbn; lia]).
  assert (REC : forall k i', (k <= length s)%nat -> inv i' -> (meas pend (skipn k s) i' <= m)%nat ->
    exists cs st r i2, reads (skipn k s) i' cs st r i2 /\ inv i2 /\ Forall P cs /\ (length cs <= m)%nat /\ exists k', (k' <= length s)%nat /\ r = skipn k' s).
  { intros k i' Hk I' M'. destruct (IH (skipn k s) i' M' I') as (cs & st & r & i2 & A & A2 & A3 & A4 & k' & A5 & A6).
    - now apply Forall_skipn.
    - rewrite skipn_length. lia.
    - exists cs, st, r, i2. repeat split; auto. exists (k + k')%nat. rewrite skipn_length in A5. split; [lia|].
      rewrite A6. apply skipn_skipn. }
  destruct d as [k wc i'|k i'|k i']; cbn in K.
  - destruct K as (K1 & K2 & K3 & K4 & K5 & K6).
    destruct (REC k i') as (cs & st & r & i2 & A & A2 & A3 & A4 & A5); auto.
    { unfold meas in *. rewrite skipn_length. destruct k as [|k].
      - destruct K6 as [K6 K7]; auto. rewrite K6 in M. rewrite K7. lia.
      - destruct (pend i'); lia. }
    exists (wc :: cs), st, r, i2. repeat split; auto; [eapply reads_char; eauto|cbn; lia].
  - destruct K as (K1 & K2 & K3). destruct k as [|k].
    + exists [], Truncated, s, i'. repeat split; auto; [now apply reads_trunc|cbn; lia|]. exists 0%nat. split; [lia|reflexivity].
    + destruct (REC (S k) i') as (cs & st & r & i2 & A & A2 & A3 & A4 & A5); auto.
      { unfold meas in *. rewrite skipn_length. destruct (pend i'); lia. }
      exists cs, st, r, i2. repeat split; auto. eapply reads_shift; eauto.
  - destruct K as (K1 & K2). destruct disc eqn:Dd.
    + destruct (REC (k + unit)%nat i') as (cs & st & r & i2 & A & A2 & A3 & A4 & A5); auto.
      { unfold meas in *. rewrite skipn_length. destruct (pend i'); lia. }
      exists cs, st, r, i2. repeat split; auto. eapply reads_skip; eauto.
    + exists [], Invalid, (skipn k s), i'. repeat split; auto; [now apply reads_inval|cbn; lia|]. exists k. split; [lia|reflexivity].
Qed.
Lemma reads_total : forall s i, inv i -> bytes s -> Z.of_nat (length s) <= LIM ->
  exists cs st r i', reads s i cs st r i' /\ inv i' /\ Forall P cs /\ (length cs <= 2 * length s + 1)%nat /\ exists k, (k <= length s)%nat /\ r = skipn k s.
Proof.
  intros s i I B L. apply reads_total_aux; auto. unfold meas. destruct (pend i); lia.
Qed.
Lemma ipre_reads : forall s i ost out c s1 i1 o1, ipre fi fo unit disc s i ost out c s1 i1 o1 ->
  inv i -> oinv ost -> bytes s -> Z.of_nat (length s) <= LIM ->
  exists cs, Forall P cs /\ writes_all cs ost = (out, c, o1, []) /\
    (forall cs2 st r i2, reads s1 i1 cs2 st r i2 -> reads s i (cs ++ cs2) st r i2) /\ takes fi unit disc s i cs s1 i1.
Proof.
  intros s i ost out c s1 i1 o1 H. induction H as [s i ost|s i ost k wc i' bs ost' c need out cnt s1 i1 o1 N D A H IH|
     s i ost k i' out cnt s1 i1 o1 N D H IH|s i ost k i' out cnt s1 i1 o1 N Dd D H IH]; intros I O B L.
  - exists []. split; [constructor|]. split; [reflexivity|]. split; [auto|constructor].
  - destruct (d_run _ _ _ _ _ Hd s i I N B L) as (d & E & K). rewrite D in E. inversion E; subst d. cbn in K.
    destruct K as (K1 & K2 & K3 & _).
    pose proof (putr_write1 _ _ _ _ K2 O A) as W. cbn in W.
    destruct (write1_oinv _ _ _ _ _ K2 O W) as (O' & _).
    destruct IH as (cs & F & W2 & R & T); auto; [now apply Forall_skipn|rewrite skipn_length; lia|].
    exists (wc :: cs). split; [now constructor|]. split.
    + cbn. rewrite W, W2. reflexivity.
    + split; [intros cs2 st r i2 X; cbn; eapply reads_char; eauto|eapply takes_char; eauto].
  - destruct (d_run _ _ _ _ _ Hd s i I N B L) as (d & E & K). rewrite D in E. inversion E; subst d. cbn in K.
    destruct K as (K1 & K2 & _).
    destruct IH as (cs & F & W2 & R & T); auto; [now apply Forall_skipn|rewrite skipn_length; lia|].
    exists cs. repeat split; auto; [intros; eapply reads_shift; eauto|eapply takes_shift; eauto].
  - destruct (d_run _ _ _ _ _ Hd s i I N B L) as (d & E & K). rewrite D in E. inversion E; subst d. cbn in K.
    destruct K as (K1 & K2).
    destruct IH as (cs & F & W2 & R & T); auto; [now apply Forall_skipn|rewrite skipn_length; lia|].
    exists cs. repeat split; auto; [intros; eapply reads_skip; eauto|eapply takes_skip; eauto].
Qed.

Lemma reads_redo : forall s i k wc i' cs st r i2, inv i -> bytes s -> Z.of_nat (length s) <= LIM -> s <> [] ->
  dec fi s i = Some (DChar k wc i') -> reads s i cs st r i2 -> reads s (fst i, snd i') cs st r i2.
Proof.
  intros s i k wc i' cs st r i2 I B L N D R. inversion R; subst; try congruence.
  rewrite D in H0. inversion H0; subst. eapply reads_char; eauto. eapply s_redo; eauto.
Qed.

Lemma cd_facts : forall cd cd' i o, cd' = at_ cd i o ->
  cd_i cd' = i /\ ostate cd' = o /\ cd' = at_ cd (cd_i cd') (ostate cd').
Proof. intros cd cd' [a b] o ->. repeat split. Qed.

(** ** What one call does *)
Definition call_spec (cd : conv) (s outb : list Z) (outleft : nat) (r : cres) : Prop :=
  mem_ok outb (r_out r) 0 outleft /\ (r_pos r + r_left r)%nat = outleft /\
  (exists k, (k <= length s)%nat /\ r_in r = skipn k s) /\
  r_cd r = at_ cd (cd_i (r_cd r)) (ostate (r_cd r)) /\ inv (cd_i (r_cd r)) /\ oinv (ostate (r_cd r)) /\
  exists cs1 cs2 st rest i' n,
    reads s (cd_i cd) (cs1 ++ cs2) st rest i' /\ Forall P (cs1 ++ cs2) /\
    writes_all cs1 (ostate cd) = (firstn (r_pos r) (r_out r), n, ostate (r_cd r), []) /\
    match r_ret r with
    | Num m => m = n /\ cs2 = [] /\ st = AtEnd /\ r_in r = [] /\ cd_i (r_cd r) = i'
    | Err EINVAL => cs2 = [] /\ st = Truncated /\ r_in r = rest /\ rest <> [] /\ cd_i (r_cd r) = i' /\ dec fi rest i' = Some (DFew 0 i')
    | Err EILSEQ => disc = false /\
       ((cs2 = [] /\ st = Invalid /\ r_in r = rest /\ cd_i (r_cd r) = i' /\ rest <> [] /\ dec fi rest i' = Some (DIll 0 i')) \/
       exists wc cs, cs2 = wc :: cs /\ write1 fo disc wc (ostate (r_cd r)) = None /\
         reads (r_in r) (cd_i (r_cd r)) cs2 st rest i' /\ exists i1, takes fi unit disc s (cd_i cd) cs1 (r_in r) i1)
    | Err E2BIG => exists wc cs, cs2 = wc :: cs /\ (reads (r_in r) (cd_i (r_cd r)) cs2 st rest i' /\ exists i1, takes fi unit disc s (cd_i cd) cs1 (r_in r) i1) /\
         (r_left r < MAXNEED)%nat /\
         forall bs ost', emit fo wc (ostate (r_cd r)) = Some (bs, ost') -> (r_left r < Nat.max 1 (length bs))%nat
    | Err ENOMEM => False
    end.

Lemma convert_spec : forall cd s outb outleft, cd_ok fi fo unit inv oinv disc cd -> bytes s -> Z.of_nat (length s) <= LIM ->
  (outleft <= length outb)%nat ->
  exists r, loop_convert cd s outb outleft = Ok r /\ call_spec cd s outb outleft r.
Proof.
  intros cd s outb outleft C B L R.
  destruct (loop_convert_spec fi fo unit inv pend oinv P disc Hd He Hunit Hfffd cd s outb outleft C B L R) as (r & E & S).
  exists r. split; [exact E|]. pose proof C as (C1 & C2 & C3 & C4 & C5 & C6).
  destruct S as (out & c & s1 & i1 & o1 & k & Q1 & Q2 & Q3 & Q4 & Q5 & Q6 & Q7 & Q8 & Q9 & Q10 & Q11).
  destruct (ipre_reads _ _ _ _ _ _ _ _ Q1 C3 C4 B L) as (cs1 & F1 & W1 & RD & TK).
  cbn [Nat.add firstn app] in Q7, Q8. rewrite <- Q8 in Q7. rewrite Nat.add_0_r in Q11.
  assert (B1 : bytes s1) by (subst s1; now apply Forall_skipn).
  assert (L1 : Z.of_nat (length s1) <= LIM) by (subst s1; rewrite skipn_length; lia).
  destruct (reads_total s1 i1 Q4 B1 L1) as (cs2 & st & rest & i' & RT & _ & F2 & _).
  split; [exact Q6|]. split; [lia|].
  destruct Q11 as [E1 E2 E3 E4|N1 D E2 E3 E4|k' i2 N1 D Dd E2 E3 E4|k' wc i2 need N1 D A Ln E2 E3 E4|k' wc i2 p need N1 D A Ln E2 E3 E4].
  - destruct (cd_facts _ _ _ _ E4) as (X1 & X2 & X3).
    split; [exists k; split; [exact Q2|]; now rewrite E3, <- Q3|]. 
    split; [exact X3|]. rewrite X1, X2. split; [exact Q4|]. split; [exact Q5|].
    exists cs1, [], AtEnd, [], i1, c. rewrite E1 in RD. rewrite E2.
    split; [apply RD; constructor|]. rewrite app_nil_r. split; [exact F1|]. split; [now rewrite Q7|]. repeat split; auto.
  - destruct (cd_facts _ _ _ _ E4) as (X1 & X2 & X3).
    split; [exists k; split; [exact Q2|]; now rewrite E3, <- Q3|]. 
    split; [exact X3|]. rewrite X1, X2. split; [exact Q4|]. split; [exact Q5|].
    exists cs1, [], Truncated, s1, i1, c. rewrite E2.
    split; [apply RD; now apply reads_trunc|]. rewrite app_nil_r. split; [exact F1|]. split; [now rewrite Q7|]. repeat split; auto.
  - destruct (d_run _ _ _ _ _ Hd s1 i1 Q4 N1 B1 L1) as (d & Ed & K). rewrite D in Ed. inversion Ed; subst d. cbn in K. destruct K as (K1 & K2).
    destruct (cd_facts _ _ _ _ E4) as (X1 & X2 & X3).
    split; [exists (k + k')%nat; subst s1; rewrite skipn_length in K1; split; [lia|]; now rewrite E3, <- skipn_skipn|].
    split; [exact X3|]. rewrite X1, X2. split; [exact K2|]. split; [exact Q5|].
    exists cs1, [], Invalid, (skipn k' s1), i2, c. rewrite E2.
    split; [apply RD; now apply reads_inval|]. rewrite app_nil_r. split; [exact F1|]. split; [now rewrite Q7|].
    split; [exact Dd|]. left. repeat split; auto; [intros X; apply (f_equal (@length Z)) in X; rewrite skipn_length in X; cbn in X; lia|]. exact (s_ill_redo _ _ Hs s1 i1 k' i2 Q4 B1 L1 N1 D).
  - destruct (d_run _ _ _ _ _ Hd s1 i1 Q4 N1 B1 L1) as (d & Ed & K). rewrite D in Ed. inversion Ed; subst d. cbn in K.
    destruct K as (K1 & K2 & K3 & K4 & K5 & K6).
    destruct (cd_facts _ _ _ _ E4) as (X1 & X2 & X3).
    split; [exists k; split; [exact Q2|]; now rewrite E3, <- Q3|]. 
    split; [exact X3|]. rewrite X1, X2. split; [exact K4|]. split; [exact Q5|].
    exists cs1, cs2, st, rest, i', c. rewrite E2, E3.
    split; [now apply RD|]. split; [now apply Forall_app|]. split; [now rewrite Q7|].
    split; [inversion A; auto|]. right. destruct (reads_head _ _ _ _ _ _ _ _ _ _ _ _ N1 D RT) as (cs & Ecs). exists wc, cs. split; [exact Ecs|]. split.
    { rewrite (putr_write1 _ _ _ _ K2 Q5 A). reflexivity. }
    split; [eapply reads_redo; eauto|eauto].
  - destruct (d_run _ _ _ _ _ Hd s1 i1 Q4 N1 B1 L1) as (d & Ed & K). rewrite D in Ed. inversion Ed; subst d. cbn in K.
    destruct K as (K1 & K2 & K3 & K4 & K5 & K6).
    destruct (cd_facts _ _ _ _ E4) as (X1 & X2 & X3).
    split; [exists k; split; [exact Q2|]; now rewrite E3, <- Q3|]. 
    split; [exact X3|]. rewrite X1, X2. split; [exact K4|]. split; [exact Q5|].
    exists cs1, cs2, st, rest, i', c. rewrite E2, E3.
    split; [now apply RD|]. split; [now apply Forall_app|]. split; [now rewrite Q7|].
    destruct (reads_head _ _ _ _ _ _ _ _ _ _ _ _ N1 D RT) as (cs & Ecs). exists wc, cs. split; [exact Ecs|]. rewrite ?X1, ?E3. split; [split; [eapply reads_redo; eauto|eauto]|].
    destruct (putr_room _ _ _ _ _ K2 Q5 A Ln) as (NM & RO). split; [lia|exact RO].
Qed.

(** ** Chunking *)
Lemma reads_app : forall s i cs st r i1, reads s i cs st r i1 ->
  forall t, inv i -> bytes s -> bytes t -> Z.of_nat (length (s ++ t)) <= LIM ->
  match st with
  | Invalid => reads (s ++ t) i cs Invalid (r ++ t) i1
  | AtEnd | Truncated => forall cs2 st2 r2 i2, reads (r ++ t) i1 cs2 st2 r2 i2 -> reads (s ++ t) i (cs ++ cs2) st2 r2 i2
  end.
Proof.
  induction 1 as [i | s i k wc i' cs st r i2 Ns E D IH | s i k i' cs st r i2 Ns E D IH | s i i' Ns E
    | s i k i' cs st r i2 Ns Dd E D IH | s i k i' Ns Dd E];
  intros t I B Bt L.
  - cbn. auto.
  - assert (Nst : s ++ t <> []) by (destruct s; [congruence|discriminate]).
    destruct (d_run _ _ _ _ _ Hd s i I Ns B ltac:(rewrite app_length in L; lia)) as (d & E2 & K).
    rewrite E in E2; inversion E2; subst d. cbn in K. destruct K as (K1 & K2 & K3 & _).
    pose proof (s_char _ _ Hs s t i k wc i' I B Bt L Ns E) as E'.
    assert (L' : Z.of_nat (length (skipn k s ++ t)) <= LIM)
      by (rewrite app_length, skipn_length; rewrite app_length in L; lia).
    specialize (IH t K3 ltac:(now apply Forall_skipn) Bt L').
    destruct st; try (intros cs2 st2 r2 j2 D2; cbn; eapply reads_char; eauto; rewrite skipn_app_le by lia; now apply IH);
    eapply reads_char; eauto; rewrite skipn_app_le by lia; exact IH.
  - assert (Nst : s ++ t <> []) by (destruct s; [congruence|discriminate]).
    destruct (d_run _ _ _ _ _ Hd s i I Ns B ltac:(rewrite app_length in L; lia)) as (d & E2 & K).
    rewrite E in E2; inversion E2; subst d. cbn in K. destruct K as (K1 & K2 & K3).
    assert (L' : Z.of_nat (length (skipn (S k) s ++ t)) <= LIM)
      by (rewrite app_length, skipn_length; rewrite app_length in L; lia).
    specialize (IH t K2 ltac:(now apply Forall_skipn) Bt L').
    assert (KEY : forall c f0 o j, reads (skipn (S k) s ++ t) i' c f0 o j -> reads (s ++ t) i c f0 o j).
    { intros c f0 o j0 D0.
      assert (SK : forall j, skipn (S k + j) (s ++ t) = skipn j (skipn (S k) s ++ t)).
      { intro j. rewrite <- skipn_app_le by lia. rewrite skipn_skipn. reflexivity. }
      assert (SK0 : skipn (S k) (s ++ t) = skipn (S k) s ++ t) by (apply skipn_app_le; lia).
      destruct (list_eq_dec Z.eq_dec (skipn (S k) s ++ t) []) as [En|Nn].
      - assert (t = []) as -> by (destruct (skipn (S k) s); [exact En|discriminate]).
        rewrite app_nil_r in *. eapply reads_shift; eauto.
      - destruct (s_few _ _ Hs s t i k i' I B Bt L Ns E Nn) as [E'|(d & E1 & E')].
        + eapply reads_shift; eauto. rewrite SK0. exact D0.
        + assert (Z0 : forall i2, dec fi (skipn (S k) s ++ t) i' = Some (DFew 0 i2) -> i2 = i').
          { intros i3 Ei2. destruct (d_run _ _ _ _ _ Hd (skipn (S k) s ++ t) i' K2 Nn) as (d2 & Ed2 & Kd2); auto.
            - apply Forall_app. split; [now apply Forall_skipn|exact Bt].
            - rewrite Ei2 in Ed2. inversion Ed2; subst d2. cbn in Kd2. now apply Kd2. }
          clear L' IH. set (u := skipn (S k) s ++ t) in *. clearbody u.
          inversion D0; subst; try congruence;
          match goal with [ A : dec fi ?v ?j = Some d, B : dec fi ?v ?j = Some ?x |- _ ] => rewrite A in B; inversion B; subst; clear B end;
          cbn [dshift] in E'.
          * eapply reads_char; eauto. rewrite SK. assumption.
          * match type of E' with _ = Some (DFew (S k + S ?j) _) => change (S k + S j)%nat with (S (k + S j)) in E' end.
            eapply reads_shift; [exact Nst|exact E'|]. match goal with |- Spec.reads _ _ _ (skipn (S (k + S ?j)) _) _ _ _ _ _ => change (S (k + S j)) with (S k + S j)%nat end. rewrite SK. assumption.
          * rewrite Nat.add_0_r in E'. rewrite (Z0 _ E1) in *. eapply reads_shift; [exact Nst|exact E'|]. exact D0.
          * eapply reads_skip; eauto. rewrite <- Nat.add_assoc, SK. assumption.
          * rewrite <- SK. eapply reads_inval; eauto. }
    destruct st; try (intros cs2 st2 r2 j2 D2; apply KEY; now apply IH); apply KEY; exact IH.
  - cbn. destruct (d_run _ _ _ _ _ Hd s i I Ns B ltac:(rewrite app_length in L; lia)) as (d & E2 & K).
    rewrite E in E2; inversion E2; subst d. cbn in K. destruct K as (K1 & K2 & K3).
    rewrite K3 by reflexivity. auto.
  - assert (Nst : s ++ t <> []) by (destruct s; [congruence|discriminate]).
    destruct (d_run _ _ _ _ _ Hd s i I Ns B ltac:(rewrite app_length in L; lia)) as (d & E2 & K).
    rewrite E in E2; inversion E2; subst d. cbn in K. destruct K as (K1 & K2).
    pose proof (s_ill _ _ Hs s t i k i' I B Bt L Ns E) as E'.
    assert (L' : Z.of_nat (length (skipn (k + unit) s ++ t)) <= LIM)
      by (rewrite app_length, skipn_length; rewrite app_length in L; lia).
    specialize (IH t K2 ltac:(now apply Forall_skipn) Bt L').
    destruct st; try (intros cs2 st2 r2 j2 D2; eapply reads_skip; eauto; rewrite skipn_app_le by lia; now apply IH);
    eapply reads_skip; eauto; rewrite skipn_app_le by lia; exact IH.
  - cbn. assert (Nst : s ++ t <> []) by (destruct s; [congruence|discriminate]).
    destruct (d_run _ _ _ _ _ Hd s i I Ns B ltac:(rewrite app_length in L; lia)) as (d & E2 & K).
    rewrite E in E2; inversion E2; subst d. cbn in K. destruct K as (K1 & K2).
    pose proof (s_ill _ _ Hs s t i k i' I B Bt L Ns E) as E'.
    rewrite <- skipn_app_le by lia. eapply reads_inval; eauto.
Qed.

(** ** What a flush does *)
Lemma frst_closing : forall ost bs, oinv ost -> frst fo ost bs -> closing fo ost = bs /\ (length bs <= MAXNEED)%nat.
Proof.
  intros ost bs O H. destruct (frst_total fo unit oinv P He Hunit ost O) as (bs' & H' & L).
  rewrite (frst_det _ _ Hunit _ _ _ H H') in *. split; [|exact L]. clear H. unfold closing. destruct H' as [E|rst bs' o1 E A B]; rewrite E; [reflexivity|].
  destruct (B 16%nat L) as (log & -> & W). rewrite Nat2Z.id. now apply writes_bytes.
Qed.
Lemma fpend_held : forall i ost p need ist', inv i -> oinv ost -> fpend fi fo disc i ost p need ist' ->
  Forall P (held fi (fst i)) /\ held fi ist' = [] /\ pres_inv oinv p /\ inv (ist', snd i) /\
  match p with
  | PBytes bs o c => writes_all (held fi (fst i)) ost = (bs, c, o, [])
  | PFail => exists wc, held fi (fst i) = [wc] /\ write1 fo disc wc ost = None
  end.
Proof.
  intros i ost p need ist' I O H. pose proof (d_flush _ _ _ _ _ Hd i I) as F. unfold held.
  destruct H as [E|fl w E G|fl b wc ist' p need E G N A]; rewrite E in *.
  - repeat split; auto. now rewrite <- surjective_pairing.
  - rewrite G. assert (X : match w with Some wc => if 0 =? 0 then [] else [wc] | None => [] end = []) by (destruct w; reflexivity).
    rewrite X. repeat split; auto. now rewrite <- surjective_pairing.
  - destruct F as (b2 & w2 & ist2 & F1 & F2 & F3 & F4). rewrite G in F1. inversion F1; subst.
    destruct (F4 N) as (wc2 & X & Pw & w' & G'). inversion X; subst wc2. rewrite G, G'.
    destruct (Z.eqb_spec b2 0); [congruence|]. split; [now constructor|].
    split; [destruct w'; reflexivity|].
    pose proof (putr_write1 _ _ _ _ Pw O A) as W. split.
    { destruct p as [bs o c|]; [|exact Logic.I]. cbn in W. eapply write1_oinv; eauto. }
    split; [exact F2|]. destruct p as [bs o c|]; cbn in W.
    + cbn. rewrite W. now rewrite app_nil_r, Nat.add_0_r.
    + exists wc. auto.
Qed.

Definition flush_spec (cd : conv) (outb : list Z) (outleft : nat) (r : cres) : Prop :=
  mem_ok outb (r_out r) 0 outleft /\ (r_pos r + r_left r)%nat = outleft /\ r_in r = [] /\
  r_cd r = at_ cd (cd_i (r_cd r)) (ostate (r_cd r)) /\ inv (cd_i (r_cd r)) /\ oinv (ostate (r_cd r)) /\
  let h := held fi (istate cd) in
  Forall P h /\
  match r_ret r with
  | Num c => exists out o1, writes_all h (ostate cd) = (out, c, o1, []) /\
      firstn (r_pos r) (r_out r) = out ++ closing fo o1 /\ r_cd r = at_ cd (0, ibyteorder cd) 0
  | Err E2BIG => exists h1 n, writes_all h1 (ostate cd) = (firstn (r_pos r) (r_out r), n, ostate (r_cd r), []) /\
      h = h1 ++ held fi (istate (r_cd r)) /\ ibyteorder (r_cd r) = ibyteorder cd /\ (r_left r < MAXNEED)%nat /\
      (held fi (istate (r_cd r)) = [] -> (r_left r < length (closing fo (ostate (r_cd r))))%nat) /\
      (forall wc bs ost', held fi (istate (r_cd r)) = [wc] -> emit fo wc (ostate (r_cd r)) = Some (bs, ost') -> (r_left r < Nat.max 1 (length bs))%nat)
  | Err EILSEQ => disc = false /\ r_cd r = cd /\ r_pos r = 0%nat /\ exists wc, h = [wc] /\ write1 fo disc wc (ostate cd) = None
  | _ => False
  end.

Lemma reset_spec : forall cd outb outleft, cd_ok fi fo unit inv oinv disc cd -> (outleft <= length outb)%nat ->
  ((1 <= outleft)%nat \/ held fi (istate cd) = []) ->
  exists r, loop_reset cd outb outleft = Ok r /\ flush_spec cd outb outleft r.
Proof.
  intros cd outb outleft C R H. pose proof C as (C1 & C2 & C3 & C4 & C5 & C6).
  destruct (fpend_total fi fo unit inv pend oinv P disc Hd He Hunit Hfffd (cd_i cd) (ostate cd) C3 C4)
    as (p0 & need0 & ist0 & FP0 & N0 & PI0 & II0 & Z0 & LB0).
  destruct (loop_reset_spec fi fo unit inv pend oinv P disc Hd He Hunit Hfffd cd outb outleft C R) as (r & E & S).
  { destruct H as [H|H]; [now left|right]. change (istate cd) with (fst (cd_i cd)) in H.
    inversion FP0; subst.
    - exists (fst (cd_i cd)). constructor; auto.
    - exists (fst (cd_i cd)). eapply fp_zero; eauto.
    - unfold held in H. rewrite H0, H1 in H. destruct (Z.eqb_spec b 0); [congruence|discriminate]. }
  exists r. split; [exact E|]. clear C C1 C2 C5 C6. unfold flush_spec. change (istate cd) with (fst (cd_i cd)).
  destruct S as [bs1 ost1 c need ist' bs2 outb' FP FR N L M F|p need ist' outb' FP N M|need ist' outb' FP N M|bs1 ost1 c need ist' bs2 outb' FP FR N L M F];
  destruct (fpend_held _ _ _ _ _ C3 C4 FP) as (A1 & A2 & A3 & A4 & A5); cbn [r_out r_pos r_left r_in r_cd r_ret].
  - destruct (frst_closing _ _ A3 FR) as (X & _).
    split; [exact M|]. split; [lia|]. split; [reflexivity|]. split; [destruct cd; reflexivity|]. cbn [at_ cd_i istate ibyteorder fst snd ostate].
    split; [unfold cd_i; cbn; exact (d_reset _ _ _ _ _ Hd _ C3)|]. split; [apply (e_init _ _ _ He)|]. split; [exact A1|].
    exists bs1, ost1. rewrite X. auto.
  - split; [exact M|]. split; [lia|]. split; [reflexivity|]. split; [now rewrite at_id|]. split; [exact C3|]. split; [exact C4|].
    split; [exact A1|]. exists [], 0%nat. split; [reflexivity|]. split; [reflexivity|]. split; [reflexivity|].
    inversion FP; subst; try lia.
    pose proof (d_flush _ _ _ _ _ Hd _ C3) as Fl. rewrite H0 in Fl. destruct Fl as (b2 & w2 & ist2 & F1 & F2 & F3 & F4). rewrite H1 in F1. inversion F1; subst.
    destruct (F4 H2) as (wc2 & X & Pw & w' & G'). inversion X; subst wc2.
    destruct (putr_room _ _ _ _ _ Pw C4 H3 N) as (NM & NR). split; [lia|]. change (istate cd) with (fst (cd_i cd)).
    unfold held. rewrite H0, H1. destruct (Z.eqb_spec b2 0); [congruence|]. split; [discriminate|].
    intros wc2 bs ost' HE EM. inversion HE; subst wc2. eapply NR; eauto.
  - split; [exact M|]. split; [lia|]. split; [reflexivity|]. split; [now rewrite at_id|]. split; [exact C3|]. split; [exact C4|].
    split; [exact A1|]. split; [|auto].
    inversion FP; subst. match goal with Q : putr _ _ _ _ PFail _ |- _ => inversion Q; auto end.
  - destruct (frst_closing _ _ A3 FR) as (X & XL). rewrite app_length in L.
    split; [exact M|]. split; [lia|]. split; [reflexivity|]. split; [destruct cd; reflexivity|]. cbn [at_ cd_i istate ibyteorder fst snd ostate].
    split; [exact A4|]. split; [exact A3|]. split; [exact A1|].
    exists (held fi (fst (cd_i cd))), c. unfold cd_i in *. cbn [fst snd istate ibyteorder at_ ostate] in *. split; [rewrite A5, F; reflexivity|]. rewrite A2, app_nil_r.
    split; [reflexivity|]. split; [reflexivity|]. rewrite X. split; [lia|]. split; [intros _; lia|]. intros ? ? ? Y. discriminate.
Qed.
End S.
