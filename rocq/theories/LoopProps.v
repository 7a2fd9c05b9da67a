(** The conversion loop against an idealised conversion with unlimited output. *)
From Coq Require Import ZArith List Bool Lia.
From Verif Require Import Base Loop Contract LoopLib.
Import ListNotations.
Open Scope Z_scope.
Ltac Zify.zify_post_hook ::= Z.div_mod_to_equations.

(** Outcome of handing one character to the target encoding. *)
Inductive pres : Type := PBytes (bs : list Z) (ost' : Z) (c : nat) | PFail.
Definition is_tag (wc : Z) : bool := Z.shiftr wc 7 =? Z.shiftr 0xe0000 7.

(** How an ideal conversion ends. *)
Inductive istat : Type := SDone | SInval | SIll | SUnenc (wc : Z).
(** End of an ideal conversion.  For SIll the rest starts at the invalid bytes, for SUnenc it starts after the
    character that cannot be encoded. *)
Record fin : Type := mkFin { f_st : istat; f_rest : list Z; f_i : Z * Z; f_o : Z }.

Definition at_ (cd : conv) (i : Z * Z) (ost : Z) : conv :=
  mkConv (iindex cd) (ifuncs cd) (snd i) (fst i) (oindex cd) (ofuncs cd) ost (discard_ilseq cd).
Definition cd_i (cd : conv) : Z * Z := (istate cd, ibyteorder cd).

Lemma at_id : forall cd, at_ cd (cd_i cd) (ostate cd) = cd.
Proof. intros []. reflexivity. Qed.

Section Loop.
Variables (fi fo : funcs) (unit : nat) (inv : Z * Z -> Prop) (pend : Z * Z -> bool) (oinv : Z -> Prop)
  (P : Z -> Prop) (disc : bool).

Inductive putr (wc ost : Z) : pres -> nat -> Prop :=
| put_ok bs ost' need : enc_at fo wc ost (Some (bs, ost')) need -> putr wc ost (PBytes bs ost' 0) need
| put_tag need : enc_at fo wc ost None need -> is_tag wc = true -> putr wc ost (PBytes [] ost 0) need
| put_disc need : enc_at fo wc ost None need -> is_tag wc = false -> disc = true -> putr wc ost (PBytes [] ost 1) need
| put_sub need bs ost' need' : enc_at fo wc ost None need -> is_tag wc = false -> disc = false ->
    enc_at fo 0xfffd ost (Some (bs, ost')) need' -> putr wc ost (PBytes bs ost' 1) (Nat.max need need')
| put_fail need need' : enc_at fo wc ost None need -> is_tag wc = false -> disc = false ->
    enc_at fo 0xfffd ost None need' -> putr wc ost PFail (Nat.max need need').

Inductive ideal : list Z -> Z * Z -> Z -> list Z -> nat -> fin -> Prop :=
| id_nil i ost : ideal [] i ost [] 0 (mkFin SDone [] i ost)
| id_char s i ost k wc i' bs ost' c need out cnt f :
    s <> [] -> dec fi s i = Some (DChar k wc i') -> putr wc ost (PBytes bs ost' c) need ->
    ideal (skipn k s) i' ost' out cnt f -> ideal s i ost (bs ++ out) (c + cnt) f
| id_unenc s i ost k wc i' need :
    s <> [] -> dec fi s i = Some (DChar k wc i') -> putr wc ost PFail need ->
    ideal s i ost [] 0 (mkFin (SUnenc wc) (skipn k s) i' ost)
| id_few0 s i ost i' :
    s <> [] -> dec fi s i = Some (DFew 0 i') -> ideal s i ost [] 0 (mkFin SInval s i' ost)
| id_few s i ost k i' out cnt f :
    s <> [] -> dec fi s i = Some (DFew (S k) i') -> ideal (skipn (S k) s) i' ost out cnt f -> ideal s i ost out cnt f
| id_skip s i ost k i' out cnt f :
    s <> [] -> disc = true -> dec fi s i = Some (DIll k i') -> ideal (skipn (k + unit) s) i' ost out cnt f ->
    ideal s i ost out cnt f
| id_ill s i ost k i' :
    s <> [] -> disc = false -> dec fi s i = Some (DIll k i') -> ideal s i ost [] 0 (mkFin SIll (skipn k s) i' ost).

(** ** Encoder side *)
Lemma writes_len0 : forall log bs bs', writes log bs -> writes log bs' -> length bs = length bs' -> bs = bs'.
Proof.
  intros log bs bs' H H' L. apply writes_bytes in H. apply writes_bytes in H'. rewrite <- H, <- H', L. reflexivity.
Qed.

Lemma enc_at_det : forall wc ost o need o' need', enc_at fo wc ost o need -> enc_at fo wc ost o' need' -> o = o'.
Proof.
  intros wc ost o need o' need' H H'.
  destruct H as [need L A B|bs ost1 A B]; destruct H' as [need' L' A' B'|bs' ost1' A' B']; [reflexivity| | |].
  - destruct (B (Nat.max need (Nat.max 1 (length bs')))) as (l & E & _); [lia|].
    destruct (B' (Nat.max need (Nat.max 1 (length bs')))) as (l' & E' & _); [lia|lia|]. rewrite E in E'. inversion E'. lia.
  - destruct (B (Nat.max need' (Nat.max 1 (length bs)))) as (l & E & _); [lia|lia|].
    destruct (B' (Nat.max need' (Nat.max 1 (length bs)))) as (l' & E' & _); [lia|]. rewrite E in E'. inversion E'. lia.
  - set (n := Nat.max 1 (Nat.max (length bs) (length bs'))).
    destruct (B n) as (l & E & W); [lia|lia|]. destruct (B' n) as (l' & E' & W'); [lia|lia|].
    rewrite E in E'. inversion E'; subst. f_equal. f_equal. eapply writes_len0; eauto. lia.
Qed.

Lemma putr_det : forall wc ost p need p' need', putr wc ost p need -> putr wc ost p' need' -> p = p'.
Proof.
  intros wc ost p need p' need' H H'.
  destruct H; destruct H'; try congruence;
  repeat match goal with
  | [ A : enc_at fo ?w ?o ?x _, B : enc_at fo ?w ?o ?y _ |- _ ] => pose proof (enc_at_det _ _ _ _ _ _ A B); clear B
  end; congruence.
Qed.

Hypothesis Hd : dec_ok fi unit inv pend P.
Hypothesis Hs : dec_stable fi inv.
Hypothesis He : enc_ok fo oinv P.
Hypothesis Hunit : (1 <= unit)%nat.
Hypothesis Hfffd : P 0xfffd.

Definition pres_inv (p : pres) : Prop := match p with PBytes bs ost' _ => oinv ost' | PFail => True end.

Lemma putr_total : forall wc ost, P wc -> oinv ost ->
  exists p need, putr wc ost p need /\ (1 <= need <= MAXNEED)%nat /\ pres_inv p /\
     match p with PBytes bs _ _ => (length bs <= need)%nat | PFail => True end.
Proof.
  intros wc ost Hp Ho.
  assert (N1 : forall w o need, enc_at fo w ost o need -> (1 <= need)%nat /\ match o with Some (bs, _) => (length bs <= need)%nat | None => True end).
  { intros w o need H. destruct H; lia. }
  destruct (e_wc _ _ _ He ost wc Ho Hp) as (o & need & L & A & I).
  destruct (N1 _ _ _ A) as [L1 L2].
  destruct o as [[bs ost']|].
  - exists (PBytes bs ost' 0), need. repeat split; auto. now constructor.
  - destruct (is_tag wc) eqn:T.
    + exists (PBytes [] ost 0), need. repeat split; auto; [now constructor|cbn; lia].
    + destruct disc eqn:D.
      * exists (PBytes [] ost 1), need. repeat split; auto; [now constructor|cbn; lia].
      * destruct (e_wc _ _ _ He ost 0xfffd Ho Hfffd) as (o2 & need2 & L3 & A2 & I2).
        destruct (N1 _ _ _ A2) as [L4 L5].
        destruct o2 as [[bs ost']|].
        -- exists (PBytes bs ost' 1), (Nat.max need need2). repeat split; auto; try lia. econstructor; eauto.
        -- exists PFail, (Nat.max need need2). repeat split; try lia. econstructor; eauto.
Qed.

(** ** Totality and determinism of the ideal conversion *)
Definition meas (s : list Z) (i : Z * Z) : nat := (2 * length s + if pend i then 1 else 0)%nat.

Lemma ideal_total_aux : forall m s i ost, (meas s i <= m)%nat -> inv i -> oinv ost -> bytes s -> Z.of_nat (length s) <= LIM ->
  exists out cnt f, ideal s i ost out cnt f /\ inv (f_i f) /\ oinv (f_o f) /\
    exists k, (k <= length s)%nat /\ f_rest f = skipn k s.
Proof.
  induction m as [|m IH]; intros s i ost M I O B L.
  { destruct s; [|cbn in M; unfold meas in M; cbn in M; lia].
    exists [], 0%nat, (mkFin SDone [] i ost). repeat split; auto; [constructor|exists 0%nat; auto]. }
  destruct (list_eq_dec Z.eq_dec s []) as [->|Ns].
  { exists [], 0%nat, (mkFin SDone [] i ost). repeat split; auto; [constructor|exists 0%nat; auto]. }
  destruct (d_run _ _ _ _ _ Hd s i I Ns B L) as (d & E & K).
  assert (Lpos : (1 <= length s)%nat) by (destruct s; [congruence|cbn; lia]).
  destruct d as [k wc i'|k i'|k i']; cbn in K.
  - destruct K as (K1 & K2 & K3 & K4 & K5 & K6).
    destruct (putr_total wc ost K2 O) as (p & need & A & N & PI & _).
    destruct p as [bs ost' c|].
    + destruct (IH (skipn k s) i' ost') as (out & cnt & f & D & F1 & F2 & k' & F3 & F4); auto.
      * unfold meas in *. rewrite skipn_length. destruct k as [|k].
        -- destruct K6 as [K6 K7]; auto. rewrite K6 in M. rewrite K7. lia.
        -- destruct (pend i'); lia.
      * now apply Forall_skipn.
      * rewrite skipn_length. lia.
      * exists (bs ++ out), (c + cnt)%nat, f. repeat split; auto; [econstructor; eauto|].
        exists (k + k')%nat. rewrite skipn_length in F3. split; [lia|]. rewrite F4, skipn_skipn. reflexivity.
    + exists [], 0%nat, (mkFin (SUnenc wc) (skipn k s) i' ost). repeat split; auto; [econstructor; eauto|].
      exists k. auto.
  - destruct K as (K1 & K2 & K3). destruct k as [|k].
    + exists [], 0%nat, (mkFin SInval s i' ost). repeat split; auto; [econstructor; eauto|]. exists 0%nat. split; [lia|reflexivity].
    + destruct (IH (skipn (S k) s) i' ost) as (out & cnt & f & D & F1 & F2 & k' & F3 & F4); auto.
      * unfold meas in *. rewrite skipn_length. destruct (pend i'); lia.
      * now apply Forall_skipn.
      * rewrite skipn_length. lia.
      * exists out, cnt, f. repeat split; auto; [eapply id_few; eauto|].
        exists (S k + k')%nat. rewrite skipn_length in F3. split; [lia|]. rewrite F4, skipn_skipn. reflexivity.
  - destruct K as (K1 & K2). destruct disc eqn:Dd.
    + destruct (IH (skipn (k + unit) s) i' ost) as (out & cnt & f & D & F1 & F2 & k' & F3 & F4); auto.
      * unfold meas in *. rewrite skipn_length. destruct (pend i'); lia.
      * now apply Forall_skipn.
      * rewrite skipn_length. lia.
      * exists out, cnt, f. repeat split; auto; [eapply id_skip; eauto|].
        exists (k + unit + k')%nat. rewrite skipn_length in F3. split; [lia|]. rewrite F4, skipn_skipn. reflexivity.
    + exists [], 0%nat, (mkFin SIll (skipn k s) i' ost). repeat split; auto; [eapply id_ill; eauto|].
      exists k. split; [lia|reflexivity].
Qed.

Lemma ideal_total : forall s i ost, inv i -> oinv ost -> bytes s -> Z.of_nat (length s) <= LIM ->
  exists out cnt f, ideal s i ost out cnt f /\ inv (f_i f) /\ oinv (f_o f) /\
    exists k, (k <= length s)%nat /\ f_rest f = skipn k s.
Proof. intros. eapply ideal_total_aux; eauto. Qed.

Lemma ideal_det : forall s i ost out cnt f, ideal s i ost out cnt f ->
  forall out' cnt' f', ideal s i ost out' cnt' f' -> out' = out /\ cnt' = cnt /\ f' = f.
Proof.
  induction 1; intros out' cnt' f' H'; inversion H'; subst; try congruence; auto;
  repeat match goal with
  | [ A : putr ?w ?o ?x _, B : putr ?w ?o ?y _ |- _ ] => first [constr_eq x y; fail 1 | pose proof (putr_det _ _ _ _ _ _ A B) as HH; clear B; try (inversion HH; subst)]
  | [ A : dec fi ?s ?i = Some ?x, B : dec fi ?s ?i = Some ?y |- _ ] => rewrite A in B; inversion B; subst; clear B
  end; try congruence; auto.
  all: match goal with [ IH : forall _ _ _, ideal _ _ _ _ _ _ -> _ , D : ideal _ _ _ _ _ _ |- _ ] => 
     try (destruct (IH _ _ _ D) as (-> & -> & ->); auto) end.
  all: repeat match goal with
  | [ A : putr ?w ?o ?x _, B : putr ?w ?o ?y _ |- _ ] => pose proof (putr_det _ _ _ _ _ _ A B) as HH; clear B; inversion HH; subst; clear HH
  end.
  all: match goal with [ IH : forall _ _ _, ideal _ _ _ _ _ _ -> _ , D : ideal _ _ _ _ _ _ |- _ ] => 
     try (destruct (IH _ _ _ D) as (-> & -> & ->); auto) end.
Qed.

(** The state a failed write leaves behind decodes the same character again. *)
Lemma ideal_redo : forall s i ost k wc i' out cnt f, inv i -> bytes s -> Z.of_nat (length s) <= LIM -> s <> [] ->
  dec fi s i = Some (DChar k wc i') ->
  (ideal s (fst i, snd i') ost out cnt f <-> ideal s i ost out cnt f).
Proof.
  intros s i ost k wc i' out cnt f I B L N E.
  pose proof (s_redo _ _ Hs s i k wc i' I B L N E) as E'.
  split; intro D; inversion D; subst; try congruence;
  repeat match goal with
  | [ A : dec fi ?s ?i = Some ?x, B : dec fi ?s ?i = Some ?y |- _ ] => rewrite A in B; inversion B; subst; clear B
  end; econstructor; eauto.
Qed.

(** ** Chunking *)
Lemma ideal_app : forall s i ost out cnt f, ideal s i ost out cnt f ->
  forall t, inv i -> bytes s -> bytes t -> Z.of_nat (length (s ++ t)) <= LIM ->
  match f_st f with
  | SIll | SUnenc _ => ideal (s ++ t) i ost out cnt (mkFin (f_st f) (f_rest f ++ t) (f_i f) (f_o f))
  | SDone | SInval => forall out2 cnt2 f2, ideal (f_rest f ++ t) (f_i f) (f_o f) out2 cnt2 f2 ->
      ideal (s ++ t) i ost (out ++ out2) (cnt + cnt2) f2
  end.
Proof.
  induction 1 as [i ost | s i ost k wc i' bs ost' c need out cnt f Ns E A D IH
    | s i ost k wc i' need Ns E A | s i ost i' Ns E | s i ost k i' out cnt f Ns E D IH
    | s i ost k i' out cnt f Ns Dd E D IH | s i ost k i' Ns Dd E];
  intros t I B Bt L.
  - cbn. auto.
  - assert (Nst : s ++ t <> []) by (destruct s; [congruence|discriminate]).
    destruct (d_run _ _ _ _ _ Hd s i I Ns B ltac:(rewrite app_length in L; lia)) as (d & E2 & K).
    rewrite E in E2; inversion E2; subst d. cbn in K. destruct K as (K1 & K2 & K3 & _).
    pose proof (s_char _ _ Hs s t i k wc i' I B Bt L Ns E) as E'.
    assert (L' : Z.of_nat (length (skipn k s ++ t)) <= LIM)
      by (rewrite app_length, skipn_length; rewrite app_length in L; lia).
    specialize (IH t K3 ltac:(now apply Forall_skipn) Bt L').
    destruct (f_st f) eqn:F; try (intros out2 cnt2 f2 D2; rewrite <- app_assoc, <- Nat.add_assoc;
      eapply id_char; eauto; rewrite skipn_app_le by lia; now apply IH);
    eapply id_char; eauto; rewrite skipn_app_le by lia; exact IH.
  - cbn. assert (Nst : s ++ t <> []) by (destruct s; [congruence|discriminate]).
    destruct (d_run _ _ _ _ _ Hd s i I Ns B ltac:(rewrite app_length in L; lia)) as (d & E2 & K).
    rewrite E in E2; inversion E2; subst d. cbn in K. destruct K as (K1 & K2 & K3 & _).
    pose proof (s_char _ _ Hs s t i k wc i' I B Bt L Ns E) as E'.
    rewrite <- skipn_app_le by lia. eapply id_unenc; eauto.
  - cbn. destruct (d_run _ _ _ _ _ Hd s i I Ns B ltac:(rewrite app_length in L; lia)) as (d & E2 & K).
    rewrite E in E2; inversion E2; subst d. cbn in K. destruct K as (K1 & K2 & K3).
    rewrite K3 by reflexivity. auto.
  - assert (Nst : s ++ t <> []) by (destruct s; [congruence|discriminate]).
    destruct (d_run _ _ _ _ _ Hd s i I Ns B ltac:(rewrite app_length in L; lia)) as (d & E2 & K).
    rewrite E in E2; inversion E2; subst d. cbn in K. destruct K as (K1 & K2 & K3).
    assert (L' : Z.of_nat (length (skipn (S k) s ++ t)) <= LIM)
      by (rewrite app_length, skipn_length; rewrite app_length in L; lia).
    specialize (IH t K2 ltac:(now apply Forall_skipn) Bt L').
    assert (KEY : forall o c f0, ideal (skipn (S k) s ++ t) i' ost o c f0 -> ideal (s ++ t) i ost o c f0).
    { intros o c f0 D0.
      assert (SK : forall j, skipn (S k + j) (s ++ t) = skipn j (skipn (S k) s ++ t)).
      { intro j. rewrite <- skipn_app_le by lia. rewrite skipn_skipn. reflexivity. }
      assert (SK0 : skipn (S k) (s ++ t) = skipn (S k) s ++ t) by (apply skipn_app_le; lia).
      destruct (list_eq_dec Z.eq_dec (skipn (S k) s ++ t) []) as [En|Nn].
      - assert (t = []) as -> by (destruct (skipn (S k) s); [exact En|discriminate]).
        rewrite app_nil_r in *. eapply id_few; eauto.
      - destruct (s_few _ _ Hs s t i k i' I B Bt L Ns E Nn) as [E'|(d & E1 & E')].
        + eapply id_few; eauto. rewrite SK0. exact D0.
        + assert (Z0 : forall i2, dec fi (skipn (S k) s ++ t) i' = Some (DFew 0 i2) -> i2 = i').
          { intros i2 Ei2. destruct (d_run _ _ _ _ _ Hd (skipn (S k) s ++ t) i' K2 Nn) as (d2 & Ed2 & Kd2); auto.
            - apply Forall_app. split; [now apply Forall_skipn|exact Bt].
            - rewrite Ei2 in Ed2. inversion Ed2; subst d2. cbn in Kd2. now apply Kd2. }
          clear L' IH. set (u := skipn (S k) s ++ t) in *. clearbody u.
          inversion D0; subst; try congruence;
          match goal with [ A : dec fi ?v ?j = Some d, B : dec fi ?v ?j = Some ?x |- _ ] => rewrite A in B; inversion B; subst; clear B end;
          cbn [dshift] in E'.
          * eapply id_char; eauto. rewrite SK. assumption.
          * rewrite <- SK. eapply id_unenc; eauto.
          * rewrite Nat.add_0_r in E'. rewrite (Z0 _ E1) in *. eapply id_few; [exact Nst|exact E'|]. exact D0.
          * match type of E' with _ = Some (DFew (S k + S ?j) _) => change (S k + S j)%nat with (S (k + S j)) in E' end.
            eapply id_few; [exact Nst|exact E'|]. match goal with |- ideal (skipn (S (k + S ?j)) _) _ _ _ _ _ => change (S (k + S j)) with (S k + S j)%nat end. rewrite SK. assumption.
          * eapply id_skip; eauto. rewrite <- Nat.add_assoc, SK. assumption.
          * rewrite <- SK. eapply id_ill; eauto. }
    destruct (f_st f) eqn:F; try (intros out2 cnt2 f2 D2; apply KEY; now apply IH); apply KEY; exact IH.
  - assert (Nst : s ++ t <> []) by (destruct s; [congruence|discriminate]).
    destruct (d_run _ _ _ _ _ Hd s i I Ns B ltac:(rewrite app_length in L; lia)) as (d & E2 & K).
    rewrite E in E2; inversion E2; subst d. cbn in K. destruct K as (K1 & K2).
    pose proof (s_ill _ _ Hs s t i k i' I B Bt L Ns E) as E'.
    assert (L' : Z.of_nat (length (skipn (k + unit) s ++ t)) <= LIM)
      by (rewrite app_length, skipn_length; rewrite app_length in L; lia).
    specialize (IH t K2 ltac:(now apply Forall_skipn) Bt L').
    destruct (f_st f) eqn:F; try (intros out2 cnt2 f2 D2; eapply id_skip; eauto; rewrite skipn_app_le by lia; now apply IH);
    eapply id_skip; eauto; rewrite skipn_app_le by lia; exact IH.
  - cbn. assert (Nst : s ++ t <> []) by (destruct s; [congruence|discriminate]).
    destruct (d_run _ _ _ _ _ Hd s i I Ns B ltac:(rewrite app_length in L; lia)) as (d & E2 & K).
    rewrite E in E2; inversion E2; subst d. cbn in K. destruct K as (K1 & K2).
    pose proof (s_ill _ _ Hs s t i k i' I B Bt L Ns E) as E'.
    rewrite <- skipn_app_le by lia. eapply id_ill; eauto.
Qed.

(** ** One iteration of the loop *)
Definition mem_ok (outb outb' : list Z) (pos outleft : nat) : Prop :=
  length outb' = length outb /\ firstn pos outb' = firstn pos outb /\ skipn (pos + outleft) outb' = skipn (pos + outleft) outb.

Lemma mem_ok_refl : forall b p n, mem_ok b b p n.
Proof. split; auto. Qed.
Lemma mem_ok_trans : forall a b c p n, mem_ok a b p n -> mem_ok b c p n -> mem_ok a c p n.
Proof. unfold mem_ok. intros a b c p n (A & B & C) (A' & B' & C'). repeat split; congruence. Qed.

Lemma set_ost_same : forall cd, set_ost cd (ostate cd) = cd.
Proof. intros []. reflexivity. Qed.

Lemma skipn_le_eq : forall (A : Type) (a b : nat) (l l' : list A), (a <= b)%nat -> skipn a l = skipn a l' -> skipn b l = skipn b l'.
Proof.
  intros A a b l l' L H. replace b with (a + (b - a))%nat by lia. rewrite <- !skipn_skipn, H. reflexivity.
Qed.
Lemma firstn_le_eq : forall (A : Type) (a b : nat) (l l' : list A), (a <= b)%nat -> firstn b l = firstn b l' -> firstn a l = firstn a l'.
Proof.
  intros A a b l l' L H. replace a with (Nat.min a b) by lia. rewrite <- !firstn_firstn, H. reflexivity.
Qed.

Lemma call_spec : forall (A : Type) cd outb pos outleft wc (k : Z -> list Z -> conv -> res A) o need,
  ofuncs cd = fo -> enc_at fo wc (ostate cd) o need -> (1 <= outleft)%nat -> (pos + outleft <= length outb)%nat ->
  exists outb', mem_ok outb outb' pos outleft /\
    if (outleft <? need)%nat then call_wctomb cd outb pos outleft wc k = k (-2) outb' cd
    else match o with
    | None => call_wctomb cd outb pos outleft wc k = k (-1) outb' cd
    | Some (bs, ost') => call_wctomb cd outb pos outleft wc k = k (Z.of_nat (length bs)) outb' (set_ost cd ost') /\
        (length bs <= outleft)%nat /\ firstn (pos + length bs) outb' = firstn pos outb ++ bs
    end.
Proof.
  intros A cd outb pos outleft wc k o need Hf H L R. unfold call_wctomb. rewrite Hf.
  assert (FAIL : forall c log, inb log outleft -> exists outb', mem_ok outb outb' pos outleft /\
    bind (Ok (c, log, ostate cd)) (fun '(outcount, log, ost) => match pokes outb pos log with
      | Some outb => k outcount outb (set_ost cd ost) | None => UB end) = k c outb' cd).
  { intros c log I. destruct (pokes_inb log outb pos outleft I R) as (b' & E & L1 & F & S).
    exists b'. split; [repeat split; auto|]. cbn. rewrite E, set_ost_same. reflexivity. }
  destruct H as [need L1 B1 B2|bs ost' B1 B2].
  - destruct (Nat.ltb_spec outleft need).
    + destruct (B1 outleft) as (log & E & I); [lia|]. rewrite E. apply FAIL, I.
    + destruct (B2 outleft) as (log & E & I); [lia|]. rewrite E. apply FAIL, I.
  - destruct (Nat.ltb_spec outleft (Nat.max 1 (length bs))).
    + destruct (B1 outleft) as (log & E & I); [lia|]. rewrite E. apply FAIL, I.
    + destruct (B2 outleft) as (log & E & W); [lia|lia|]. rewrite E.
      destruct (pokes_writes log outb pos bs W) as (b' & E' & L2 & F & S); [lia|].
      exists b'. split.
      * repeat split; auto.
        -- eapply pokes_firstn; eauto.
        -- eapply skipn_le_eq; [|exact S]. lia.
      * cbn. rewrite E'. repeat split; auto. lia.
Qed.

Definition cd_ok (cd : conv) : Prop :=
  ifuncs cd = fi /\ ofuncs cd = fo /\ inv (cd_i cd) /\ oinv (ostate cd) /\
  ei_unit (iindex cd) = Z.of_nat unit /\ negb (discard_ilseq cd =? 0) = disc.

Inductive sspec (cd : conv) (s outb : list Z) (pos outleft result : nat) : step -> Prop :=
| ss_char k wc i' bs ost' c need outb' :
    dec fi s (cd_i cd) = Some (DChar k wc i') -> putr wc (ostate cd) (PBytes bs ost' c) need -> (need <= outleft)%nat ->
    (length bs <= outleft)%nat -> mem_ok outb outb' pos outleft -> firstn (pos + length bs) outb' = firstn pos outb ++ bs ->
    sspec cd s outb pos outleft result
      (Next (skipn k s) outb' (pos + length bs) (outleft - length bs) (c + result) (at_ cd i' ost'))
| ss_big k wc i' p need outb' :
    dec fi s (cd_i cd) = Some (DChar k wc i') -> putr wc (ostate cd) p need -> (outleft < need)%nat -> mem_ok outb outb' pos outleft ->
    sspec cd s outb pos outleft result
      (Stop (mkCres (Err E2BIG) s outb' pos outleft (at_ cd (istate cd, snd i') (ostate cd))))
| ss_unenc k wc i' need outb' :
    dec fi s (cd_i cd) = Some (DChar k wc i') -> putr wc (ostate cd) PFail need -> (need <= outleft)%nat -> mem_ok outb outb' pos outleft ->
    sspec cd s outb pos outleft result
      (Stop (mkCres (Err EILSEQ) s outb' pos outleft (at_ cd (istate cd, snd i') (ostate cd))))
| ss_few0 :
    dec fi s (cd_i cd) = Some (DFew 0 (cd_i cd)) ->
    sspec cd s outb pos outleft result (Stop (mkCres (Err EINVAL) s outb pos outleft cd))
| ss_few k i' :
    dec fi s (cd_i cd) = Some (DFew (S k) i') ->
    sspec cd s outb pos outleft result (Next (skipn (S k) s) outb pos outleft result (at_ cd i' (ostate cd)))
| ss_skip k i' :
    dec fi s (cd_i cd) = Some (DIll k i') -> disc = true ->
    sspec cd s outb pos outleft result (Next (skipn (k + unit) s) outb pos outleft result (at_ cd i' (ostate cd)))
| ss_ill k i' :
    dec fi s (cd_i cd) = Some (DIll k i') -> disc = false ->
    sspec cd s outb pos outleft result (Stop (mkCres (Err EILSEQ) (skipn k s) outb pos outleft (at_ cd i' (ostate cd)))).

Lemma outcount_zero_ok : forall cd s outb pos outleft result (k : nat), (k <= length s)%nat ->
  outcount_zero cd s outb pos outleft result (Z.of_nat k) = Ok (Next (skipn k s) outb pos outleft result cd).
Proof.
  intros. unfold outcount_zero. destruct (Z.leb_spec (Z.of_nat k) (Z.of_nat (length s))); [|lia]. rewrite Nat2Z.id. reflexivity.
Qed.
Lemma outcount_ok_ok : forall cd li s outb pos outleft result (k oc : nat), (k <= length s)%nat -> (oc <= outleft)%nat ->
  outcount_ok cd li s outb pos outleft result (Z.of_nat k) (Z.of_nat oc) =
  Ok (Next (skipn k s) outb (pos + oc) (outleft - oc) result cd).
Proof.
  intros. unfold outcount_ok. destruct (Z.ltb_spec (Z.of_nat oc) 0); [lia|].
  destruct (Z.leb_spec (Z.of_nat oc) (Z.of_nat outleft)); [|lia]. rewrite Nat2Z.id. now apply outcount_zero_ok.
Qed.

Lemma firstn_nil_app : forall (A : Type) pos (b b' : list A), firstn pos b' = firstn pos b ->
  firstn (pos + length (@nil A)) b' = firstn pos b ++ [].
Proof. intros. cbn. rewrite Nat.add_0_r, app_nil_r. assumption. Qed.

Lemma conv_step_spec : forall cd s outb pos outleft result,
  cd_ok cd -> s <> [] -> bytes s -> Z.of_nat (length s) <= LIM -> (pos + outleft <= length outb)%nat ->
  exists st, conv_step cd s outb pos outleft result = Ok st /\ sspec cd s outb pos outleft result st.
Proof.
  intros cd s outb pos outleft result (Ci & Co & I & O & U & Dd) Ns B L R.
  destruct (d_run _ _ _ _ _ Hd s (cd_i cd) I Ns B L) as (d & E & K).
  unfold conv_step. rewrite Ci. pose proof E as E0. unfold dec, cd_i in E; cbn [fst snd] in E.
  destruct (dview_inv _ _ E) as (c & w & ist & ibo & Er). rewrite Er in *. cbn [bind].
  cbn [dview] in E. unfold LIM in L.
  destruct (Z.ltb_spec c 0).
  - assert (UU : forall x, 0 <= x <= 2 * LIM + 2 -> u32 x = x).
    { intros x Hx. unfold u32. apply Z.mod_small. unfold LIM in Hx. lia. }
    destruct (Z.even (-1 - c)) eqn:Ev.
    + match type of E with Some ?x = Some _ => assert (Ed : d = x) by congruence end; subst d; clear E. cbn [dres_ok fst snd] in K. destruct K as [K1 K2].
      rewrite UU by (unfold LIM; lia). rewrite (UU (-1 - -1)) by (unfold LIM; lia).
      rewrite Zeven_mod in Ev. apply Zeq_bool_eq in Ev. rewrite Ev. change (0 =? (-1 - -1) mod 2) with true. cbv iota.
      cbn [set_i discard_ilseq iindex]. rewrite Dd, U. destruct disc eqn:Dq.
      * replace ((-1 - c) / 2 + Z.of_nat unit) with (Z.of_nat (Z.to_nat ((-1 - c) / 2) + unit)) by lia.
        rewrite outcount_zero_ok by lia. eexists. split; [reflexivity|].
        apply (ss_skip cd s outb pos outleft result _ (ist, ibo)); [exact E0|exact Dq].
      * unfold nsub. destruct (Nat.leb_spec (Z.to_nat ((-1 - c) / 2)) (length s)); [|lia].
        eexists. split; [reflexivity|]. apply (ss_ill cd s outb pos outleft result _ (ist, ibo)); [exact E0|exact Dq].
    + match type of E with Some ?x = Some _ => assert (Ed : d = x) by congruence end; subst d; clear E. cbn [dres_ok fst snd] in K. destruct K as (K1 & K2 & K3).
      rewrite UU by (unfold LIM; lia). rewrite (UU (-1 - -1)) by (unfold LIM; lia).
      assert (Ev' : (-1 - c) mod 2 = 1).
      { rewrite Zeven_mod in Ev. apply Zeq_bool_neq in Ev. lia. }
      rewrite Ev'.
      change (1 =? (-1 - -1) mod 2) with false. cbv iota.
      destruct (Z.eqb_spec c (-2)).
      * subst c. change (Z.to_nat ((-2 - -2) / 2)) with 0%nat in *. rewrite K3 in E0 by reflexivity.
        eexists. split; [reflexivity|].
        specialize (K3 eq_refl). inversion K3; subst. destruct cd; cbn in *. now apply ss_few0.
      * rewrite UU by (unfold LIM; lia).
        destruct (Z.to_nat ((-2 - c) / 2)) as [|k] eqn:Ek; [lia|].
        replace ((-2 - c) / 2) with (Z.of_nat (S k)) by lia.
        rewrite outcount_zero_ok by lia. eexists. split; [reflexivity|].
        apply (ss_few cd s outb pos outleft result k (ist, ibo)). exact E0.
  - destruct w as [wc|]; [|discriminate]. match type of E with Some ?x = Some _ => assert (Ed : d = x) by congruence end; subst d; clear E. cbn [dres_ok fst snd] in K.
    destruct K as (K1 & K2 & K3 & K4 & K5 & K6).
    destruct (putr_total wc (ostate cd) K2 O) as (p & need & A & N & PI & LB).
    destruct (Nat.eqb_spec outleft 0).
    { eexists. split; [reflexivity|]. eapply (ss_big cd s outb pos outleft result _ wc (ist, ibo)); eauto; [lia|apply mem_ok_refl]. }
    cbn [oget]. set (cd1 := set_i cd ist ibo).
    assert (C1 : ofuncs cd1 = fo) by (destruct cd; exact Co).
    assert (O1 : ostate cd1 = ostate cd) by reflexivity.
    assert (AT : forall o, set_ost cd1 o = at_ cd (ist, ibo) o) by reflexivity.
    assert (AT1 : cd1 = at_ cd (ist, ibo) (ostate cd)) by reflexivity.
    assert (AT2 : set_ist cd1 (istate cd) = at_ cd (istate cd, ibo) (ostate cd)) by reflexivity.
    assert (Dd1 : negb (discard_ilseq cd1 =? 0) = disc) by exact Dd.
    replace c with (Z.of_nat (Z.to_nat c)) by lia. set (k := Z.to_nat c) in *.
    assert (A' := A).
    destruct A as [bs ost' need A1|need A1 T|need A1 T D|need bs ost' need' A1 T D A2|need need' A1 T D A2];
      rewrite <- O1 in A1;
      match goal with |- exists st, call_wctomb _ _ _ _ _ ?kk = _ /\ _ =>
        destruct (call_spec _ cd1 outb pos outleft wc kk _ _ C1 A1 ltac:(lia) R) as (b1 & M1 & Q1) end;
      match type of Q1 with if (?x <? ?y)%nat then _ else _ => destruct (Nat.ltb_spec x y) as [Lt1|Le1] end.
    1,3,5,7,9: rewrite Q1; cbn [negb Z.eqb]; unfold outcount_ok; cbn [Z.ltb Z.compare]; rewrite AT2; eexists; (split; [reflexivity|]);
       eapply (ss_big cd s outb pos outleft result k wc (ist, ibo)); eauto; lia.
    + destruct Q1 as (-> & Lb & F1). destruct (Z.eqb_spec (Z.of_nat (length bs)) (-1)); [lia|]. cbn [negb].
      rewrite outcount_ok_ok by lia. rewrite AT. eexists. split; [reflexivity|].
      eapply (ss_char cd s outb pos outleft result k wc (ist, ibo) bs ost' 0); eauto.
    + rewrite Q1. cbn [negb Z.eqb]. unfold is_tag in T. change (Z.pos_sub 1 1) with 0. cbn [Pos.eqb negb]. rewrite T.
      rewrite outcount_zero_ok by lia. rewrite AT1. eexists. split; [reflexivity|].
      replace pos with (pos + length (@nil Z))%nat at 2 by (cbn; lia).
      replace outleft with (outleft - length (@nil Z))%nat at 2 by (cbn; lia).
      eapply (ss_char cd s outb pos outleft result k wc (ist, ibo) [] (ostate cd) 0); eauto; [cbn; lia|].
      apply firstn_nil_app. apply M1.
    + rewrite Q1. cbn [negb Z.eqb Pos.eqb]. unfold is_tag in T. rewrite T, Dd1, D.
      change 0 with (Z.of_nat 0) at 1. rewrite outcount_ok_ok by lia. rewrite AT1. eexists. split; [reflexivity|].
      eapply (ss_char cd s outb pos outleft result k wc (ist, ibo) [] (ostate cd) 1); eauto; [cbn; lia|].
      apply firstn_nil_app. apply M1.
    + rewrite Q1. cbn [negb Z.eqb Pos.eqb]. unfold is_tag in T. rewrite T, Dd1, D.
      rewrite <- O1 in A2.
      assert (R1 : (pos + outleft <= length b1)%nat) by (destruct M1 as [-> _]; exact R).
      match goal with |- exists st, call_wctomb _ _ _ _ _ ?kk = _ /\ _ =>
        destruct (call_spec _ cd1 b1 pos outleft 0xfffd kk _ _ C1 A2 ltac:(lia) R1) as (b2 & M2 & Q2) end.
      pose proof (mem_ok_trans _ _ _ _ _ M1 M2) as M3.
      match type of Q2 with if (?x <? ?y)%nat then _ else _ => destruct (Nat.ltb_spec x y) as [Lt2|Le2] end.
      * rewrite Q2; cbn [negb Z.eqb]; unfold outcount_ok; cbn [Z.ltb Z.compare]; rewrite AT2; eexists; (split; [reflexivity|]).
        eapply (ss_big cd s outb pos outleft result k wc (ist, ibo)); eauto; lia.
      * destruct Q2 as (-> & Lb & F1). destruct (Z.eqb_spec (Z.of_nat (length bs)) (-1)); [lia|]. cbn [negb].
        rewrite outcount_ok_ok by lia. rewrite AT. eexists. split; [reflexivity|].
        eapply (ss_char cd s outb pos outleft result k wc (ist, ibo) bs ost' 1); eauto; [lia|].
        rewrite F1. f_equal. apply M1.
    + rewrite Q1. cbn [negb Z.eqb Pos.eqb]. unfold is_tag in T. rewrite T, Dd1, D.
      rewrite <- O1 in A2.
      assert (R1 : (pos + outleft <= length b1)%nat) by (destruct M1 as [-> _]; exact R).
      match goal with |- exists st, call_wctomb _ _ _ _ _ ?kk = _ /\ _ =>
        destruct (call_spec _ cd1 b1 pos outleft 0xfffd kk _ _ C1 A2 ltac:(lia) R1) as (b2 & M2 & Q2) end.
      pose proof (mem_ok_trans _ _ _ _ _ M1 M2) as M3.
      match type of Q2 with if (?x <? ?y)%nat then _ else _ => destruct (Nat.ltb_spec x y) as [Lt2|Le2] end.
      * rewrite Q2; cbn [negb Z.eqb]; unfold outcount_ok; cbn [Z.ltb Z.compare]; rewrite AT2; eexists; (split; [reflexivity|]).
        eapply (ss_big cd s outb pos outleft result k wc (ist, ibo)); eauto; lia.
      * rewrite Q2; cbn [negb Z.eqb Pos.eqb]. rewrite AT2. eexists; (split; [reflexivity|]).
        eapply (ss_unenc cd s outb pos outleft result k wc (ist, ibo)); eauto; lia.
Qed.

(** ** Whole runs of the loop *)
Inductive lterm (cd : conv) (s1 : list Z) (i1 : Z * Z) (o1 : Z) (cnt : nat) (r : cres) : Prop :=
| lt_done : s1 = [] -> r_ret r = Num cnt -> r_in r = [] -> r_cd r = at_ cd i1 o1 -> lterm cd s1 i1 o1 cnt r
| lt_few : s1 <> [] -> dec fi s1 i1 = Some (DFew 0 i1) -> r_ret r = Err EINVAL -> r_in r = s1 -> r_cd r = at_ cd i1 o1 ->
    lterm cd s1 i1 o1 cnt r
| lt_ill k i' : s1 <> [] -> dec fi s1 i1 = Some (DIll k i') -> disc = false -> r_ret r = Err EILSEQ -> r_in r = skipn k s1 ->
    r_cd r = at_ cd i' o1 -> lterm cd s1 i1 o1 cnt r
| lt_unenc k wc i' need : s1 <> [] -> dec fi s1 i1 = Some (DChar k wc i') -> putr wc o1 PFail need -> (need <= r_left r)%nat ->
    r_ret r = Err EILSEQ -> r_in r = s1 -> r_cd r = at_ cd (fst i1, snd i') o1 -> lterm cd s1 i1 o1 cnt r
| lt_big k wc i' p need : s1 <> [] -> dec fi s1 i1 = Some (DChar k wc i') -> putr wc o1 p need -> (r_left r < need)%nat ->
    r_ret r = Err E2BIG -> r_in r = s1 -> r_cd r = at_ cd (fst i1, snd i') o1 -> lterm cd s1 i1 o1 cnt r.

(** The part of the ideal conversion a run performs. *)
Inductive ipre : list Z -> Z * Z -> Z -> list Z -> nat -> list Z -> Z * Z -> Z -> Prop :=
| ip_refl s i ost : ipre s i ost [] 0 s i ost
| ip_char s i ost k wc i' bs ost' c need out cnt s1 i1 o1 :
    s <> [] -> dec fi s i = Some (DChar k wc i') -> putr wc ost (PBytes bs ost' c) need ->
    ipre (skipn k s) i' ost' out cnt s1 i1 o1 -> ipre s i ost (bs ++ out) (c + cnt) s1 i1 o1
| ip_few s i ost k i' out cnt s1 i1 o1 :
    s <> [] -> dec fi s i = Some (DFew (S k) i') -> ipre (skipn (S k) s) i' ost out cnt s1 i1 o1 -> ipre s i ost out cnt s1 i1 o1
| ip_skip s i ost k i' out cnt s1 i1 o1 :
    s <> [] -> disc = true -> dec fi s i = Some (DIll k i') -> ipre (skipn (k + unit) s) i' ost out cnt s1 i1 o1 ->
    ipre s i ost out cnt s1 i1 o1.

Lemma ipre_ideal : forall s i ost out c s1 i1 o1, ipre s i ost out c s1 i1 o1 ->
  forall out2 cnt2 f, ideal s1 i1 o1 out2 cnt2 f -> ideal s i ost (out ++ out2) (c + cnt2) f.
Proof.
  intros s i ost out c s1 i1 o1 H. induction H; intros out2 cnt2 f D; auto.
  - rewrite <- app_assoc, <- Nat.add_assoc. eapply id_char; eauto.
  - eapply id_few; eauto.
  - eapply id_skip; eauto.
Qed.

Definition lspec (cd : conv) (s outb : list Z) (pos outleft result : nat) (r : cres) : Prop :=
  exists out c s1 i1 o1 k,
    ipre s (cd_i cd) (ostate cd) out c s1 i1 o1 /\ (k <= length s)%nat /\ s1 = skipn k s /\ inv i1 /\ oinv o1 /\
    mem_ok outb (r_out r) pos outleft /\ firstn (pos + length out) (r_out r) = firstn pos outb ++ out /\
    r_pos r = (pos + length out)%nat /\ (length out <= outleft)%nat /\ r_left r = (outleft - length out)%nat /\
    lterm cd s1 i1 o1 (c + result) r.

Lemma lterm_at : forall cd i o s1 i1 o1 c r, lterm (at_ cd i o) s1 i1 o1 c r -> lterm cd s1 i1 o1 c r.
Proof.
  intros cd i o s1 i1 o1 c r H. destruct H; cbn in *;
  [eapply lt_done|eapply lt_few|eapply lt_ill|eapply lt_unenc|eapply lt_big]; eauto.
Qed.

Lemma cd_ok_at : forall cd i o, cd_ok cd -> inv i -> oinv o -> cd_ok (at_ cd i o).
Proof.
  intros cd i o (A & B & _ & _ & C & D) I O. unfold cd_ok, cd_i, at_; cbn. rewrite <- surjective_pairing. auto 10.
Qed.
Lemma cd_i_at : forall cd i o, cd_i (at_ cd i o) = i.
Proof. intros cd [a b] o. reflexivity. Qed.

Lemma loop_spec : forall fuel cd s outb pos outleft result,
  (meas s (cd_i cd) <= fuel)%nat -> cd_ok cd -> bytes s -> Z.of_nat (length s) <= LIM -> (pos + outleft <= length outb)%nat ->
  exists r, conv_loop fuel cd s outb pos outleft result = Ok r /\ lspec cd s outb pos outleft result r.
Proof.
  induction fuel as [|fuel IH]; intros cd s outb pos outleft result M C B L R.
  all: destruct (list_eq_dec Z.eq_dec s []) as [->|Ns];
    [ cbn [conv_loop]; eexists; split; [reflexivity|];
      exists [], 0%nat, [], (cd_i cd), (ostate cd), 0%nat; repeat split; cbn [r_out r_pos r_left length]; auto;
      try lia; try (apply C); try (rewrite Nat.add_0_r, app_nil_r; reflexivity); try apply ip_refl;
      apply lt_done; cbn; auto; now rewrite at_id | ].
  { unfold meas in M. destruct s; [congruence|cbn in M; lia]. }
  destruct (conv_step_spec cd s outb pos outleft result C Ns B L R) as (st & E & S).
  destruct s as [|x s']; [congruence|]. cbn [conv_loop]. set (s := x :: s') in *. rewrite E. cbn [bind].
  pose proof C as (C1 & C2 & C3 & C4 & C5 & C6).
  destruct (d_run _ _ _ _ _ Hd s (cd_i cd) C3 Ns B L) as (d & Ed & K).
  assert (Lp : (1 <= length s)%nat) by (cbn; lia).
  destruct S as [k wc i' bs ost' c need b1 D A N1 N2 M1 F1|k wc i' p need b1 D A N1 M1|k wc i' need b1 D A N1 M1|D|k i' D|k i' D Dd|k i' D Dd];
    rewrite D in Ed; match type of Ed with Some ?y = Some _ => assert (d = y) by congruence end; subst d; clear Ed;
    cbn [dres_ok] in K.
  - destruct K as (K1 & K2 & K3 & K4 & K5 & K6).
    assert (O' : oinv ost').
    { destruct (putr_total wc (ostate cd) K2 C4) as (p & nd & A' & _ & PI & _).
      rewrite (putr_det _ _ _ _ _ _ A' A) in PI. exact PI. }
    destruct (IH (at_ cd i' ost') (skipn k s) b1 (pos + length bs)%nat (outleft - length bs)%nat (c + result)%nat)
      as (r & Er & out & c2 & s1 & i1 & o1 & k2 & Q1 & Q2 & Q3 & Q4 & Q5 & Q6 & Q7 & Q8 & Q9 & Q10 & Q11).
    + rewrite cd_i_at. unfold meas in *. rewrite skipn_length. destruct k as [|k].
      * destruct K6 as [K6 K7]; auto. rewrite K6 in M. rewrite K7. lia.
      * destruct (pend i'); lia.
    + now apply cd_ok_at.
    + now apply Forall_skipn.
    + rewrite skipn_length. lia.
    + destruct M1 as [-> _]. lia.
    + exists r. split; [exact Er|]. rewrite cd_i_at in Q1. cbn [at_ ostate] in Q1.
      exists (bs ++ out), (c + c2)%nat, s1, i1, o1, (k + k2)%nat.
      rewrite skipn_length in Q2.
      destruct M1 as (M1 & M2 & M3), Q6 as (Q61 & Q62 & Q63). rewrite !app_length.
      split; [eapply ip_char; eauto|]. split; [lia|]. split; [now rewrite <- skipn_skipn|]. split; [exact Q4|]. split; [exact Q5|].
      split.
      { repeat split; [congruence| |].
        - rewrite <- M2. eapply firstn_le_eq; [|exact Q62]. lia.
        - rewrite <- M3. replace (pos + length bs + (outleft - length bs))%nat with (pos + outleft)%nat in Q63 by lia. exact Q63. }
      split; [rewrite app_assoc, <- F1, Nat.add_assoc; exact Q7|].
      split; [lia|]. split; [lia|]. split; [lia|].
      eapply lterm_at. replace (c + c2 + result)%nat with (c2 + (c + result))%nat by lia. exact Q11.
  - eexists. split; [reflexivity|]. exists [], 0%nat, s, (cd_i cd), (ostate cd), 0%nat. cbn [r_out r_pos r_left length].
    rewrite Nat.add_0_r, app_nil_r, Nat.sub_0_r. repeat split; auto; try apply M1; try lia; [apply ip_refl|].
    eapply lt_big; cbn; eauto.
  - eexists. split; [reflexivity|]. exists [], 0%nat, s, (cd_i cd), (ostate cd), 0%nat. cbn [r_out r_pos r_left length].
    rewrite Nat.add_0_r, app_nil_r, Nat.sub_0_r. repeat split; auto; try apply M1; try lia; [apply ip_refl|].
    eapply lt_unenc; cbn; eauto.
  - eexists. split; [reflexivity|]. exists [], 0%nat, s, (cd_i cd), (ostate cd), 0%nat. cbn [r_out r_pos r_left length].
    rewrite Nat.add_0_r, app_nil_r, Nat.sub_0_r. repeat split; auto; try lia; [apply ip_refl|].
    eapply lt_few; cbn; eauto. now rewrite at_id.
  - destruct K as (K1 & K2 & K3).
    destruct (IH (at_ cd i' (ostate cd)) (skipn (S k) s) outb pos outleft result)
      as (r & Er & out & c2 & s1 & i1 & o1 & k2 & Q1 & Q2 & Q3 & Q4 & Q5 & Q6 & Q7 & Q8 & Q9 & Q10 & Q11).
    + rewrite cd_i_at. unfold meas in *. rewrite skipn_length. destruct (pend i'); lia.
    + now apply cd_ok_at.
    + now apply Forall_skipn.
    + rewrite skipn_length. lia.
    + exact R.
    + exists r. split; [exact Er|]. rewrite cd_i_at in Q1. cbn [at_ ostate] in Q1.
      exists out, c2, s1, i1, o1, (S k + k2)%nat. rewrite skipn_length in Q2.
      split; [eapply ip_few; eauto|]. split; [lia|]. split; [now rewrite <- skipn_skipn|].
      repeat (split; [assumption|]). eapply lterm_at; eauto.
  - destruct K as (K1 & K2).
    destruct (IH (at_ cd i' (ostate cd)) (skipn (k + unit) s) outb pos outleft result)
      as (r & Er & out & c2 & s1 & i1 & o1 & k2 & Q1 & Q2 & Q3 & Q4 & Q5 & Q6 & Q7 & Q8 & Q9 & Q10 & Q11).
    + rewrite cd_i_at. unfold meas in *. rewrite skipn_length. destruct (pend i'); lia.
    + now apply cd_ok_at.
    + now apply Forall_skipn.
    + rewrite skipn_length. lia.
    + exact R.
    + exists r. split; [exact Er|]. rewrite cd_i_at in Q1. cbn [at_ ostate] in Q1.
      exists out, c2, s1, i1, o1, ((k + unit) + k2)%nat. rewrite skipn_length in Q2.
      split; [eapply ip_skip; eauto|]. split; [lia|]. split; [now rewrite <- skipn_skipn|].
      repeat (split; [assumption|]). eapply lterm_at; eauto.
  - eexists. split; [reflexivity|]. exists [], 0%nat, s, (cd_i cd), (ostate cd), 0%nat. cbn [r_out r_pos r_left length].
    rewrite Nat.add_0_r, app_nil_r, Nat.sub_0_r. repeat split; auto; try lia; [apply ip_refl|].
    eapply lt_ill; cbn; eauto.
Qed.

Lemma loop_convert_spec : forall cd s outb outleft, cd_ok cd -> bytes s -> Z.of_nat (length s) <= LIM -> (outleft <= length outb)%nat ->
  exists r, loop_convert cd s outb outleft = Ok r /\ lspec cd s outb 0 outleft 0 r.
Proof.
  intros. unfold loop_convert. apply loop_spec; auto. unfold meas. destruct (pend (cd_i cd)); lia.
Qed.

(** ** Flushing *)
(** What the decoder has pending and what becomes of it: outcome, needed room, decoder state after. *)
Inductive fpend (i : Z * Z) (ost : Z) : pres -> nat -> Z -> Prop :=
| fp_none : f_flush fi = None -> fpend i ost (PBytes [] ost 0) 0 (fst i)
| fp_zero fl w : f_flush fi = Some fl -> fl (fst i) = Ok (0, w, fst i) -> fpend i ost (PBytes [] ost 0) 0 (fst i)
| fp_some fl b wc ist' p need : f_flush fi = Some fl -> fl (fst i) = Ok (b, Some wc, ist') -> b <> 0 -> putr wc ost p need ->
    fpend i ost p need ist'.
(** The bytes that return the encoder to its initial state. *)
Inductive frst (ost : Z) : list Z -> Prop :=
| fr_none : f_reset fo = None -> frst ost []
| fr_some rst bs ost' : f_reset fo = Some rst ->
    (forall n, (n < length bs)%nat -> exists log, rst n ost = Ok (-2, log, ost) /\ inb log n) ->
    (forall n, (length bs <= n)%nat -> exists log, rst n ost = Ok (Z.of_nat (length bs), log, ost') /\ writes log bs) ->
    frst ost bs.

Lemma frst_total : forall ost, oinv ost -> exists bs, frst ost bs /\ (length bs <= MAXNEED)%nat.
Proof.
  intros ost O. pose proof (e_reset _ _ _ He ost O) as H. destruct (f_reset fo) as [rst|] eqn:E.
  - destruct H as (bs & ost' & A & B & C & D). exists bs. split; [eapply fr_some; eauto|exact A].
  - exists []. split; [now apply fr_none|cbn; unfold MAXNEED; lia].
Qed.
Lemma frst_det : forall ost bs bs', frst ost bs -> frst ost bs' -> bs = bs'.
Proof.
  intros ost bs bs' H H'. destruct H as [E|rst bs o1 E A B]; destruct H' as [E'|rst' bs' o1' E' A' B']; try congruence.
  rewrite E in E'. inversion E'; subst rst'.
  destruct (B (Nat.max (length bs) (length bs'))) as (l & F & W); [lia|].
  destruct (B' (Nat.max (length bs) (length bs'))) as (l' & F' & W'); [lia|].
  rewrite F in F'. inversion F'; subst. eapply writes_len0; eauto. lia.
Qed.

Lemma fpend_total : forall i ost, inv i -> oinv ost ->
  exists p need ist', fpend i ost p need ist' /\ (need <= MAXNEED)%nat /\ pres_inv p /\ inv (ist', snd i) /\
    (need = 0%nat -> p = PBytes [] ost 0 /\ ist' = fst i) /\
    match p with PBytes bs _ _ => (length bs <= need)%nat | PFail => True end.
Proof.
  intros i ost I O. pose proof (d_flush _ _ _ _ _ Hd i I) as H. destruct (f_flush fi) as [fl|] eqn:E.
  - destruct H as (b & w & ist' & A & B & C & D). destruct (Z.eq_dec b 0) as [->|Nb].
    + rewrite C in A by reflexivity. exists (PBytes [] ost 0), 0%nat, (fst i).
      split; [eapply fp_zero; eauto|]. rewrite C in B by reflexivity. repeat split; auto; [unfold MAXNEED; lia].
    + destruct (D Nb) as (wc & -> & Pw & _). destruct (putr_total wc ost Pw O) as (p & need & Q & N & PI & LB).
      exists p, need, ist'. split; [eapply fp_some; eauto|]. repeat split; auto; try lia.
  - exists (PBytes [] ost 0), 0%nat, (fst i). split; [now apply fp_none|]. rewrite <- surjective_pairing.
    repeat split; auto; [unfold MAXNEED; lia].
Qed.
Lemma fpend_det : forall i ost p n ist' p2 n2 ist2, fpend i ost p n ist' -> fpend i ost p2 n2 ist2 -> p = p2 /\ ist' = ist2.
Proof.
  intros i ost p n ist' p2 n2 ist2 H H'.
  destruct H as [E|fl w E F|fl b wc ist' p n E F N A]; destruct H' as [E'|fl' w' E' F'|fl' b' wc' ist2 p2 n2 E' F' N' A'];
  try congruence; auto; rewrite E in E'; inversion E'; subst; rewrite F in F'; inversion F'; subst; try congruence.
  split; [|reflexivity]. eapply putr_det; eauto.
Qed.
(** After the pending character has gone out nothing is pending. *)
Lemma fpend_after : forall i ost p n ist' ost1, inv i -> fpend i ost p n ist' ->
  exists n', fpend (ist', snd i) ost1 (PBytes [] ost1 0) n' ist'.
Proof.
  intros i ost p n ist' ost1 I H. destruct H as [E|fl w E F|fl b wc ist' p n E F N A].
  - exists 0%nat. now apply (fp_none (fst i, snd i)).
  - exists 0%nat. now apply (fp_zero (fst i, snd i) ost1 fl w).
  - pose proof (d_flush _ _ _ _ _ Hd i I) as H. rewrite E in H.
    destruct H as (b2 & w2 & ist2 & A2 & B2 & C2 & D2). rewrite F in A2. inversion A2; subst.
    destruct (D2 N) as (wc2 & _ & _ & w' & G). exists 0%nat. now apply (fp_zero (ist2, snd i) ost1 fl w').
Qed.

(** Outcomes of a flush into outleft bytes. *)
Inductive fspec (cd : conv) (outb : list Z) (outleft : nat) : cres -> Prop :=
| fs_done bs1 ost1 c need ist' bs2 outb' :
    fpend (cd_i cd) (ostate cd) (PBytes bs1 ost1 c) need ist' -> frst ost1 bs2 ->
    (need <= outleft)%nat -> (length (bs1 ++ bs2) <= outleft)%nat -> mem_ok outb outb' 0 outleft ->
    firstn (length (bs1 ++ bs2)) outb' = bs1 ++ bs2 ->
    fspec cd outb outleft (mkCres (Num c) [] outb' (length (bs1 ++ bs2)) (outleft - length (bs1 ++ bs2)) (at_ cd (0, ibyteorder cd) 0))
| fs_big1 p need ist' outb' :
    fpend (cd_i cd) (ostate cd) p need ist' -> (outleft < need)%nat -> mem_ok outb outb' 0 outleft ->
    fspec cd outb outleft (mkCres (Err E2BIG) [] outb' 0 outleft cd)
| fs_unenc need ist' outb' :
    fpend (cd_i cd) (ostate cd) PFail need ist' -> (need <= outleft)%nat -> mem_ok outb outb' 0 outleft ->
    fspec cd outb outleft (mkCres (Err EILSEQ) [] outb' 0 outleft cd)
| fs_big2 bs1 ost1 c need ist' bs2 outb' :
    fpend (cd_i cd) (ostate cd) (PBytes bs1 ost1 c) need ist' -> frst ost1 bs2 ->
    (need <= outleft)%nat -> (length bs1 <= outleft < length (bs1 ++ bs2))%nat -> mem_ok outb outb' 0 outleft -> firstn (length bs1) outb' = bs1 ->
    fspec cd outb outleft (mkCres (Err E2BIG) [] outb' (length bs1) (outleft - length bs1) (at_ cd (ist', ibyteorder cd) ost1)).

Lemma reset_tail_spec : forall cd outb pos outleft result bs2, ofuncs cd = fo -> frst (ostate cd) bs2 -> (pos + outleft <= length outb)%nat ->
  exists outb', mem_ok outb outb' pos outleft /\
  if (outleft <? length bs2)%nat then loop_reset_tail cd outb pos outleft result = Ok (mkCres (Err E2BIG) [] outb' pos outleft cd)
  else firstn (pos + length bs2) outb' = firstn pos outb ++ bs2 /\
   loop_reset_tail cd outb pos outleft result =
     Ok (mkCres (Num result) [] outb' (pos + length bs2) (outleft - length bs2) (at_ cd (0, ibyteorder cd) 0)).
Proof.
  intros cd outb pos outleft result bs2 Co H R. unfold loop_reset_tail. rewrite Co.
  destruct H as [E|rst bs o1 E A B]; rewrite E.
  - exists outb. split; [apply mem_ok_refl|]. cbn [length]. destruct (Nat.ltb_spec outleft 0); [lia|].
    rewrite Nat.add_0_r, Nat.sub_0_r, app_nil_r. split; reflexivity.
  - destruct (Nat.ltb_spec outleft (length bs)).
    + destruct (A outleft) as (log & F & I); [lia|]. rewrite F. cbn [bind].
      destruct (pokes_inb log outb pos outleft I R) as (b' & E' & L1 & F1 & S1). exists b'. rewrite E'.
      split; [repeat split; auto|]. cbn [Z.ltb Z.compare]. rewrite set_ost_same. reflexivity.
    + destruct (B outleft) as (log & F & W); [lia|]. rewrite F. cbn [bind].
      destruct (pokes_writes log outb pos bs W) as (b' & E' & L2 & F2 & S2); [lia|].
      exists b'. rewrite E'. split.
      { repeat split; auto; [eapply pokes_firstn; eauto|]. eapply skipn_le_eq; [|exact S2]. lia. }
      destruct (Z.ltb_spec (Z.of_nat (length bs)) 0); [lia|].
      destruct (Z.leb_spec (Z.of_nat (length bs)) (Z.of_nat outleft)); [|lia].
      rewrite Nat2Z.id. split; [exact F2|reflexivity].
Qed.

Lemma set_ist_istate : forall cd o, set_ist (set_ost (set_ist cd o) (ostate cd)) (istate cd) = cd.
Proof. intros [] o. reflexivity. Qed.

Lemma loop_reset_spec : forall cd outb outleft, cd_ok cd -> (outleft <= length outb)%nat ->
  ((1 <= outleft)%nat \/ exists ist', fpend (cd_i cd) (ostate cd) (PBytes [] (ostate cd) 0) 0 ist') ->
  exists r, loop_reset cd outb outleft = Ok r /\ fspec cd outb outleft r.
Proof.
  intros cd outb outleft (C1 & C2 & C3 & C4 & C5 & C6) R ROOM.
  unfold loop_reset. rewrite C1.
  assert (TAIL : forall cd1 b pos left result bs1 ost1 need ist',
    fpend (cd_i cd) (ostate cd) (PBytes bs1 ost1 result) need ist' -> (need <= outleft)%nat ->
    mem_ok outb b 0 outleft -> pos = length bs1 -> (pos <= outleft)%nat -> left = (outleft - pos)%nat -> firstn pos b = bs1 ->
    cd1 = at_ cd (ist', ibyteorder cd) ost1 -> oinv ost1 ->
    exists r, loop_reset_tail cd1 b pos left result = Ok r /\ fspec cd outb outleft r).
  { intros cd1 b pos left result bs1 ost1 need ist' FP NE M1 -> L1 -> F1 -> O1.
    destruct (frst_total ost1 O1) as (bs2 & FR & _).
    destruct (reset_tail_spec (at_ cd (ist', ibyteorder cd) ost1) b (length bs1) (outleft - length bs1) result bs2)
      as (b' & M2 & Q); [exact C2|exact FR|destruct M1 as [-> _]; lia|].
    assert (M3 : mem_ok outb b' 0 outleft).
    { destruct M1 as (A1 & A2 & A3), M2 as (B1 & B2 & B3). repeat split; [congruence|]. cbn [plus] in *.
      replace (length bs1 + (outleft - length bs1))%nat with outleft in B3 by lia. congruence. }
    destruct (Nat.ltb_spec (outleft - length bs1) (length bs2)).
    - eexists. split; [exact Q|]. eapply fs_big2; eauto; [rewrite app_length; lia|].
      destruct M2 as (_ & B2 & _). rewrite B2. exact F1.
    - destruct Q as [F2 Q]. eexists. split; [exact Q|]. rewrite <- app_length.
      replace (outleft - length bs1 - length bs2)%nat with (outleft - length (bs1 ++ bs2))%nat by (rewrite app_length; lia).
      change (at_ (at_ cd (ist', ibyteorder cd) ost1) _ 0) with (at_ cd (0, ibyteorder cd) 0).
      eapply fs_done; eauto; [rewrite app_length; lia|]. rewrite app_length, F2, F1. reflexivity. }
  pose proof (d_flush _ _ _ _ _ Hd (cd_i cd) C3) as DF. unfold cd_i in DF; cbn [fst snd] in DF.
  destruct (f_flush fi) as [fl|] eqn:Efl.
  2: { eapply (TAIL cd outb 0%nat outleft 0%nat []); [now apply fp_none|lia|apply mem_ok_refl|reflexivity|lia|lia|reflexivity| |exact C4].
       destruct cd; reflexivity. }
  destruct DF as (b & w & ist' & A & B & C & D). rewrite A. cbn [bind].
  destruct (Z.eqb_spec b 0) as [->|Nb].
  { cbn [negb]. rewrite C in * by reflexivity.
    eapply (TAIL _ outb 0%nat outleft 0%nat []); [eapply fp_zero; eauto|lia|apply mem_ok_refl|reflexivity|lia|lia|reflexivity| |exact C4].
    destruct cd; reflexivity. }
  destruct (D Nb) as (wc & -> & Pw & _). cbn [negb oget].
  destruct ROOM as [ROOM|(ist2 & FP)].
  2: { exfalso. inversion FP; subst; try congruence.
       - unfold cd_i in *; cbn [fst] in *. rewrite Efl in H. inversion H; subst. congruence.
       - match goal with [ Q : putr _ _ _ 0 |- _ ] => inversion Q; subst end;
         try match goal with [ Q : enc_at _ _ _ _ 0 |- _ ] => inversion Q; lia end;
         match goal with [ Q : enc_at _ _ _ _ ?n1, Q' : enc_at _ _ _ _ ?n2 |- _ ] => inversion Q; inversion Q'; lia end. }
  destruct (putr_total wc (ostate cd) Pw C4) as (p & need & PT & N & PI & LB).
  assert (FP : fpend (cd_i cd) (ostate cd) p need ist') by (eapply fp_some; eauto).
  set (cd1 := set_ist cd ist').
  assert (D1 : ofuncs cd1 = fo) by exact C2.
  assert (O1 : ostate cd1 = ostate cd) by reflexivity.
  assert (AT : forall o, set_ost cd1 o = at_ cd (ist', ibyteorder cd) o) by reflexivity.
  assert (AT1 : cd1 = at_ cd (ist', ibyteorder cd) (ostate cd)) by reflexivity.
  assert (AT2 : set_ist cd1 (istate cd) = cd) by (destruct cd; reflexivity).
  assert (Dd1 : negb (discard_ilseq cd1 =? 0) = disc) by exact C6.
  assert (R0 : (0 + outleft <= length outb)%nat) by exact R.
  destruct PT as [bs ost' need A1|need A1 T|need A1 T Di|need bs ost' need' A1 T Di A2|need need' A1 T Di A2];
    rewrite <- O1 in A1;
    match goal with |- exists st, call_wctomb _ _ _ _ _ ?kk = _ /\ _ =>
      destruct (call_spec _ cd1 outb 0%nat outleft wc kk _ _ D1 A1 ltac:(lia) R0) as (b1 & M1 & Q1) end;
    match type of Q1 with if (?x <? ?y)%nat then _ else _ => destruct (Nat.ltb_spec x y) as [Lt1|Le1] end.
  1,3,5,7,9: rewrite Q1; cbn [negb Z.eqb]; unfold reset_outcount_ok; cbn [Z.ltb Z.compare]; rewrite AT2; eexists; (split; [reflexivity|]);
     eapply fs_big1; eauto; lia.
  - destruct Q1 as (-> & Lb & F1). destruct (Z.eqb_spec (Z.of_nat (length bs)) (-1)); [lia|]. cbn [negb].
    unfold reset_outcount_ok. destruct (Z.ltb_spec (Z.of_nat (length bs)) 0); [lia|].
    destruct (Z.leb_spec (Z.of_nat (length bs)) (Z.of_nat outleft)); [|lia]. rewrite Nat2Z.id.
    eapply TAIL; [exact FP|exact Le1|exact M1|reflexivity|exact Lb|reflexivity|exact F1|apply AT|exact PI].
  - rewrite Q1. cbn [negb Z.eqb Pos.eqb]. unfold is_tag in T. rewrite T.
    eapply TAIL; [exact FP|exact Le1|exact M1|reflexivity|cbn; lia|cbn; lia|reflexivity|exact AT1|exact C4].
  - rewrite Q1. cbn [negb Z.eqb Pos.eqb]. unfold is_tag in T. rewrite T, Dd1, Di.
    unfold reset_outcount_ok. cbn [Z.ltb Z.compare]. destruct (Z.leb_spec 0 (Z.of_nat outleft)); [|lia].
    eapply TAIL; [exact FP|exact Le1|exact M1|reflexivity|cbn; lia|cbn; lia|reflexivity|exact AT1|exact C4].
  - rewrite Q1. cbn [negb Z.eqb Pos.eqb]. unfold is_tag in T. rewrite T, Dd1, Di.
    rewrite <- O1 in A2.
    assert (R1 : (0 + outleft <= length b1)%nat) by (destruct M1 as [-> _]; exact R).
    match goal with |- exists st, call_wctomb _ _ _ _ _ ?kk = _ /\ _ =>
      destruct (call_spec _ cd1 b1 0%nat outleft 0xfffd kk _ _ D1 A2 ltac:(lia) R1) as (b2 & M2 & Q2) end.
    pose proof (mem_ok_trans _ _ _ _ _ M1 M2) as M3.
    match type of Q2 with if (?x <? ?y)%nat then _ else _ => destruct (Nat.ltb_spec x y) as [Lt2|Le2] end.
    + rewrite Q2; cbn [negb Z.eqb]; unfold reset_outcount_ok; cbn [Z.ltb Z.compare]; rewrite AT2; eexists; (split; [reflexivity|]).
      eapply fs_big1; eauto; lia.
    + destruct Q2 as (-> & Lb & F1). destruct (Z.eqb_spec (Z.of_nat (length bs)) (-1)); [lia|]. cbn [negb].
      unfold reset_outcount_ok. destruct (Z.ltb_spec (Z.of_nat (length bs)) 0); [lia|].
      destruct (Z.leb_spec (Z.of_nat (length bs)) (Z.of_nat outleft)); [|lia]. rewrite Nat2Z.id.
      eapply TAIL; [exact FP|lia|exact M3|reflexivity|exact Lb|reflexivity|exact F1|apply AT|exact PI].
  - rewrite Q1. cbn [negb Z.eqb Pos.eqb]. unfold is_tag in T. rewrite T, Dd1, Di.
    rewrite <- O1 in A2.
    assert (R1 : (0 + outleft <= length b1)%nat) by (destruct M1 as [-> _]; exact R).
    match goal with |- exists st, call_wctomb _ _ _ _ _ ?kk = _ /\ _ =>
      destruct (call_spec _ cd1 b1 0%nat outleft 0xfffd kk _ _ D1 A2 ltac:(lia) R1) as (b2 & M2 & Q2) end.
    pose proof (mem_ok_trans _ _ _ _ _ M1 M2) as M3.
    match type of Q2 with if (?x <? ?y)%nat then _ else _ => destruct (Nat.ltb_spec x y) as [Lt2|Le2] end.
    + rewrite Q2; cbn [negb Z.eqb]; unfold reset_outcount_ok; cbn [Z.ltb Z.compare]; rewrite AT2; eexists; (split; [reflexivity|]).
      eapply fs_big1; eauto; lia.
    + rewrite Q2; cbn [negb Z.eqb Pos.eqb]. rewrite AT2. eexists; (split; [reflexivity|]).
      eapply fs_unenc; eauto; lia.
Qed.
End Loop.
