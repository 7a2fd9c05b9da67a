(** Converting a whole text: one call with the input, one flush, both with enough space. *)
From Coq Require Import ZArith List Bool Lia.
From Verif Require Import Base Indexes Loop Contract LoopLib LoopProps Spec SpecProps Encodings Api AllOk Public Demo C_iconv.
Import ListNotations.
Open Scope Z_scope.

(** [whole cd s out n]: converting s and flushing succeeds, gives the bytes out and reports n lost characters. *)
Definition whole (cd : conv) (s out : list Z) (n : nat) : Prop :=
  exists outb outleft r m outb2 outleft2 r2 m2, (outleft <= length outb)%nat /\ (1 <= outleft2 <= length outb2)%nat /\
    reiconv_iconv cd (Some s) (Some outb) outleft = Ok r /\ r_ret r = Num m /\
    reiconv_iconv (r_cd r) None (Some outb2) outleft2 = Ok r2 /\ r_ret r2 = Num m2 /\
    out = produced r ++ produced r2 /\ n = (m + m2)%nat.

Lemma call_complete : forall cd s cs i out n o outb outleft, reachable cd -> input s -> rd cd s cs AtEnd [] i -> wr cd cs = (out, n, o, []) ->
  (enough (length s) <= outleft <= length outb)%nat ->
  exists r, reiconv_iconv cd (Some s) (Some outb) outleft = Ok r /\ r_ret r = Num n /\ produced r = out /\ r_in r = [] /\
    cd_i (r_cd r) = i /\ ostate (r_cd r) = o /\ same_desc cd (r_cd r) /\ reachable (r_cd r).
Proof.
  intros cd s cs i out n o outb outleft H I R W L.
  destruct (iconv_meets_spec cd s outb outleft H I) as (r & E & S & H'); [lia|]. exists r. split; [exact E|].
  pose proof (enough_room cd s outb outleft r H I (proj2 L) (proj1 L) E) as NB.
  destruct S as (_ & _ & _ & _ & SD & cs1 & cs2 & st & rest & i' & n' & R1 & W1 & X).
  destruct (rd_det _ _ _ _ _ _ _ _ _ _ R1 R) as (<- & -> & -> & ->).
  rewrite (wr_app _ _ cs2 _ _ _ W1) in W.
  destruct (writes_all (ofuncs cd) (skipping cd) cs2 (ostate (r_cd r))) as [[[o2 n2] oo] bad] eqn:W2. inversion W; subst out n oo bad; clear W.
  destruct (r_ret r) as [m|[]].
  - destruct X as (-> & -> & _ & Y & Z). cbn in W2. inversion W2; subst. rewrite app_nil_r, Nat.add_0_r. auto 10.
  - congruence.
  - exfalso. destruct X as (_ & [(_ & X & _)|(w & l & -> & Wc & _)]); [discriminate|]. cbn [writes_all] in W2. rewrite Wc in W2. discriminate.
  - destruct X as (_ & X & _). discriminate.
  - destruct X.
Qed.

Lemma held_len : forall f i, (length (held f i) <= 1)%nat.
Proof.
  intros f i. unfold held. destruct (f_flush f) as [fl|]; [|cbn; lia]. destruct (fl i) as [[[b [w|]] i']| | |]; cbn; try lia. destruct (b =? 0); cbn; lia.
Qed.
Lemma flush_complete : forall cd out n o outb outleft, reachable cd -> wr cd (pending cd) = (out, n, o, []) ->
  (3 * MAXNEED <= outleft <= length outb)%nat ->
  exists r, reiconv_iconv cd None (Some outb) outleft = Ok r /\ r_ret r = Num n /\ produced r = out ++ closing (ofuncs cd) o.
Proof.
  intros cd out n o outb outleft H W L.
  destruct (flush_meets_spec cd outb outleft H) as (r & E & S & H'); [lia|left; unfold MAXNEED in L; lia|]. exists r. split; [exact E|].
  destruct S as (S1 & _ & S3 & _ & SD & X). pose proof (pending_ucs4 cd H) as PU.
  destruct (r_ret r) as [m|[]].
  - destruct X as (out' & o1 & X1 & X2 & _). rewrite W in X1. inversion X1; subst. auto.
  - exfalso. destruct X as (h1 & n1 & X1 & X2 & _ & X4 & _).
    assert (length (produced r) <= MAXNEED * length h1)%nat.
    { rewrite X2 in PU. apply Forall_app in PU. apply (wr_bounds _ _ _ _ _ _ H (proj1 PU) X1). }
    assert (length h1 <= 1)%nat.
    { pose proof (held_len (ifuncs cd) (istate cd)) as HL. fold (pending cd) in HL. rewrite X2, app_length in HL. lia. }
    unfold produced in H0. rewrite firstn_length in H0. unfold MAXNEED in *. lia.
  - exfalso. destruct X as (_ & _ & _ & wc & P & Wc). rewrite P in W. unfold wr in W. cbn [writes_all] in W. rewrite Wc in W. discriminate.
  - destruct X.
  - destruct X.
Qed.

(** In terms of the reference meaning of Spec.v. *)
Lemma whole_iff : forall cd s out n, reachable cd -> input s ->
  whole cd s out n <-> exists cs i bs o, rd cd s cs AtEnd [] i /\ wr cd (cs ++ held (ifuncs cd) (fst i)) = (bs, n, o, []) /\ out = bs ++ closing (ofuncs cd) o.
Proof.
  intros cd s out n H I. split.
  - intros (outb & outleft & r & m & outb2 & outleft2 & r2 & m2 & L & L2 & E & X & E2 & X2 & -> & ->).
    destruct (C13_text_and_flush cd s outb outleft r m outb2 outleft2 r2 m2 H I L E X L2 E2 X2) as (cs & i & bs & o & A & B & C & _).
    exists cs, i, bs, o. auto.
  - intros (cs & i & bs & o & R & W & ->).
    destruct (wr cd cs) as [[[b1 n1] o1] bad] eqn:W1.
    assert (bad = []) as ->.
    { destruct bad as [|x bad]; [reflexivity|]. exfalso. revert W1 W. unfold wr. generalize (ostate cd). clear. revert b1 n1 o1 bs n.
      induction cs as [|c cs IH]; cbn; intros b1 n1 o1 bs n st W1 W; [discriminate|].
      destruct (write1 (ofuncs cd) (skipping cd) c st) as [[[a st'] k]|] eqn:E; [|discriminate].
      destruct (writes_all (ofuncs cd) (skipping cd) cs st') as [[[x1 x2] x3] x4] eqn:E1.
      destruct (writes_all (ofuncs cd) (skipping cd) (cs ++ held (ifuncs cd) (fst i)) st') as [[[y1 y2] y3] y4] eqn:E2.
      inversion W1; subst. inversion W; subst. exact (IH _ _ _ _ _ _ E1 E2). }
    rewrite (wr_app _ _ _ _ _ _ W1) in W.
    destruct (writes_all (ofuncs cd) (skipping cd) (held (ifuncs cd) (fst i)) o1) as [[[b2 n2] o2] bad] eqn:W2. inversion W; subst bs n o2 bad; clear W.
    set (B := repeat 0 (enough (length s))). set (B2 := repeat 0 (3 * MAXNEED)).
    destruct (call_complete cd s cs i b1 n1 o1 B (length B) H I R W1) as (r & E & X & P & _ & Ci & Co & SD & H'); [unfold B; rewrite repeat_length; lia|].
    pose proof SD as (D1 & D2 & D3 & D4 & D5).
    destruct (flush_complete (r_cd r) b2 n2 o B2 (length B2) H') as (r2 & E2 & X2 & P2).
    { rewrite (wr_same cd (r_cd r)) by exact SD. unfold pending. rewrite D2, Co. replace (istate (r_cd r)) with (fst i); [exact W2|]. rewrite <- Ci. reflexivity. }
    { unfold B2. rewrite repeat_length. lia. }
    exists B, (length B), r, n1, B2, (length B2), r2, n2. split; [lia|]. split; [unfold B2; rewrite repeat_length; unfold MAXNEED; lia|].
    repeat (split; [assumption|]). split; [|reflexivity]. rewrite P, P2, D4. now rewrite app_assoc.
Qed.
Lemma whole_det : forall cd s out n out' n', reachable cd -> input s -> whole cd s out n -> whole cd s out' n' -> out = out' /\ n = n'.
Proof.
  intros cd s out n out' n' H I A B. apply whole_iff in A; auto. apply whole_iff in B; auto.
  destruct A as (cs & i & bs & o & R & W & ->), B as (cs' & i' & bs' & o' & R' & W' & ->).
  destruct (rd_det _ _ _ _ _ _ _ _ _ _ R R') as (<- & _ & _ & <-). rewrite W in W'. inversion W'. auto.
Qed.
(** For concrete texts. *)
Lemma whole_run : forall cd s room out n m1 m2, reachable cd -> input s -> (1 <= room)%nat ->
  r_ret (call cd s room) = Num m1 -> r_ret (flush (r_cd (call cd s room)) room) = Num m2 ->
  produced (call cd s room) ++ produced (flush (r_cd (call cd s room)) room) = out -> (m1 + m2)%nat = n -> whole cd s out n.
Proof.
  intros cd s room out n m1 m2 H I L X1 X2 <- <-.
  exists (repeat 0 room), room, (call cd s room), m1, (repeat 0 room), room, (flush (r_cd (call cd s room)) room), m2.
  rewrite repeat_length. split; [lia|]. split; [lia|]. split; [now apply call_ok|]. split; [exact X1|].
  split; [apply flush_ok; [now apply call_reachable|exact L]|]. auto.
Qed.
Ltac wrun n := eapply (whole_run _ _ n); [opn|inp|repeat constructor|run|run|run|run].
