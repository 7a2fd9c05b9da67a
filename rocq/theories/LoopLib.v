(** Lemmas about the vocabulary: output stores, logs, views of return values. *)
From Coq Require Import ZArith List Bool Lia.
From Verif Require Import Base Loop Contract.
Import ListNotations.
Open Scope Z_scope.
Ltac Zify.zify_post_hook ::= Z.div_mod_to_equations.

Lemma skipn_skipn : forall (A : Type) (a b : nat) (l : list A), skipn a (skipn b l) = skipn (b + a) l.
Proof.
  intros A a b; revert a; induction b as [|b IH]; intros a l; [reflexivity|].
  destruct l; [now rewrite !skipn_nil|]. cbn. apply IH.
Qed.

Lemma skipn_app_le : forall (A : Type) (k : nat) (s t : list A), (k <= length s)%nat -> skipn k (s ++ t) = skipn k s ++ t.
Proof. intros. rewrite skipn_app. replace (k - length s)%nat with 0%nat by lia. reflexivity. Qed.

Lemma firstn_app_le : forall (A : Type) (k : nat) (s t : list A), (k <= length s)%nat -> firstn k (s ++ t) = firstn k s.
Proof. intros. rewrite firstn_app. replace (k - length s)%nat with 0%nat by lia. rewrite firstn_O, app_nil_r. reflexivity. Qed.

Lemma Forall_skipn : forall (A : Type) (P : A -> Prop) (k : nat) (l : list A), Forall P l -> Forall P (skipn k l).
Proof.
  intros A P k; induction k as [|k IH]; intros l H; [exact H|].
  destruct l; [exact H|]. inversion H; subst. now apply IH.
Qed.

(** ** poke *)
Lemma poke_some : forall b i v, (i < length b)%nat -> exists b', poke b i v = Some b'.
Proof.
  induction b as [|x b IH]; cbn; intros i v H; [lia|].
  destruct i as [|i]; [eauto|]. destruct (IH i v) as [b' E]; [lia|]. rewrite E. eauto.
Qed.
Lemma poke_len : forall b i v b', poke b i v = Some b' -> length b' = length b.
Proof.
  induction b as [|x b IH]; cbn; intros i v b' H; [discriminate|].
  destruct i as [|i]; [now inversion H|].
  destruct (poke b i v) eqn:E; [|discriminate]. inversion H; cbn. f_equal. eauto.
Qed.
Lemma poke_nth : forall b i v b' j, poke b i v = Some b' ->
  nth_error b' j = if Nat.eqb j i then Some v else nth_error b j.
Proof.
  induction b as [|x b IH]; cbn; intros i v b' j H; [discriminate|].
  destruct i as [|i].
  - inversion H; subst. destruct j; reflexivity.
  - destruct (poke b i v) eqn:E; [|discriminate]. inversion H; subst.
    destruct j; cbn; [reflexivity|]. eauto.
Qed.

Lemma pokes_some : forall l b pos, Forall (fun e => (pos + fst e < length b)%nat) l ->
  exists b', pokes b pos l = Some b' /\ length b' = length b.
Proof.
  induction l as [|[o v] l IH]; cbn; intros b pos H; [eauto|].
  inversion H as [|e l' H1 H2]; subst. cbn in H1.
  destruct (IH b pos H2) as (b' & E & L). rewrite E.
  destruct (poke_some b' (pos + o) v) as [b'' E2]; [lia|].
  exists b''. split; [exact E2|]. apply poke_len in E2. lia.
Qed.

Lemma pokes_nth : forall l b pos b' j, pokes b pos l = Some b' ->
  nth_error b' j =
    if (Nat.leb pos j) then match lfind l (j - pos) with Some v => Some v | None => nth_error b j end
    else nth_error b j.
Proof.
  induction l as [|[o v] l IH]; cbn; intros b pos b' j H.
  - inversion H; subst. destruct (Nat.leb pos j); reflexivity.
  - destruct (pokes b pos l) as [b1|] eqn:E; [|discriminate].
    rewrite (poke_nth _ _ _ _ j H), (IH _ _ _ j E).
    destruct (Nat.leb_spec pos j).
    + destruct (Nat.eqb_spec j (pos + o)); destruct (Nat.eqb_spec (j - pos) o); try lia; reflexivity.
    + destruct (Nat.eqb_spec j (pos + o)); [lia|reflexivity].
Qed.

Lemma nth_error_ext : forall (A : Type) (l l' : list A), (forall j, nth_error l j = nth_error l' j) -> l = l'.
Proof.
  induction l as [|x l IH]; intros [|y l'] H.
  - reflexivity.
  - specialize (H 0%nat); discriminate.
  - specialize (H 0%nat); discriminate.
  - f_equal.
    + specialize (H 0%nat). now inversion H.
    + apply IH. intro j. exact (H (S j)).
Qed.

Lemma nth_error_firstn : forall (A : Type) (l : list A) n j,
  nth_error (firstn n l) j = if Nat.ltb j n then nth_error l j else None.
Proof.
  induction l as [|x l IH]; intros n j.
  - rewrite firstn_nil. destruct (Nat.ltb j n); destruct j; reflexivity.
  - destruct n as [|n]; cbn.
    + destruct j; reflexivity.
    + destruct j; cbn; [reflexivity|]. rewrite IH. reflexivity.
Qed.

Lemma nth_error_skipn : forall (A : Type) (l : list A) n j, nth_error (skipn n l) j = nth_error l (n + j).
Proof.
  induction l as [|x l IH]; intros n j.
  - rewrite skipn_nil. destruct j, n; reflexivity.
  - destruct n as [|n]; cbn; [reflexivity|apply IH].
Qed.

Lemma pokes_firstn : forall l b pos b' n, pokes b pos l = Some b' -> (n <= pos)%nat -> firstn n b' = firstn n b.
Proof.
  intros l b pos b' n H L. apply nth_error_ext. intro j. rewrite !nth_error_firstn.
  destruct (Nat.ltb_spec j n); [|reflexivity].
  rewrite (pokes_nth _ _ _ _ j H). destruct (Nat.leb_spec pos j); [lia|reflexivity].
Qed.

Lemma lfind_inb : forall l n j v, inb l n -> lfind l j = Some v -> (j < n)%nat /\ byte v.
Proof.
  induction l as [|[o w] l IH]; cbn; intros n j v H E; [discriminate|].
  inversion H as [|e l' H1 H2]; subst; cbn in H1.
  destruct (Nat.eqb_spec j o); [inversion E; subst; exact H1|]. eauto.
Qed.

Lemma pokes_inb : forall l b pos n, inb l n -> (pos + n <= length b)%nat ->
  exists b', pokes b pos l = Some b' /\ length b' = length b /\ firstn pos b' = firstn pos b /\
    skipn (pos + n) b' = skipn (pos + n) b.
Proof.
  intros l b pos n H L.
  destruct (pokes_some l b pos) as (b' & E & LL).
  - eapply Forall_impl; [|exact H]. cbn. intros e He. lia.
  - exists b'. repeat split; auto.
    + eapply pokes_firstn; eauto.
    + apply nth_error_ext. intro j. rewrite !nth_error_skipn, (pokes_nth _ _ _ _ _ E).
      destruct (Nat.leb_spec pos (pos + n + j)); [|lia].
      destruct (lfind l (pos + n + j - pos)) eqn:F; [|reflexivity].
      apply (lfind_inb _ _ _ _ H) in F. lia.
Qed.

Lemma pokes_writes : forall l b pos bs, writes l bs -> (pos + length bs <= length b)%nat ->
  exists b', pokes b pos l = Some b' /\ length b' = length b /\
    firstn (pos + length bs) b' = firstn pos b ++ bs /\ skipn (pos + length bs) b' = skipn (pos + length bs) b.
Proof.
  intros l b pos bs [H W] L.
  destruct (pokes_inb l b pos (length bs) H L) as (b' & E & LL & F & S).
  exists b'. repeat split; auto.
  apply nth_error_ext. intro j. rewrite nth_error_firstn.
  assert (LF : length (firstn pos b) = pos) by (rewrite firstn_length; lia).
  destruct (Nat.ltb_spec j (pos + length bs)).
  - rewrite (pokes_nth _ _ _ _ j E).
    destruct (Nat.leb_spec pos j).
    + rewrite nth_error_app2 by lia. rewrite LF.
      destruct (nth_error bs (j - pos)) eqn:N.
      * rewrite (W _ _ N). reflexivity.
      * apply nth_error_None in N. lia.
    + rewrite nth_error_app1 by lia. rewrite nth_error_firstn.
      destruct (Nat.ltb_spec j pos); [reflexivity|lia].
  - symmetry. apply nth_error_None. rewrite app_length. lia.
Qed.

(** ** Reading the bytes of a log back *)
Fixpoint log_bytes (l : wlog) (o k : nat) : list Z :=
  match k with O => [] | S k => match lfind l o with Some v => v | None => -1 end :: log_bytes l (S o) k end.

Lemma log_bytes_spec : forall l bs o, (forall j b, nth_error bs j = Some b -> lfind l (o + j) = Some b) ->
  log_bytes l o (length bs) = bs.
Proof.
  intros l bs; induction bs as [|b bs IH]; cbn; intros o H; [reflexivity|].
  rewrite (IH (S o)).
  - specialize (H 0%nat b eq_refl). rewrite Nat.add_0_r in H. rewrite H. reflexivity.
  - intros j b' E. specialize (H (S j) b' E). rewrite <- H. f_equal. lia.
Qed.

Lemma writes_bytes : forall l bs, writes l bs -> log_bytes l 0 (length bs) = bs.
Proof. intros l bs [_ W]. apply log_bytes_spec. intros. cbn. auto. Qed.

Lemma writes_byte : forall l bs, writes l bs -> bytes bs.
Proof.
  intros l bs [I W]. apply Forall_forall. intros b Hb.
  apply In_nth_error in Hb. destruct Hb as [j Hj]. apply W in Hj.
  eapply lfind_inb in Hj; [|exact I]. tauto.
Qed.

(** ** Views of raw return values *)
Lemma dview_inv : forall r d, dview r = Some d -> exists c w ist ibo, r = Ok (c, w, ist, ibo).
Proof. intros [[[[c w] ist] ibo]| | |] d H; try discriminate. eauto. Qed.
