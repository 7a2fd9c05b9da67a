(** Deciding the converter contracts by computation.

    A check runs a converter on every character (encoders) or every byte prefix that can matter (decoders),
    with the remaining input and the remaining room kept symbolic; its soundness lemma turns a successful run
    into the contract for all inputs. *)
From Coq Require Import ZArith List Bool Lia.
From Verif Require Import Base Loop Contract LoopLib.
Import ListNotations.
Open Scope Z_scope.
Ltac Zify.zify_post_hook ::= Z.div_mod_to_equations.

(** ** Ranges *)
(** f holds on [b*2^d, (b+1)*2^d). *)
Fixpoint allp (d : nat) (b : Z) (f : Z -> bool) : bool :=
  match d with
  | O => f b
  | S d => if allp d (Z.double b) f then allp d (Z.succ_double b) f else false
  end.
Lemma allp_sound : forall d b f, allp d b f = true ->
  forall x, b * 2 ^ Z.of_nat d <= x < (b + 1) * 2 ^ Z.of_nat d -> f x = true.
Proof.
  induction d as [|d IH]; intros b f H x Hx.
  - cbn in *. replace x with b by lia. exact H.
  - cbn [allp] in H. destruct (allp d (Z.double b) f) eqn:E; [|discriminate].
    rewrite Nat2Z.inj_succ, Z.pow_succ_r in Hx by lia.
    rewrite Z.double_spec in *. rewrite Z.succ_double_spec in *.
    destruct (Z.lt_ge_cases x ((2 * b + 1) * 2 ^ Z.of_nat d)).
    + apply (IH _ _ E). lia.
    + apply (IH _ _ H). lia.
Qed.
Definition allbytes (f : Z -> bool) : bool := allp 8 0 f.
Lemma allbytes_sound : forall f, allbytes f = true -> forall b, byte b -> f b = true.
Proof. intros f H b Hb. apply (allp_sound _ _ _ H). unfold byte in Hb. cbn. lia. Qed.

(** ** Boolean counterparts *)
Definition inbb (log : wlog) (n : nat) : bool :=
  forallb (fun e => Nat.ltb (fst e) n && (0 <=? snd e) && (snd e <? 256)) log.
Lemma inbb_sound : forall log n, inbb log n = true -> inb log n.
Proof.
  intros log n H. unfold inbb in H. rewrite forallb_forall in H. apply Forall_forall.
  intros e He. apply H in He. rewrite !andb_true_iff in He. destruct He as [[A B] C].
  apply Nat.ltb_lt in A. apply Z.leb_le in B. apply Z.ltb_lt in C. unfold byte. lia.
Qed.
Lemma inb_le : forall log a b, (a <= b)%nat -> inb log a -> inb log b.
Proof. intros log a b L H. eapply Forall_impl; [|exact H]. cbn. intros e [H1 H2]. split; [lia|exact H2]. Qed.

Fixpoint zlist_eqb (a b : list Z) : bool :=
  match a, b with [], [] => true | x :: a, y :: b => (x =? y) && zlist_eqb a b | _, _ => false end.
Lemma zlist_eqb_eq : forall a b, zlist_eqb a b = true -> a = b.
Proof.
  induction a as [|x a IH]; destruct b; cbn; intro H; try discriminate; [reflexivity|].
  apply andb_true_iff in H. destruct H as [A B]. apply Z.eqb_eq in A. f_equal; auto.
Qed.

Lemma log_bytes_len : forall k log o, length (log_bytes log o k) = k.
Proof. induction k; intros; cbn; auto. Qed.
Lemma log_bytes_nth : forall k log o j b, nth_error (log_bytes log o k) j = Some b -> 0 <= b -> lfind log (o + j) = Some b.
Proof.
  induction k as [|k IH]; intros log o j b H Hb.
  - destruct j; discriminate.
  - destruct j as [|j]; cbn in H.
    + rewrite Nat.add_0_r. destruct (lfind log o); [exact H|]. inversion H. lia.
    + apply IH in H; auto. rewrite <- H. f_equal. lia.
Qed.

Definition writesb (log : wlog) (bs : list Z) : bool :=
  inbb log (length bs) && zlist_eqb (log_bytes log 0 (length bs)) bs && forallb (fun b => 0 <=? b) bs.
Lemma writesb_sound : forall log bs, writesb log bs = true -> writes log bs.
Proof.
  intros log bs H. unfold writesb in H. rewrite !andb_true_iff in H. destruct H as [[A B] C].
  split; [now apply inbb_sound|]. apply zlist_eqb_eq in B. intros j b Hj.
  rewrite forallb_forall in C. pose proof (C b (nth_error_In _ _ Hj)) as Cb. apply Z.leb_le in Cb.
  rewrite <- B in Hj. now apply log_bytes_nth in Hj.
Qed.

(** ** Encoders *)
Definition isfail (r : res (Z * wlog * Z)) (c ost : Z) (n : nat) : bool :=
  match r with Ok (c', log, ost') => (c' =? c) && (ost' =? ost) && inbb log n | _ => false end.
Lemma isfail_sound : forall r c ost k n, isfail r c ost k = true -> (k <= n)%nat ->
  exists log, r = Ok (c, log, ost) /\ inb log n.
Proof.
  intros [[[c' log] ost']| | |] c ost k n H L; try discriminate. cbn in H. rewrite !andb_true_iff in H.
  destruct H as [[A B] C]. apply Z.eqb_eq in A. apply Z.eqb_eq in B. subst. exists log. split; [reflexivity|].
  eapply inb_le; [exact L|]. now apply inbb_sound.
Qed.
Definition issucc (r : res (Z * wlog * Z)) (bs : list Z) (ost1 : Z) : bool :=
  match r with Ok (c', log, ost') => (c' =? Z.of_nat (length bs)) && (ost' =? ost1) && writesb log bs | _ => false end.
Lemma issucc_sound : forall r bs ost1, issucc r bs ost1 = true ->
  exists log, r = Ok (Z.of_nat (length bs), log, ost1) /\ writes log bs.
Proof.
  intros [[[c' log] ost']| | |] bs ost1 H; try discriminate. cbn in H. rewrite !andb_true_iff in H.
  destruct H as [[A B] C]. apply Z.eqb_eq in A. apply Z.eqb_eq in B. subst. exists log. split; [reflexivity|].
  now apply writesb_sound.
Qed.

(** Room 1 .. k-1 all fail with -2 below need and with -1 from need on. *)
Fixpoint illchk (g : nat -> res (Z * wlog * Z)) (ost : Z) (need k : nat) : bool :=
  match k with
  | O | S O => true
  | S k' => isfail (g k') (if Nat.ltb k' need then -2 else -1) ost k' && illchk g ost need k'
  end.
Lemma illchk_sound : forall g ost need k, illchk g ost need k = true ->
  forall n, (1 <= n < k)%nat -> exists log, g n = Ok (if Nat.ltb n need then -2 else -1, log, ost) /\ inb log n.
Proof.
  intros g ost need k; induction k as [|k IH]; intros H n Hn; [lia|].
  destruct k as [|k]; [lia|]. cbn [illchk] in H. apply andb_true_iff in H. destruct H as [A B].
  destruct (Nat.eq_dec n (S k)) as [->|N]; [eapply isfail_sound; eauto|]. apply IH; auto. lia.
Qed.
Fixpoint okchk (g : nat -> res (Z * wlog * Z)) (ost : Z) (bs : list Z) (ost1 : Z) (k : nat) : bool :=
  match k with
  | O | S O => true
  | S k' => (if Nat.ltb k' (length bs) then isfail (g k') (-2) ost k' else issucc (g k') bs ost1) && okchk g ost bs ost1 k'
  end.
Lemma okchk_sound : forall g ost bs ost1 k, okchk g ost bs ost1 k = true ->
  forall n, (1 <= n < k)%nat ->
    if Nat.ltb n (length bs) then exists log, g n = Ok (-2, log, ost) /\ inb log n
    else exists log, g n = Ok (Z.of_nat (length bs), log, ost1) /\ writes log bs.
Proof.
  intros g ost bs ost1 k; induction k as [|k IH]; intros H n Hn; [lia|].
  destruct k as [|k]; [lia|]. cbn [okchk] in H. apply andb_true_iff in H. destruct H as [A B].
  destruct (Nat.eq_dec n (S k)) as [->|N].
  - destruct (Nat.ltb (S k) (length bs)); [eapply isfail_sound; eauto|now apply issucc_sound].
  - apply IH; auto. lia.
Qed.
(** The least room at which g reports something else than -2. *)
Fixpoint findneed (g : nat -> res (Z * wlog * Z)) (n k : nat) : nat :=
  match k with
  | O => n
  | S k => match g n with Ok (c, _, _) => if c =? -2 then findneed g (S n) k else n | _ => n end
  end.

Definition echk (f : Z -> nat -> Z -> res (Z * wlog * Z)) (K : nat) (sts : Z -> bool) (m : nat) (wc ost : Z) : bool :=
  let g n := f wc n ost in
  match g K with
  | Ok (c, log, ost1) =>
    if c <? 0 then
      let need := findneed g 1 (Nat.pred K) in
      Nat.leb need K && Nat.leb 1 need && illchk g ost need (S K) && isfail (g (K + m)%nat) (-1) ost K
    else
      let bs := log_bytes log 0 (Z.to_nat c) in
      Nat.leb (length bs) K && okchk g ost bs ost1 (S K) && issucc (g (K + m)%nat) bs ost1 && sts ost1
  | _ => false
  end.

Lemma echk_sound : forall f K sts wc ost, (1 <= K <= MAXNEED)%nat ->
  (forall m, echk (f_wc f) K sts m wc ost = true) ->
  exists o need, (need <= MAXNEED)%nat /\ enc_at f wc ost o need /\
     match o with Some (_, ost') => sts ost' = true | None => True end.
Proof.
  intros f K sts wc ost HK H. pose proof (H 0%nat) as H0. unfold echk in H, H0.
  destruct (f_wc f wc K ost) as [[[c log] ost1]| | |]; try discriminate.
  destruct (c <? 0).
  - set (need := findneed (fun n => f_wc f wc n ost) 1 (Nat.pred K)) in *. clearbody need.
    rewrite !andb_true_iff in H0. destruct H0 as [[[A B] C] D].
    apply Nat.leb_le in A. apply Nat.leb_le in B.
    exists None, need. split; [lia|]. split; [|exact I]. pose proof (illchk_sound _ _ _ _ C) as S1.
    apply enc_at_ill; [exact B| |].
    + intros n Hn. specialize (S1 n ltac:(lia)). destruct (Nat.ltb_spec n need); [exact S1|lia].
    + intros n Hn. destruct (le_lt_dec n K).
      * specialize (S1 n ltac:(lia)). destruct (Nat.ltb_spec n need); [lia|exact S1].
      * specialize (H (n - K)%nat). rewrite !andb_true_iff in H. destruct H as [_ H].
        replace (K + (n - K))%nat with n in H by lia. eapply isfail_sound; eauto. lia.
  - set (bs := log_bytes log 0 (Z.to_nat c)) in *. clearbody bs.
    rewrite !andb_true_iff in H0. destruct H0 as [[[A B] C] D]. apply Nat.leb_le in A.
    exists (Some (bs, ost1)), (Nat.max 1 (length bs)). split; [lia|]. split; [|exact D].
    pose proof (okchk_sound _ _ _ _ _ B) as S1.
    apply enc_at_ok.
    + intros n Hn. specialize (S1 n ltac:(lia)). cbn beta in S1. destruct (Nat.ltb_spec n (length bs)); [exact S1|lia].
    + intros n Hn Ln. destruct (le_lt_dec n K).
      * specialize (S1 n ltac:(lia)). cbn beta in S1. destruct (Nat.ltb_spec n (length bs)); [lia|exact S1].
      * specialize (H (n - K)%nat). rewrite !andb_true_iff in H. destruct H as [[_ H] _].
        replace (K + (n - K))%nat with n in H by lia. now apply issucc_sound.
Qed.

(** ** Reset functions *)
Definition rchk (rst : nat -> Z -> res (Z * wlog * Z)) (K : nat) (sts : Z -> bool) (m : nat) (ost : Z) : bool :=
  match rst K ost with
  | Ok (c, log, ost1) =>
      let bs := log_bytes log 0 (Z.to_nat c) in
      Nat.leb (length bs) K && okchk (fun n => rst n ost) ost bs ost1 (S K) &&
      (if Nat.ltb 0 (length bs) then isfail (rst 0%nat ost) (-2) ost 0 else issucc (rst 0%nat ost) bs ost1) &&
      issucc (rst (K + m)%nat ost) bs ost1 && sts ost1
  | _ => false
  end.
Lemma rchk_sound : forall rst K sts ost, (1 <= K <= MAXNEED)%nat -> (forall m, rchk rst K sts m ost = true) ->
  exists bs ost', (length bs <= MAXNEED)%nat /\ sts ost' = true /\
    (forall n, (n < length bs)%nat -> exists log, rst n ost = Ok (-2, log, ost) /\ inb log n) /\
    (forall n, (length bs <= n)%nat -> exists log, rst n ost = Ok (Z.of_nat (length bs), log, ost') /\ writes log bs).
Proof.
  intros rst K sts ost HK H. pose proof (H 0%nat) as H0. unfold rchk in H, H0.
  destruct (rst K ost) as [[[c log] ost1]| | |]; try discriminate.
  set (bs := log_bytes log 0 (Z.to_nat c)) in *. clearbody bs.
  rewrite !andb_true_iff in H0. destruct H0 as [[[[A B] Z0] C] D]. apply Nat.leb_le in A.
  exists bs, ost1. split; [lia|]. split; [exact D|]. pose proof (okchk_sound _ _ _ _ _ B) as S1. cbn beta in S1.
  split.
  - intros n Hn. destruct n as [|n].
    + destruct (Nat.ltb_spec 0 (length bs)); [|lia]. eapply isfail_sound; eauto.
    + specialize (S1 (S n) ltac:(lia)). destruct (Nat.ltb_spec (S n) (length bs)); [exact S1|lia].
  - intros n Hn. destruct n as [|n].
    + destruct (Nat.ltb_spec 0 (length bs)); [lia|]. now apply issucc_sound.
    + destruct (le_lt_dec (S n) K).
      * specialize (S1 (S n) ltac:(lia)). destruct (Nat.ltb_spec (S n) (length bs)); [lia|exact S1].
      * specialize (H (S n - K)%nat). rewrite !andb_true_iff in H. destruct H as [[_ H] _].
        replace (K + (S n - K))%nat with (S n) in H by lia. now apply issucc_sound.
Qed.

(** ** Decoders *)
Definition pair_eqb (a b : Z * Z) : bool := (fst a =? fst b) && (snd a =? snd b).
Definition dres_eqb (a b : option dres) : bool :=
  match a, b with
  | Some (DChar k wc i), Some (DChar k' wc' i') => Nat.eqb k k' && (wc =? wc') && pair_eqb i i'
  | Some (DFew k i), Some (DFew k' i') => Nat.eqb k k' && pair_eqb i i'
  | Some (DIll k i), Some (DIll k' i') => Nat.eqb k k' && pair_eqb i i'
  | _, _ => false
  end.
Lemma pair_eqb_eq : forall a b, pair_eqb a b = true -> a = b.
Proof.
  intros [a1 a2] [b1 b2] H. apply andb_true_iff in H. cbn in H. destruct H as [A B].
  apply Z.eqb_eq in A. apply Z.eqb_eq in B. congruence.
Qed.
Lemma dres_eqb_eq : forall a b, dres_eqb a b = true -> a = b.
Proof.
  intros [[k wc i|k i|k i]|] [[k' wc' i'|k' i'|k' i']|] H; cbn in H; try discriminate; rewrite ?andb_true_iff in H.
  - destruct H as [[A B] C]. apply Nat.eqb_eq in A. apply Z.eqb_eq in B. apply pair_eqb_eq in C. congruence.
  - destruct H as [A C]. apply Nat.eqb_eq in A. apply pair_eqb_eq in C. congruence.
  - destruct H as [A C]. apply Nat.eqb_eq in A. apply pair_eqb_eq in C. congruence.
Qed.

(** Decoders whose state ranges over a finite set and whose byte order is unused. *)
Definition dokb (unit : nat) (sts pend : Z -> bool) (len : nat) (ist : Z) (d : dres) : bool :=
  match d with
  | DChar k wc (ist', ibo) => Nat.leb k len && (0 <=? wc) && (wc <? 0x100000000) && sts ist' && (ibo =? 0) &&
      (negb (Nat.eqb k 0) || (pend ist && negb (pend ist')))
  | DFew k (ist', ibo) => Nat.leb k len && sts ist' && (ibo =? 0) && Nat.leb 1 k
  | DIll k (ist', ibo) => Nat.eqb k 0 && Nat.leb unit len && (ist' =? ist) && (ibo =? 0)
  end.

Fixpoint dchk (f : list Z -> nat -> Z -> Z -> res (Z * option Z * Z * Z)) (unit : nat) (sts pend : Z -> bool)
    (t : list Z) (m : nat) (ist : Z) (depth : nat) (pre : list Z) : bool :=
  match dview (f pre (length pre) ist 0) with
  | Some (DFew 0 i') => pair_eqb i' (ist, 0) &&
      match depth with O => false | S depth => allbytes (fun b => dchk f unit sts pend t m ist depth (pre ++ [b])) end
  | Some d => dres_eqb (dview (f (pre ++ t) (length pre + m)%nat ist 0)) (Some d) && dokb unit sts pend (length pre) ist d
  | None => false
  end.

Definition dfin (sts : Z -> bool) (i : Z * Z) : Prop := sts (fst i) = true /\ snd i = 0.
Definition dpend (pend : Z -> bool) (i : Z * Z) : bool := pend (fst i).

Lemma dokb_sound : forall unit sts pend len ist d s, sts ist = true -> dokb unit sts pend len ist d = true -> (len <= length s)%nat ->
  dres_ok unit (dfin sts) (dpend pend) ucs4 s (ist, 0) d /\
  match d with DIll k i' => k = 0%nat /\ i' = (ist, 0) | DChar _ _ i' => snd i' = 0 | _ => True end.
Proof.
  intros unit sts pend len ist d s I H L. destruct d as [k wc [ist' ibo]|k [ist' ibo]|k [ist' ibo]]; cbn in H;
  rewrite !andb_true_iff in H.
  - destruct H as [[[[[A B] C] D] E] F]. apply Nat.leb_le in A. apply Z.leb_le in B. apply Z.ltb_lt in C. apply Z.eqb_eq in E. subst ibo.
    split; [|reflexivity]. cbn. unfold ucs4, dfin, dpend. cbn. split; [lia|]. split; [lia|]. split; [auto|]. split; [auto|].
    split; [reflexivity|]. intro. subst k. cbn in F. apply andb_true_iff in F. destruct F as [F1 F2].
    split; [exact F1|]. now destruct (pend ist').
  - destruct H as [[[A B] C] D]. apply Nat.leb_le in A. destruct k as [|k]; [discriminate|]. apply Z.eqb_eq in C. subst ibo.
    split; [|exact Logic.I]. cbn. unfold dfin; cbn. split; [lia|]. split; [auto|]. lia.
  - destruct H as [[[A B] C] D]. apply Nat.eqb_eq in A. apply Nat.leb_le in B. apply Z.eqb_eq in C. apply Z.eqb_eq in D. subst.
    split; [|auto]. cbn. unfold dfin; cbn. split; [lia|]. auto.
Qed.

Definition dextra (ist : Z) (d : dres) : Prop :=
  match d with DIll k i' => k = 0%nat /\ i' = (ist, 0) | DChar _ _ i' => snd i' = 0 | _ => True end.

(** d is what the decoder says about s and about every extension of s. *)
Definition decided (f : list Z -> nat -> Z -> Z -> res (Z * option Z * Z * Z)) (s : list Z) (ist : Z) (d : dres) : Prop :=
  forall t, dview (f (s ++ t) (length (s ++ t)) ist 0) = Some d.

Lemma dchk_sound : forall f unit sts pend ist depth pre, sts ist = true -> pre <> [] ->
  (forall t m, dchk f unit sts pend t m ist depth pre = true) ->
  forall s, bytes s ->
  exists d, dview (f (pre ++ s) (length (pre ++ s)) ist 0) = Some d /\
    dres_ok unit (dfin sts) (dpend pend) ucs4 (pre ++ s) (ist, 0) d /\ dextra ist d /\
    (d = DFew 0 (ist, 0) \/ decided f (pre ++ s) ist d).
Proof.
  intros f unit sts pend ist depth. induction depth as [|depth IH]; intros pre I Np H s B.
  all: pose proof (H [] 0%nat) as H0.
  all: assert (DEC : forall d, dview (f pre (length pre) ist 0) = Some d -> (forall i', d <> DFew 0 i') ->
      (forall t m, dres_eqb (dview (f (pre ++ t) (length pre + m)%nat ist 0)) (Some d) && dokb unit sts pend (length pre) ist d = true) ->
      exists d, dview (f (pre ++ s) (length (pre ++ s)) ist 0) = Some d /\
        dres_ok unit (dfin sts) (dpend pend) ucs4 (pre ++ s) (ist, 0) d /\ dextra ist d /\
        (d = DFew 0 (ist, 0) \/ decided f (pre ++ s) ist d)).
  1,3: intros d Ed Nd Hd; exists d;
    assert (Q : forall t, dview (f (pre ++ t) (length (pre ++ t)) ist 0) = Some d) by
      (intro t; specialize (Hd t (length t)); apply andb_true_iff in Hd; destruct Hd as [Hd _];
       apply dres_eqb_eq in Hd; rewrite app_length; exact Hd);
    (split; [apply Q|]);
    specialize (Hd [] 0%nat); apply andb_true_iff in Hd; destruct Hd as [_ Hd];
    destruct (dokb_sound _ _ _ _ _ _ (pre ++ s) I Hd ltac:(rewrite app_length; lia)) as [D1 D2];
    (split; [exact D1|]); (split; [exact D2|]); right; intro t; rewrite <- app_assoc; apply Q.
  all: cbn [dchk] in H, H0; destruct (dview (f pre (length pre) ist 0)) as [d|] eqn:E; [|discriminate].
  all: destruct d as [k wc i'|[|k] i'|k i'].
  all: try (apply (DEC _ eq_refl); [discriminate|exact H]).
  - rewrite andb_false_r in H0. discriminate.
  - apply andb_true_iff in H0. destruct H0 as [P0 _]. apply pair_eqb_eq in P0. subst i'.
    destruct s as [|b s].
    + rewrite app_nil_r. exists (DFew 0 (ist, 0)). split; [exact E|]. split; [|split; [exact Logic.I|now left]].
      cbn. unfold dfin; cbn. split; [lia|]. auto.
    + inversion B as [|x l B1 B2]; subst.
      replace (pre ++ b :: s) with ((pre ++ [b]) ++ s) by (rewrite <- app_assoc; reflexivity).
      apply IH; auto.
      * destruct pre; discriminate.
      * intros t m. specialize (H t m). apply andb_true_iff in H. destruct H as [_ H].
        exact (allbytes_sound _ H b B1).
Qed.

(** The whole check for a decoder: every state, every first byte. *)
Definition dchk_all (f : list Z -> nat -> Z -> Z -> res (Z * option Z * Z * Z)) (unit : nat) (stl : list Z) (pend : Z -> bool)
    (depth : nat) (t : list Z) (m : nat) : bool :=
  forallb (fun ist => allbytes (fun b => dchk f unit (fun x => existsb (Z.eqb x) stl) pend t m ist depth [b])) stl.

Definition mem (stl : list Z) (x : Z) : bool := existsb (Z.eqb x) stl.
Lemma mem_In : forall stl x, mem stl x = true <-> In x stl.
Proof.
  intros. unfold mem. rewrite existsb_exists. split.
  - intros (y & H & E). apply Z.eqb_eq in E. now subst.
  - intro H. exists x. split; [exact H|apply Z.eqb_refl].
Qed.

Lemma dchk_all_sound : forall f unit stl pend depth, (forall t m, dchk_all f unit stl pend depth t m = true) ->
  forall s i, dfin (mem stl) i -> s <> [] -> bytes s ->
  exists d, dview (f s (length s) (fst i) (snd i)) = Some d /\
    dres_ok unit (dfin (mem stl)) (dpend pend) ucs4 s i d /\ dextra (fst i) d /\
    (d = DFew 0 i \/ decided f s (fst i) d).
Proof.
  intros f unit stl pend depth H s [ist ibo] [I O] Ns B. cbn in I, O. subst ibo. cbn [fst snd].
  destruct s as [|b s]; [congruence|]. inversion B as [|x l B1 B2]; subst.
  change (b :: s) with ([b] ++ s). apply (dchk_sound f unit (mem stl) pend ist depth); auto; [discriminate|].
  intros t m. specialize (H t m). unfold dchk_all in H. rewrite forallb_forall in H.
  specialize (H ist (proj1 (mem_In _ _) I)). exact (allbytes_sound _ H b B1).
Qed.

Definition flush_ok (fl : option (Z -> res (Z * option Z * Z))) (stl : list Z) : bool :=
  match fl with
  | None => true
  | Some fl => forallb (fun ist => match fl ist with
      | Ok (b, w, ist') => mem stl ist' &&
          (if b =? 0 then ist' =? ist
           else match w with Some wc => (0 <=? wc) && (wc <? 0x100000000) &&
                  match fl ist' with Ok (b2, _, ist2) => (b2 =? 0) && (ist2 =? ist') | _ => false end | None => false end)
      | _ => false end) stl
  end.

Lemma dec_by_check : forall e unit stl pend depth,
  mem stl 0 = true -> pend 0 = false ->
  (forall t m, dchk_all (f_mb e) unit stl pend depth t m = true) ->
  flush_ok (f_flush e) stl = true ->
  dec_ok e unit (dfin (mem stl)) (dpend pend) ucs4 /\ dec_stable e (dfin (mem stl)).
Proof.
  intros e unit stl pend depth M0 P0 H HF.
  pose proof (dchk_all_sound _ _ _ _ _ H) as S. split; constructor.
  - split; [exact M0|reflexivity].
  - intros i [_ O]. split; [exact M0|exact O].
  - intro. exact P0.
  - intros s i I Ns B _. destruct (S s i I Ns B) as (d & E & K & _). exists d. split; [exact E|exact K].
  - intros [ist ibo] [I O]. cbn in I, O. subst ibo. cbn [fst snd]. unfold flush_ok in HF. destruct (f_flush e) as [fl|]; [|exact Logic.I].
    rewrite forallb_forall in HF. specialize (HF ist (proj1 (mem_In _ _) I)).
    destruct (fl ist) as [[[b w] ist']| | |]; try discriminate. apply andb_true_iff in HF. destruct HF as [M1 HF].
    exists b, w, ist'. split; [reflexivity|]. split; [split; [exact M1|reflexivity]|].
    destruct (Z.eqb_spec b 0).
    + apply Z.eqb_eq in HF. subst ist'. split; [auto|congruence].
    + destruct w as [wc|]; [|discriminate]. rewrite !andb_true_iff in HF. destruct HF as [[A B] C].
      split; [congruence|]. intros _. exists wc. split; [reflexivity|].
      apply Z.leb_le in A. apply Z.ltb_lt in B. split; [unfold ucs4; lia|].
      destruct (fl ist') as [[[b2 w2] ist2]| | |]; try discriminate. apply andb_true_iff in C. destruct C as [C1 C2].
      apply Z.eqb_eq in C1. apply Z.eqb_eq in C2. subst. eauto.
  - intros s t i k wc i' I B Bt _ Ns E. destruct (S s i I Ns B) as (d & E2 & K & X & D).
    unfold dec in *. rewrite E in E2. assert (d = DChar k wc i') by congruence. subst d.
    destruct D as [D|D]; [discriminate|]. destruct i as [ist ibo], I as [I O]; cbn in *. subst ibo. apply D.
  - intros s t i k i' I B Bt _ Ns E. destruct (S s i I Ns B) as (d & E2 & K & X & D).
    unfold dec in *. rewrite E in E2. assert (d = DIll k i') by congruence. subst d.
    destruct D as [D|D]; [discriminate|]. destruct i as [ist ibo], I as [I O]; cbn in *. subst ibo. apply D.
  - intros s t i k i' I B Bt _ Ns E _. destruct (S s i I Ns B) as (d & E2 & K & X & D).
    unfold dec in *. rewrite E in E2. assert (d = DFew (Datatypes.S k) i') by congruence. subst d. left.
    destruct D as [D|D]; [discriminate|]. destruct i as [ist ibo], I as [I O]; cbn in *. subst ibo. apply D.
  - intros s i k wc i' I B _ Ns E. destruct (S s i I Ns B) as (d & E2 & K & X & D).
    unfold dec in *. rewrite E in E2. assert (d = DChar k wc i') by congruence. subst d. cbn in X. rewrite X.
    destruct i as [ist ibo], I as [I O]; cbn in *. subst ibo. exact E.
  - intros s i k i' I B _ Ns E. destruct (S s i I Ns B) as (d & E2 & K & X & D).
    unfold dec in *. rewrite E in E2. assert (d = DIll k i') by congruence. subst d. cbn in X. destruct X as [-> ->].
    destruct i as [ist ibo], I as [I O]; cbn in *. subst ibo. exact E.
Qed.

(** Encoders with finitely many states: characters below lim by computation, the others by proof. *)
Lemma enc_by_check : forall e K stl ranges lim (P : Z -> Prop) d, (1 <= K <= MAXNEED)%nat -> mem stl 0 = true ->
  (forall wc, P wc -> 0 <= wc) ->
  (forall x, 0 <= x < lim -> exists b, In b ranges /\ b * 2 ^ Z.of_nat d <= x < (b + 1) * 2 ^ Z.of_nat d) ->
  (forall m, forallb (fun ost => forallb (fun b => allp d b (fun wc => echk (f_wc e) K (mem stl) m wc ost)) ranges) stl = true) ->
  (forall wc ost, P wc -> lim <= wc -> mem stl ost = true -> exists o need, (need <= MAXNEED)%nat /\ enc_at e wc ost o need /\
     match o with Some (_, ost') => mem stl ost' = true | None => True end) ->
  match f_reset e with None => True | Some rst => forall m, forallb (rchk rst K (mem stl) m) stl = true end ->
  enc_ok e (fun ost => mem stl ost = true) P.
Proof.
  intros e K stl ranges lim P d HK M0 HP HR HC HB HRst. constructor.
  - exact M0.
  - intros ost wc O Pw. destruct (Z.lt_ge_cases wc lim).
    + destruct (HR wc) as (b & Ib & Rb); [split; [auto|lia]|].
      destruct (echk_sound e K (mem stl) wc ost HK) as (o & need & A & B & C).
      * intro m. specialize (HC m). rewrite forallb_forall in HC. specialize (HC ost (proj1 (mem_In _ _) O)).
        rewrite forallb_forall in HC. specialize (HC b Ib). exact (allp_sound _ _ _ HC wc Rb).
      * exists o, need. split; [exact A|]. split; [exact B|]. destruct o as [[bs ost']|]; auto.
    + destruct (HB wc ost Pw H O) as (o & need & A & B & C). exists o, need. split; [exact A|]. split; [exact B|].
      destruct o as [[bs ost']|]; auto.
  - intros ost O. destruct (f_reset e) as [rst|]; [|exact I].
    destruct (rchk_sound rst K (mem stl) ost HK) as (bs & ost' & A & B & C & D).
    + intro m. specialize (HRst m). rewrite forallb_forall in HRst. apply HRst. now apply mem_In.
    + exists bs, ost'. auto.
Qed.

(** ** Instances for encodings without state *)
Definition inv0 : Z * Z -> Prop := dfin (mem [0]).
Definition pend0 : Z * Z -> bool := dpend (fun _ => false).
Definition oinv0 (ost : Z) : Prop := mem [0] ost = true.

Fixpoint upto (n : nat) (f : Z -> bool) : bool :=
  match n with O => true | S n => f (Z.of_nat n) && upto n f end.
Lemma upto_sound : forall n f, upto n f = true -> forall x, 0 <= x < Z.of_nat n -> f x = true.
Proof.
  induction n as [|n IH]; intros f H x Hx; [lia|]. cbn [upto] in H. apply andb_true_iff in H. destruct H as [A B].
  destruct (Z.eq_dec x (Z.of_nat n)) as [->|]; [exact A|]. apply IH; auto. lia.
Qed.

(** Characters below N * 2^d by computation. *)
Definition echk_all (f : Z -> nat -> Z -> res (Z * wlog * Z)) (K : nat) (stl : list Z) (d N : nat) (m : nat) : bool :=
  forallb (fun ost => upto N (fun b => allp d b (fun wc => echk f K (mem stl) m wc ost))) stl.

Lemma enc_by_check2 : forall e K stl d N (P : Z -> Prop), (1 <= K <= MAXNEED)%nat -> mem stl 0 = true ->
  (forall wc, P wc -> 0 <= wc) ->
  (forall m, echk_all (f_wc e) K stl d N m = true) ->
  (forall wc ost, P wc -> Z.of_nat N * 2 ^ Z.of_nat d <= wc -> mem stl ost = true ->
     exists o need, (need <= MAXNEED)%nat /\ enc_at e wc ost o need /\
     match o with Some (_, ost') => mem stl ost' = true | None => True end) ->
  match f_reset e with None => True | Some rst => forall m, forallb (rchk rst K (mem stl) m) stl = true end ->
  enc_ok e (fun ost => mem stl ost = true) P.
Proof.
  intros e K stl d N P HK M0 HP HC HB HRst.
  apply (enc_by_check e K stl (map Z.of_nat (seq 0 N)) (Z.of_nat N * 2 ^ Z.of_nat d) P d); auto.
  - intros x Hx. exists (x / 2 ^ Z.of_nat d).
    assert (0 < 2 ^ Z.of_nat d) by (apply Z.pow_pos_nonneg; lia).
    set (p := 2 ^ Z.of_nat d) in *. clearbody p. pose proof (Z.div_mod x p ltac:(lia)) as DM. pose proof (Z.mod_pos_bound x p ltac:(lia)) as MB.
    assert (Q0 : 0 <= x / p) by (apply Z.div_pos; lia).
    assert (Q1 : x / p < Z.of_nat N) by (apply Z.div_lt_upper_bound; [lia|]; rewrite Z.mul_comm; lia).
    generalize dependent (x mod p). generalize dependent (x / p). intros q Q0 Q1 r DM MB.
    split.
    + replace q with (Z.of_nat (Z.to_nat q)) by lia. apply in_map. apply in_seq. lia.
    + nia.
  - intro m. specialize (HC m). unfold echk_all in HC. rewrite forallb_forall in *. intros ost Ho. specialize (HC ost Ho).
    rewrite forallb_forall. intros b Hb. apply in_map_iff in Hb. destruct Hb as (k & <- & Hk). apply in_seq in Hk.
    exact (upto_sound _ _ HC (Z.of_nat k) ltac:(lia)).
Qed.

(** An encoder that rejects a character whatever the room. *)
Lemma enc_ill1 : forall e wc ost, (forall n, (1 <= n)%nat -> f_wc e wc n ost = Ok (-1, [], ost)) -> enc_at e wc ost None 1.
Proof.
  intros e wc ost H. apply enc_at_ill; [lia|lia|]. intros n Hn. exists []. split; [now apply H|constructor].
Qed.

Lemma dec0_by_check : forall e depth,
  (forall t m, dchk_all (f_mb e) 1 [0] (fun _ => false) depth t m = true) -> f_flush e = None ->
  dec_ok e 1 inv0 pend0 ucs4 /\ dec_stable e inv0.
Proof. intros e depth H HF. eapply dec_by_check; eauto. rewrite HF. reflexivity. Qed.

Lemma enc0_by_check : forall e K d N, (1 <= K <= MAXNEED)%nat ->
  (forall m, echk_all (f_wc e) K [0] d N m = true) ->
  (forall wc ost n, ucs4 wc -> Z.of_nat N * 2 ^ Z.of_nat d <= wc -> (1 <= n)%nat -> f_wc e wc n ost = Ok (-1, [], ost)) ->
  f_reset e = None -> enc_ok e oinv0 ucs4.
Proof.
  intros e K d N HK H HB HR. eapply enc_by_check2; eauto; [unfold ucs4; lia| |now rewrite HR].
  intros wc ost Hw Hl Ho. exists None, 1%nat. split; [unfold MAXNEED; lia|]. split; [|exact I].
  apply enc_ill1. intros n Hn. apply HB; auto.
Qed.

(** Deciding comparisons of a large character. *)
Ltac bigwalk wc :=
  repeat match goal with
  | |- context [wc <? ?c] => rewrite (proj2 (Z.ltb_ge wc c)) by lia
  | |- context [wc >=? ?c] => rewrite (proj2 (Z.geb_le wc c)) by lia
  | |- context [wc <=? ?c] => rewrite (proj2 (Z.leb_gt wc c)) by lia
  | |- context [wc >? ?c] => rewrite (proj2 (Z.gtb_lt wc c)) by lia
  | |- context [wc =? ?c] => rewrite (proj2 (Z.eqb_neq wc c)) by lia
  end.

Lemma enc0_by_check_need : forall e K d N need, (1 <= K <= MAXNEED)%nat -> (1 <= need <= MAXNEED)%nat ->
  (forall m, echk_all (f_wc e) K [0] d N m = true) ->
  (forall wc ost n, ucs4 wc -> Z.of_nat N * 2 ^ Z.of_nat d <= wc -> (1 <= n)%nat ->
     f_wc e wc n ost = Ok (if Nat.ltb n need then -2 else -1, [], ost)) ->
  f_reset e = None -> enc_ok e oinv0 ucs4.
Proof.
  intros e K d N need HK HN H HB HR. apply (enc_by_check2 e K [0] d N ucs4); auto; [unfold ucs4; lia| |now rewrite HR].
  intros wc ost Hw Hl Ho. exists None, need. split; [lia|]. split; [|exact I].
  apply enc_at_ill; [lia| |]; intros n Hn; exists []; (split; [|constructor]).
  - rewrite HB; [|assumption..|lia]. destruct (Nat.ltb_spec n need); [reflexivity|lia].
  - rewrite HB; [|assumption..|lia]. destruct (Nat.ltb_spec n need); [lia|reflexivity].
Qed.
