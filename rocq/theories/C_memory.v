(** C48: what the output memory held before a call does not matter. *)
From Coq Require Import ZArith List Bool Lia.
From Verif Require Import Base Indexes Loop Encodings Api Spec Public Demo Whole.
Import ListNotations.
Open Scope Z_scope.

(** Two memories of the same size that agree wherever D does not hold. *)
Definition alike (D : nat -> Prop) (b b' : list Z) : Prop :=
  length b = length b' /\ forall j, ~ D j -> nth_error b j = nth_error b' j.
(** Two outcomes of the same kind. *)
Definition same_kind {A : Type} (R : A -> A -> Prop) (x y : res A) : Prop :=
  match x, y with
  | Ok a, Ok b => R a b
  | UB, UB => True
  | Abort, Abort => True
  | NoFuel, NoFuel => True
  | _, _ => False
  end.
(** Two results of reiconv_iconv that differ at most in bytes of the memory where D holds. *)
Definition same_result (D : nat -> Prop) (r r' : cres) : Prop :=
  r_ret r = r_ret r' /\ r_in r = r_in r' /\ r_pos r = r_pos r' /\ r_left r = r_left r' /\ r_cd r = r_cd r' /\ alike D (r_out r) (r_out r').

Lemma bind_kind : forall A B (R : B -> B -> Prop) (x : res A) f g, (forall a, same_kind R (f a) (g a)) -> same_kind R (bind x f) (bind x g).
Proof. intros A B R [a| | |] f g H; cbn; auto. Qed.
Lemma bind_kind2 : forall A B (R : A -> A -> Prop) (S : B -> B -> Prop) x y f g, same_kind R x y -> (forall a b, R a b -> same_kind S (f a) (g b)) ->
  same_kind S (bind x f) (bind y g).
Proof. intros A B R S [a| | |] [b| | |] f g H K; cbn in *; auto; contradiction. Qed.
Lemma poke_nth : forall b i v c j, poke b i v = Some c -> nth_error c j = if Nat.eqb j i then Some v else nth_error b j.
Proof.
  induction b as [|x b IH]; intros i v c j H; [discriminate|]. destruct i as [|i]; cbn in H.
  - injection H as <-. destruct j; reflexivity.
  - destruct (poke b i v) as [c'|] eqn:E; [|discriminate]. injection H as <-. destruct j as [|j]; [reflexivity|]. cbn. now apply IH.
Qed.
Lemma poke_len : forall b i v, match poke b i v with Some c => length c = length b /\ (i < length b)%nat | None => (length b <= i)%nat end.
Proof.
  induction b as [|x b IH]; intros i v; [cbn; lia|]. destruct i as [|i]; cbn; [lia|]. specialize (IH i v). destruct (poke b i v); cbn; lia.
Qed.
Definition both (R : list Z -> list Z -> Prop) (x y : option (list Z)) : Prop :=
  match x, y with Some a, Some b => R a b | None, None => True | _, _ => False end.
Lemma poke_alike : forall D b b' i v, alike D b b' -> both (alike D) (poke b i v) (poke b' i v).
Proof.
  intros D b b' i v (L & A). pose proof (poke_len b i v) as P. pose proof (poke_len b' i v) as P'.
  destruct (poke b i v) as [c|] eqn:E; destruct (poke b' i v) as [c'|] eqn:E'; cbn; try lia. split; [lia|].
  intros j N. rewrite (poke_nth _ _ _ _ j E), (poke_nth _ _ _ _ j E'). destruct (Nat.eqb j i); auto.
Qed.
Lemma pokes_alike : forall D l b b' p, alike D b b' -> both (alike D) (pokes b p l) (pokes b' p l).
Proof.
  induction l as [|(o, v) l IH]; intros b b' p A; [exact A|]. cbn. specialize (IH b b' p A).
  destruct (pokes b p l); destruct (pokes b' p l); cbn in *; try contradiction; auto. now apply poke_alike.
Qed.
Lemma call_kind : forall D A (R : A -> A -> Prop) cd b b' p n wc k k', alike D b b' ->
  (forall c b b' cd, alike D b b' -> same_kind R (k c b cd) (k' c b' cd)) ->
  same_kind R (call_wctomb cd b p n wc k) (call_wctomb cd b' p n wc k').
Proof.
  intros D A R cd b b' p n wc k k' M K. unfold call_wctomb. apply bind_kind. intros ((c & log) & ost).
  pose proof (pokes_alike D log b b' p M) as P. destruct (pokes b p log); destruct (pokes b' p log); cbn in P |- *; try contradiction; auto.
Qed.

(** One round of the loop, the loop, and the flush. *)
Definition same_step (D : nat -> Prop) (x y : step) : Prop :=
  match x, y with
  | Next i b p n r cd, Next i' b' p' n' r' cd' => i = i' /\ alike D b b' /\ p = p' /\ n = n' /\ r = r' /\ cd = cd'
  | Stop r, Stop r' => same_result D r r'
  | _, _ => False
  end.
Ltac same := repeat match goal with
  | |- same_kind _ (bind ?x _) (bind ?x _) => apply bind_kind; intros
  | |- same_kind _ (if ?b then _ else _) (if ?b then _ else _) => destruct b
  | |- same_kind _ (oget ?x _) (oget ?x _) => destruct x; cbn [oget]
  | |- same_kind _ (nsub ?a ?b _) (nsub ?a ?b _) => unfold nsub
  | |- same_kind _ (call_wctomb _ ?b _ _ _ _) (call_wctomb _ ?b' _ _ _ _) => eapply call_kind; [eassumption|intros]
  | |- same_kind _ (Ok _) (Ok _) => cbn; unfold same_result; cbn; auto 10; fail
  | |- same_kind _ UB UB => exact I
  | |- same_kind _ Abort Abort => exact I
  | x : _ * _ |- _ => destruct x
  | _ => progress unfold outcount_ok, outcount_zero, reset_outcount_ok, loop_reset_tail
  end.
Lemma step_same : forall D cd inp b b' p n res, alike D b b' -> same_kind (same_step D) (conv_step cd inp b p n res) (conv_step cd inp b' p n res).
Proof. intros D cd inp b b' p n res A. unfold conv_step. same. Qed.
Lemma loop_same : forall D fuel cd inp b b' p n res, alike D b b' -> same_kind (same_result D) (conv_loop fuel cd inp b p n res) (conv_loop fuel cd inp b' p n res).
Proof.
  intros D. induction fuel as [|fuel IH]; intros cd inp b b' p n res A; destruct inp as [|c inp]; cbn [conv_loop];
    try (cbn; unfold same_result; cbn; auto 10; fail); try exact I.
  eapply bind_kind2; [apply step_same; exact A|]. intros [i1 b1 p1 n1 r1 cd1|r1] [i2 b2 p2 n2 r2 cd2|r2] S; cbn in S; try contradiction.
  - destruct S as (-> & A' & -> & -> & -> & ->). now apply IH.
  - exact S.
Qed.
Lemma tail_same : forall D cd b b' p n res, alike D b b' -> same_kind (same_result D) (loop_reset_tail cd b p n res) (loop_reset_tail cd b' p n res).
Proof.
  intros D cd b b' p n res A. unfold loop_reset_tail. destruct (f_reset (ofuncs cd)) as [rst|]; [|cbn; unfold same_result; cbn; auto 10].
  apply bind_kind. intros ((c & log) & ost). pose proof (pokes_alike D log b b' p A) as P.
  destruct (pokes b p log); destruct (pokes b' p log); cbn in P |- *; try contradiction; auto.
  destruct (c <? 0); [cbn; unfold same_result; cbn; auto 10|]. destruct (c <=? Z.of_nat n); cbn; unfold same_result; cbn; auto 10.
Qed.
Lemma reset_ok_same : forall D cd i b b' n res c, alike D b b' -> same_kind (same_result D) (reset_outcount_ok cd i b n res c) (reset_outcount_ok cd i b' n res c).
Proof.
  intros D cd i b b' n res c A. unfold reset_outcount_ok. destruct (c <? 0); [cbn; unfold same_result; cbn; auto 10|].
  destruct (c <=? Z.of_nat n); [now apply tail_same|exact I].
Qed.
Lemma reset_same : forall D cd b b' n, alike D b b' -> same_kind (same_result D) (loop_reset cd b n) (loop_reset cd b' n).
Proof.
  intros D cd b b' n A. unfold loop_reset. destruct (f_flush (ifuncs cd)) as [fl|]; [|now apply tail_same].
  apply bind_kind. intros ((x & pwc) & ist). destruct (negb (x =? 0)); [|now apply tail_same].
  destruct pwc as [wc|]; cbn [oget]; [|exact I]. eapply call_kind; [exact A|]. intros c b1 b1' cd1 A1.
  destruct (negb (c =? -1)); [now apply reset_ok_same|]. destruct (Z.shiftr wc 7 =? Z.shiftr 0xe0000 7); [now apply tail_same|].
  destruct (negb (discard_ilseq cd1 =? 0)); [now apply reset_ok_same|]. eapply call_kind; [exact A1|]. intros c2 b2 b2' cd2 A2.
  destruct (negb (c2 =? -1)); [now apply reset_ok_same|]. cbn; unfold same_result; cbn; auto 10.
Qed.
Lemma iconv_same : forall D cd inp b b' n, alike D b b' -> same_kind (same_result D) (reiconv_iconv cd inp (Some b) n) (reiconv_iconv cd inp (Some b') n).
Proof. intros D cd inp b b' n A. destruct inp as [s|]; [now apply loop_same|now apply reset_same]. Qed.

(** A call of reiconv_iconv, conversion or flush, ends in the same way and with the same numbers, input position and
    descriptor whatever the output buffer held, and every byte that was the same before is the same afterwards.
    The descriptor may be any. *)
Theorem C48_iconv : forall cd inp outb outb' outleft, length outb = length outb' ->
  same_kind (same_result (fun j => nth_error outb j <> nth_error outb' j))
    (reiconv_iconv cd inp (Some outb) outleft) (reiconv_iconv cd inp (Some outb') outleft).
Proof.
  intros cd inp outb outb' n L. apply iconv_same. split; [exact L|]. intros j N.
  destruct (nth_error outb j) as [x|], (nth_error outb' j) as [y|]; try reflexivity; try (exfalso; apply N; discriminate).
  destruct (Z.eq_dec x y) as [->|NE]; [reflexivity|]. exfalso. apply N. congruence.
Qed.
(** The bytes delivered are the same. *)
Theorem C48_bytes : forall cd s outb outb' outleft r r', reachable cd -> input s -> (outleft <= length outb)%nat -> length outb = length outb' ->
  reiconv_iconv cd (Some s) (Some outb) outleft = Ok r -> reiconv_iconv cd (Some s) (Some outb') outleft = Ok r' -> produced r = produced r'.
Proof.
  intros cd s outb outb' n r r' H I R L E E'. pose proof (C48_iconv cd (Some s) outb outb' n L) as S. rewrite E, E' in S.
  destruct S as (_ & _ & P & _ & _ & _).
  destruct (iconv_meets_spec cd s outb n H I R) as (q & Q & S & _). rewrite E in Q. injection Q as <-.
  destruct (iconv_meets_spec cd s outb' n H I ltac:(lia)) as (q & Q & S' & _). rewrite E' in Q. injection Q as <-.
  destruct S as (A1 & _ & A3 & _ & _ & cs1 & cs2 & st & rest & i & m & R1 & W1 & _).
  destruct S' as (B1 & _ & B3 & _ & _ & ds1 & ds2 & st' & rest' & i' & m' & R2 & W2 & _).
  destruct (rd_det _ _ _ _ _ _ _ _ _ _ R1 R2) as (C & _).
  assert (LP : length (produced r) = length (produced r')).
  { unfold produced. rewrite !firstn_length. lia. }
  assert (X : exists t, (cs1 = ds1 ++ t \/ ds1 = cs1 ++ t)).
  { clear - C. revert ds1 C. induction cs1 as [|c cs1 IH]; intros ds1 C; [exists ds1; now right|]. destruct ds1 as [|d ds1]; [exists (c :: cs1); now left|].
    cbn in C. injection C as -> C. destruct (IH ds1 C) as (t & [->| ->]); exists t; auto. }
  destruct X as (t & [->| ->]).
  - rewrite (wr_app _ _ _ _ _ _ W2) in W1. destruct (writes_all _ _ t _) as (((o & k) & oo) & bad). injection W1 as W1 _ _ _.
    rewrite <- W1, app_length in LP. destruct o; [now rewrite app_nil_r in W1|cbn in LP; lia].
  - rewrite (wr_app _ _ _ _ _ _ W1) in W2. destruct (writes_all _ _ t _) as (((o & k) & oo) & bad). injection W2 as W2 _ _ _.
    rewrite <- W2, app_length in LP. destruct o; [now rewrite app_nil_r in W2|cbn in LP; lia].
Qed.
Lemma size_same : forall fuel cd inp t t' c, length t = length t' ->
  same_kind (fun x y => match x, y with
    | inl (c, t, cd), inl (c', t', cd') => c = c' /\ length t = length t' /\ cd = cd'
    | inr r, inr r' => r = r' | _, _ => False end) (size_loop fuel cd inp t c) (size_loop fuel cd inp t' c).
Proof.
  induction fuel as [|fuel IH]; intros cd inp t t' c L; destruct inp as [|x inp]; cbn [size_loop]; try exact I; try (cbn; auto; fail).
  eapply bind_kind2; [apply (iconv_same (fun _ => True)); split; [exact L|tauto]|].
  intros r r' (E1 & E2 & E3 & _ & E5 & (E6 & _)). rewrite E1, E2, E3, E5.
  destruct (r_ret r') as [m|[]]; try (cbn; reflexivity); now apply IH.
Qed.
(** reiconv_result_size does not depend on what its local buffer holds at first. *)
Theorem C48_result_size : forall cd start tmp tmp', length tmp = length tmp' -> reiconv_result_size cd start tmp = reiconv_result_size cd start tmp'.
Proof.
  intros cd start tmp tmp' L.
  assert (K : same_kind eq (reiconv_result_size cd start tmp) (reiconv_result_size cd start tmp')).
  { unfold reiconv_result_size. eapply bind_kind2; [apply size_same; exact L|]. intros [((c & t) & cd1)|r] [((c' & t') & cd1')|r'] S; try contradiction.
    - destruct S as (-> & L' & ->). eapply bind_kind2; [apply (iconv_same (fun _ => True)); split; [exact L'|tauto]|].
      intros q q' (E1 & _ & E3 & _ & E5 & _). rewrite E1, E3, E5. apply bind_kind. intros a. destruct (r_ret q'); reflexivity.
    - cbn. exact S. }
  destruct (reiconv_result_size cd start tmp), (reiconv_result_size cd start tmp'); cbn in K; try contradiction; congruence.
Qed.
(** Two output buffers of the same size, or none. *)
Definition sized (x y : option (list Z)) : Prop := both (fun a b => length a = length b) x y.
Lemma at_pos_sized : forall x y p, sized x y -> sized (at_pos x p) (at_pos y p).
Proof. intros [x|] [y|] p H; cbn in *; try contradiction; auto. rewrite !skipn_length. lia. Qed.
Lemma put_back_sized : forall x y p b b', sized x y -> length b = length b' -> sized (put_back x p b) (put_back y p b').
Proof. intros [x|] [y|] p b b' H L; cbn in *; try contradiction; auto. rewrite !app_length, !firstn_length. lia. Qed.
Lemma iconv_sized : forall cd inp x y n, sized x y -> same_kind (same_result (fun _ => True)) (reiconv_iconv cd inp x n) (reiconv_iconv cd inp y n).
Proof.
  intros cd inp [x|] [y|] n H; cbn in H; try contradiction.
  - apply iconv_same. split; [exact H|tauto].
  - destruct inp; [apply loop_same; split; [reflexivity|tauto]|]. cbn. unfold same_result, alike. cbn. auto 10.
Qed.
Lemma static_loop_same : forall fuel cd inp x y p n, sized x y ->
  same_kind (fun a b => match a, b with
    | inl (x, p, n, cd), inl (y, p', n', cd') => sized x y /\ p = p' /\ n = n' /\ cd = cd'
    | inr r, inr r' => st_ret r = st_ret r' /\ st_cd r = st_cd r' /\ sized (st_out r) (st_out r')
    | _, _ => False end) (static_loop fuel cd inp x p n) (static_loop fuel cd inp y p n).
Proof.
  induction fuel as [|fuel IH]; intros cd inp x y p n S; destruct inp as [|c inp]; cbn [static_loop]; try exact I; try (cbn; auto; fail).
  eapply bind_kind2; [apply iconv_sized; apply at_pos_sized; exact S|]. intros r r' (E1 & E2 & E3 & E4 & E5 & (E6 & _)).
  pose proof (put_back_sized x y p _ _ S E6) as PB. rewrite E1, E2, E3, E4, E5.
  destruct (r_ret r') as [m|[]]; [now apply IH| | | |]; cbn; auto.
Qed.
Lemma static_same : forall cd s x y n, sized x y ->
  same_kind (fun r r' => st_ret r = st_ret r' /\ st_cd r = st_cd r' /\ sized (st_out r) (st_out r'))
    (reiconv_convert_static_size cd s x n) (reiconv_convert_static_size cd s y n).
Proof.
  intros cd s x y n S. unfold reiconv_convert_static_size. eapply bind_kind2; [apply static_loop_same; exact S|].
  intros [(((x1 & p) & m) & cd1)|r] [(((y1 & p') & m') & cd1')|r'] Q; try contradiction; [|exact Q]. destruct Q as (S1 & -> & -> & ->).
  eapply bind_kind2; [apply iconv_sized; apply at_pos_sized; exact S1|]. intros r r' (E1 & E2 & E3 & E4 & E5 & (E6 & _)).
  pose proof (put_back_sized x1 y1 p' _ _ S1 E6) as PB. rewrite E1, E5. destruct (r_ret r'); cbn; auto.
Qed.
(** reiconv_convert_static_size returns the same value and leaves the same descriptor. *)
Theorem C48_static_size : forall cd s outb outb' n, length outb = length outb' ->
  same_kind (fun r r' => st_ret r = st_ret r' /\ st_cd r = st_cd r')
    (reiconv_convert_static_size cd s (Some outb) n) (reiconv_convert_static_size cd s (Some outb') n).
Proof.
  intros cd s outb outb' n L. pose proof (static_same cd s (Some outb) (Some outb') n L) as S.
  destruct (reiconv_convert_static_size cd s (Some outb) n), (reiconv_convert_static_size cd s (Some outb') n); cbn in *; tauto.
Qed.
(** reiconv_convert does not depend on what the allocator's blocks hold: alloc and alloc' fail alike. *)
Theorem C48_convert : forall alloc alloc' cd s tmp tmp' p lenp, length tmp = length tmp' -> (forall n, sized (alloc n) (alloc' n)) ->
  same_kind (fun r r' => c_ret r = c_ret r' /\ c_len r = c_len r' /\ c_cd r = c_cd r')
    (reiconv_convert alloc cd s tmp p lenp) (reiconv_convert alloc' cd s tmp' p lenp).
Proof.
  intros alloc alloc' cd s tmp tmp' p lenp L A. unfold reiconv_convert. rewrite (C48_result_size cd s tmp tmp' L). apply bind_kind. intros z.
  destruct (s_ret z) as [n|e]; [|cbn; auto]. destruct p as [|blk]; [cbn; auto|].
  eapply bind_kind2; [apply static_same; apply A|]. intros r r' (E1 & E2 & _). rewrite E1, E2. destruct (st_ret r'); cbn; auto.
Qed.
(** "é€" to ISO-8859-15 by way of two buffers with different contents. *)
Example C48_case : let cd := opened ei_utf8 ei_iso8859_15 0 in
  reachable cd /\ input [0xc3; 0xa9; 0xe2; 0x82; 0xac] /\
  (let got b := match reiconv_iconv cd (Some [0xc3; 0xa9; 0xe2; 0x82; 0xac]) (Some b) 3 with Ok r => Some (r_out r, produced r) | _ => None end in
   got [1; 2; 3] = Some ([0xe9; 0xa4; 3], [0xe9; 0xa4]) /\ got [7; 2; 9] = Some ([0xe9; 0xa4; 9], [0xe9; 0xa4])).
Proof. cbv zeta. split; [opn|]. split; [inp|]. split; vm_compute; reflexivity. Qed.
