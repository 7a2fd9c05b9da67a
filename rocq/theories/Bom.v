(** The decoders that look for byte order marks, in terms of the decoders for a fixed byte order. *)
From Coq Require Import ZArith List Bool Lia.
From Verif Require Import Base Loop Contract LoopLib Spec SpecProps Conv_uni Encodings UniSpec UniProps Unroll.
Import ListNotations.
Open Scope Z_scope.

(** U+FEFF as a unit of two or four bytes; false: big endian, true: little endian. *)
Definition mark2 (o : bool) : list Z := if o then [255; 254] else [254; 255].
Definition mark4 (o : bool) : list Z := if o then [255; 254; 0; 0] else [0; 0; 254; 255].
Definition put_state (i : Z * Z) (d : dres) : dres := match d with DChar k c _ => DChar k c i | DFew k _ => DFew k i | DIll k _ => DIll k i end.

(** f reads marks, and everything else like g false (big endian) or g true (little endian), on units that are ok. *)
Record marked (f : funcs) (g : bool -> funcs) (w : nat) (mark : bool -> list Z) (ok : bool -> list Z -> Prop) : Prop := {
  mk_mark : forall o o' t, bytes t -> Z.of_nat (w + length t) <= LIM ->
    dec f (mark o' ++ t) (0, b2z o) = if match t with [] => true | _ => false end then Some (DFew w (0, b2z o')) else option_map (dshift w) (dec f t (0, b2z o'));
  mk_other : forall o s, bytes s -> s <> [] -> Z.of_nat (length s) <= LIM -> ok o (firstn w s) -> dec f s (0, b2z o) = option_map (put_state (0, b2z o)) (dec (g o) s (0, 0)) }.

Section Marks.
Variables (f : funcs) (g : bool -> funcs) (w : nat) (mark : bool -> list Z) (ok : bool -> list Z -> Prop).
Variable L : nat -> Z -> bool -> list Z -> res (Z * option Z * Z * Z).
Hypothesis W : (1 <= w)%nat.
Hypothesis mark_len : forall o, length (mark o) = w.
Hypothesis DL : forall o s, dec f s (0, b2z o) = dview (L (8 + 4 * length s) 0 o s).
Hypothesis LA : forall F count o o' t, 0 <= count -> count + Z.of_nat (w + length t) <= LIM -> L (3 + F) count o (mark o' ++ t) = L F (count + Z.of_nat w) o' t.
Hypothesis LC : forall o s, bytes s -> (forall o', firstn w s <> mark o') -> exists d,
  (forall F count, 0 <= count -> count + Z.of_nat (length s) <= LIM -> dview (L (2 + F) count o s) = Some (dshift (Z.to_nat count) d)) /\
  (s = [] -> d = DFew 0 (0, b2z o)) /\
  (s <> [] -> ok o (firstn w s) -> Some d = option_map (put_state (0, b2z o)) (dec (g o) s (0, 0))).
Hypothesis ok_mark : forall o o', ~ ok o (mark o').
Lemma marked_total : forall n o s, (length s <= n)%nat -> bytes s -> exists d,
  (forall F count, 0 <= count -> count + Z.of_nat (length s) <= LIM -> (3 * length s + 2 <= F)%nat -> dview (L F count o s) = Some (dshift (Z.to_nat count) d)).
Proof.
  induction n as [n IH] using lt_wf_ind. intros o s N B.
  destruct (list_eq_dec Z.eq_dec (firstn w s) (mark false)) as [M|M]; [|destruct (list_eq_dec Z.eq_dec (firstn w s) (mark true)) as [M2|M2]].
  1, 2: (assert (Lw : (w <= length s)%nat) by (pose proof (f_equal (@length Z) ltac:(eassumption)) as Q; rewrite mark_len, firstn_length in Q; lia)).
  - destruct (IH (length (skipn w s)) ltac:(rewrite skipn_length; lia) false (skipn w s) (le_n _) ltac:(now apply Forall_skipn)) as (d & D).
    exists (dshift w d). intros F count C Hl HF. rewrite <- (firstn_skipn w s), M. rewrite skipn_length in D.
    destruct F as [|[|[|F]]]; try lia. change (S (S (S F))) with (3 + F)%nat. rewrite LA by (rewrite ?skipn_length; lia).
    rewrite D by (rewrite ?skipn_length; lia). f_equal. replace (Z.to_nat (count + Z.of_nat w)) with (Z.to_nat count + w)%nat by lia.
    destruct d; cbn; f_equal; lia.
  - destruct (IH (length (skipn w s)) ltac:(rewrite skipn_length; lia) true (skipn w s) (le_n _) ltac:(now apply Forall_skipn)) as (d & D).
    exists (dshift w d). intros F count C Hl HF. rewrite <- (firstn_skipn w s), M2. rewrite skipn_length in D.
    destruct F as [|[|[|F]]]; try lia. change (S (S (S F))) with (3 + F)%nat. rewrite LA by (rewrite ?skipn_length; lia).
    rewrite D by (rewrite ?skipn_length; lia). f_equal. replace (Z.to_nat (count + Z.of_nat w)) with (Z.to_nat count + w)%nat by lia.
    destruct d; cbn; f_equal; lia.
  - destruct (LC o s B) as (d & D & _); [intros []; assumption|]. exists d. intros F count C Hl HF. destruct F as [|[|F]]; try lia. now apply (D F).
Qed.
Lemma dshift_0 : forall d, dshift 0 d = d.
Proof. destruct d; reflexivity. Qed.
Lemma marked_intro : marked f g w mark ok.
Proof.
  constructor.
  - intros o o' t B Hl. destruct (marked_total (length t) o' t (le_n _) B) as (d & D).
    rewrite DL. rewrite app_length, mark_len. replace (8 + 4 * (w + length t))%nat with (3 + (5 + 4 * (w + length t)))%nat by lia.
    rewrite LA by lia. rewrite D by lia. rewrite Z.add_0_l, Nat2Z.id. destruct t as [|x t].
    + destruct (LC o' [] B) as (d' & D' & E & _).
      { intros o2 Q. pose proof (f_equal (@length Z) Q) as Q2. rewrite mark_len, firstn_nil in Q2. cbn in Q2. lia. }
      pose proof (D' 5%nat 0 ltac:(lia) ltac:(cbn; unfold LIM; lia)) as D1. pose proof (D 7%nat 0 ltac:(lia) ltac:(cbn; unfold LIM; lia) ltac:(cbn; lia)) as D2. cbn [Nat.add] in D1.
      rewrite D1 in D2. inversion D2 as [D3]. rewrite !dshift_0 in D3. subst d'. rewrite E by reflexivity. cbn. now rewrite Nat.add_0_r.
    + rewrite DL, D by (cbn [length] in *; lia). cbn [option_map]. now rewrite dshift_0.
  - intros o s B S Hl O. destruct (LC o s B) as (d & D & _ & E).
    { intros o' Q. rewrite Q in O. exact (ok_mark _ _ O). }
    rewrite DL. replace (8 + 4 * length s)%nat with (2 + (6 + 4 * length s))%nat by lia. rewrite D by lia. rewrite dshift_0. now apply E.
Qed.
End Marks.

(** ** UTF-16 *)
Definition ok2 (o : bool) (x : list Z) : Prop := forall o', x <> mark2 o'.
Lemma cks : forall (A : Type) x (k : Z -> res A), -0x80000000 <= x <= 0x7fffffff -> ck x k = k x.
Proof. intros A x k H. unfold ck. destruct (Z.leb_spec (-0x80000000) x), (Z.leb_spec x 0x7fffffff); try lia. reflexivity. Qed.
Lemma utf16_LA : forall F count o o' t, 0 <= count -> count + Z.of_nat (2 + length t) <= LIM ->
  utf16_mbtowc_loop (3 + F) count (b2z o) (mark2 o' ++ t) (length (mark2 o' ++ t)) None 0 = utf16_mbtowc_loop F (count + Z.of_nat 2) (b2z o') t (length t) None 0.
Proof.
  intros F count o o' t C H. unfold LIM in H. rewrite app_length. replace (length (mark2 o')) with 2%nat by now destruct o'. change (3 + F)%nat with (S (S (S F))).
  rewrite utf16_mbtowc_loop_S. change (Nat.leb 2 (2 + length t)) with true. cbv iota. destruct (Z.leb_spec count 0x3ffffffe); [|lia]. destruct (Z.leb_spec count 0x7ffffffd); [|lia].
  destruct o, o'; cbn [b2z mark2 app Z.eqb negb]; unfold rd; cbn [nth_error]; rewrite utf16_mbtowc_j_S;
   (match goal with |- context [?x =? 0xfeff] => let v := eval vm_compute in (x =? 0xfeff) in change (x =? 0xfeff) with v end);
   repeat (match goal with |- context [?x =? 0xfffe] => let v := eval vm_compute in (x =? 0xfffe) in change (x =? 0xfffe) with v end); cbv iota zeta;
   rewrite utf16_mbtowc_j3_S; unfold nsub; change (Nat.leb 2 (2 + length t)) with true; cbv iota; rewrite cks by lia; cbn [skipn];
   replace (2 + length t - 2)%nat with (length t) by lia; reflexivity.
Qed.
Lemma v_char : forall count k c wc i b, 0 <= count -> c = count + Z.of_nat k -> dview (Ok (c, Some wc, i, b)) = Some (dshift (Z.to_nat count) (DChar k wc (i, b))).
Proof. intros count k c wc i b C ->. unfold dview. destruct (Z.ltb_spec (count + Z.of_nat k) 0); [lia|]. cbn [dshift]. repeat f_equal. lia. Qed.
Lemma v_ill : forall count w i b, 0 <= count -> dview (Ok (-1 - 2 * count, w, i, b)) = Some (dshift (Z.to_nat count) (DIll 0 (i, b))).
Proof.
  intros count w i b C. unfold dview. destruct (Z.ltb_spec (-1 - 2 * count) 0); [|lia]. replace (-1 - (-1 - 2 * count)) with (2 * count) by lia.
  rewrite Z.even_mul. cbn [Z.even orb dshift]. rewrite Z.mul_comm, Z.div_mul, Nat.add_0_r by lia. reflexivity.
Qed.
Lemma v_few : forall count w i b, 0 <= count -> dview (Ok (-2 - 2 * count, w, i, b)) = Some (dshift (Z.to_nat count) (DFew 0 (i, b))).
Proof.
  intros count w i b C. unfold dview. destruct (Z.ltb_spec (-2 - 2 * count) 0); [|lia]. replace (-1 - (-2 - 2 * count)) with (2 * count + 1) by lia.
  replace (-2 - (-2 - 2 * count)) with (2 * count) by lia.
  replace (Z.even (2 * count + 1)) with false by (rewrite Z.even_add, Z.even_mul; reflexivity). cbn [dshift]. rewrite Z.mul_comm, Z.div_mul, Nat.add_0_r by lia. reflexivity.
Qed.
Definition g16 (o : bool) : funcs := if o then enc_utf16le else enc_utf16be.
Lemma not_mark2 : forall a b t, byte a -> byte b -> (forall o, firstn 2 (a :: b :: t) <> mark2 o) ->
  a * 256 + b <> 0xfeff /\ a * 256 + b <> 0xfffe.
Proof.
  intros a b t A B N. unfold byte in *. split; intro E; [apply (N false)|apply (N true)]; cbn; f_equal; try lia; f_equal; lia.
Qed.
Ltac casez := repeat match goal with
  | |- context [Z.geb ?x ?y] => destruct (Z.geb_spec x y); try lia
  | |- context [Z.ltb ?x ?y] => destruct (Z.ltb_spec x y); try lia
  | |- context [Z.leb ?x ?y] => destruct (Z.leb_spec x y); try lia
  | |- context [Z.eqb ?x ?y] => destruct (Z.eqb_spec x y); try lia
  end.
Ltac shl8 := rewrite ?(fun a => proj1 (shl_bytes a)), ?(fun a => proj1 (proj2 (shl_bytes a))), ?(fun a => proj1 (proj2 (proj2 (shl_bytes a)))).
Definition LCgoal (L : nat -> Z -> Z -> list Z -> res (Z * option Z * Z * Z)) (g : bool -> funcs) (w : nat) (ok : bool -> list Z -> Prop) (o : bool) (s : list Z) : Prop := exists d,
  (forall F count, 0 <= count -> count + Z.of_nat (length s) <= LIM -> dview (L (2 + F)%nat count (b2z o) s) = Some (dshift (Z.to_nat count) d)) /\
  (s = [] -> d = DFew 0 (0, b2z o)) /\
  (s <> [] -> ok o (firstn w s) -> Some d = option_map (put_state (0, b2z o)) (dec (g o) s (0, 0))).
(** What the result is, once for both sides. *)
Lemma LC_by : forall L g w (ok : bool -> list Z -> Prop) o s d, s <> [] -> 
  (forall F count, 0 <= count -> count + Z.of_nat (length s) <= LIM -> dview (L (2 + F)%nat count (b2z o) s) = Some (dshift (Z.to_nat count) (put_state (0, b2z o) d))) ->
  (ok o (firstn w s) -> dec (g o) s (0, 0) = Some d) -> LCgoal L g w ok o s.
Proof. intros L g w ok o s d S A B. exists (put_state (0, b2z o) d). split; [exact A|]. split; [congruence|]. intros _ K. now rewrite B. Qed.
Definition L16 F count st s := utf16_mbtowc_loop F count st s (length s) None 0.
Ltac opend enc fn := unfold dec; cbn [fst snd]; change (f_mb enc) with (mb0 fn); unfold mb0, fn, rd; cbn [length nth_error Nat.leb Nat.ltb]; cbv zeta.
Ltac conds := repeat first
  [ match goal with H : ?x = true |- context [?x] => rewrite H end
  | match goal with H : ?x = false |- context [?x] => rewrite H end
  | match goal with H : ?x = ?y |- context [?x] => is_var y; rewrite H end
  | rewrite (proj2 (Z.eqb_neq _ _)) by assumption ]; cbn [negb]; cbv iota.
Ltac loop_on LL loop_S := intros F count C H; unfold LIM in H; cbn [length] in H; change (2 + F)%nat with (S (S F)); unfold LL; rewrite loop_S; cbn [length nth_error Nat.leb]; cbv iota;
  (destruct (Z.leb_spec count 0x3ffffffe); [|lia]); repeat (match goal with |- context [count <=? ?y] => destruct (Z.leb_spec count y); [|lia] end);
  cbn [b2z Z.eqb negb]; unfold rd; cbn [length nth_error Nat.leb]; cbv zeta iota.
Lemma utf16_LC : forall o s, bytes s -> (forall o', firstn 2 s <> mark2 o') -> LCgoal L16 g16 2 ok2 o s.
Proof.
  intros o s B N.
  assert (Short : (length s < 2)%nat -> LCgoal L16 g16 2 ok2 o s).
  { intros Hs. exists (DFew 0 (0, b2z o)). split; [|split; [reflexivity|]].
    - intros F count C H. unfold LIM in H. unfold L16. change (2 + F)%nat with (S (S F)). rewrite utf16_mbtowc_loop_S. rewrite (proj2 (Nat.leb_gt _ _)) by lia. cbv iota.
      rewrite !cks by lia. now apply v_few.
    - intros _ _. destruct o; cbn [g16]; unfold dec; cbn [fst snd]; (change (f_mb enc_utf16le) with (mb0 utf16le_mbtowc) || change (f_mb enc_utf16be) with (mb0 utf16be_mbtowc));
        unfold mb0, utf16le_mbtowc, utf16be_mbtowc; rewrite (proj2 (Nat.leb_gt _ _)) by lia; reflexivity. }
  destruct s as [|a [|b s]]; [apply Short; cbn; lia..|]. clear Short.
  pose proof (Forall_inv B) as Ba. pose proof (Forall_inv (Forall_inv_tail B)) as Bb.
  pose proof (not_mark2 a b s Ba Bb N) as (N1 & N2). unfold byte in Ba, Bb. clear N.
  assert (M : exists wc, (if o then a + Z.shiftl b 8 else Z.shiftl a 8 + b) = wc /\ wc <> 0xfeff /\ wc <> 0xfffe) by (eexists; split; [reflexivity|]; destruct o; shl8; lia).
  destruct M as (wc & Ewc & M1 & M2). clear N1 N2.
  destruct ((wc >=? 0xd800) &&& (wc <? 0xdc00)) eqn:Hi.
  - assert (Sh : forall x, s = x -> (length x < 2)%nat -> LCgoal L16 g16 2 ok2 o (a :: b :: s)).
    { intros x -> Hx. apply LC_by with (DFew 0 (0, 0)); [discriminate| |]; destruct x as [|c [|d x]]; cbn in Hx; try lia; destruct o; cbn [g16 b2z put_state].
      1, 2, 3, 4: (loop_on L16 utf16_mbtowc_loop_S; rewrite Ewc, utf16_mbtowc_j_S; conds; cbn [length Nat.leb]; cbv iota zeta; rewrite !cks by lia; now apply v_few).
      1, 3: (intros _; opend enc_utf16le utf16le_mbtowc; rewrite Ewc, Hi; reflexivity).
      all: (intros _; opend enc_utf16be utf16be_mbtowc; rewrite Ewc, Hi; reflexivity). }
    destruct s as [|c [|d s]]; [eapply Sh; [reflexivity|cbn; lia]..|]. clear Sh.
    remember (if o then c + Z.shiftl d 8 else Z.shiftl c 8 + d) as wc2 eqn:Ewc2. symmetry in Ewc2.
    destruct ((wc2 >=? 0xdc00) &&& (wc2 <? 0xe000)) eqn:Lo.
    + apply LC_by with (DChar 4 (0x10000 + Z.shiftl (wc - 0xd800) 0xa + (wc2 - 0xdc00)) (0, 0)); [discriminate| |]; destruct o; cbn [g16 b2z put_state].
      1, 2: (loop_on L16 utf16_mbtowc_loop_S; rewrite Ewc, utf16_mbtowc_j_S; conds; cbn [length Nat.leb Z.eqb negb]; unfold rd; cbn [nth_error]; cbv iota zeta; rewrite Ewc2; unfold utf16_mbtowc_j2; conds; cbv zeta; rewrite !cks by lia; now apply v_char).
      1: (intros _; opend enc_utf16le utf16le_mbtowc; rewrite Ewc, Hi, Ewc2, Lo; reflexivity).
      all: (intros _; opend enc_utf16be utf16be_mbtowc; rewrite Ewc, Hi, Ewc2, Lo; reflexivity).
    + apply LC_by with (DIll 0 (0, 0)); [discriminate| |]; destruct o; cbn [g16 b2z put_state].
      1, 2: (loop_on L16 utf16_mbtowc_loop_S; rewrite Ewc, utf16_mbtowc_j_S; conds; cbn [length Nat.leb Z.eqb negb]; unfold rd; cbn [nth_error]; cbv iota zeta; rewrite Ewc2; unfold utf16_mbtowc_j2; conds; cbv zeta; rewrite !cks by lia; now apply v_ill).
      1: (intros _; opend enc_utf16le utf16le_mbtowc; rewrite Ewc, Hi, Ewc2, Lo; reflexivity).
      all: (intros _; opend enc_utf16be utf16be_mbtowc; rewrite Ewc, Hi, Ewc2, Lo; reflexivity).
  - destruct ((wc >=? 0xdc00) &&& (wc <? 0xe000)) eqn:Lo.
    + apply LC_by with (DIll 0 (0, 0)); [discriminate| |]; destruct o; cbn [g16 b2z put_state].
      1, 2: (loop_on L16 utf16_mbtowc_loop_S; rewrite Ewc, utf16_mbtowc_j_S; conds; cbv zeta; rewrite !cks by lia; now apply v_ill).
      1: (intros _; opend enc_utf16le utf16le_mbtowc; rewrite Ewc, Hi, Lo; reflexivity).
      all: (intros _; opend enc_utf16be utf16be_mbtowc; rewrite Ewc, Hi, Lo; reflexivity).
    + apply LC_by with (DChar 2 wc (0, 0)); [discriminate| |]; destruct o; cbn [g16 b2z put_state].
      1, 2: (loop_on L16 utf16_mbtowc_loop_S; rewrite Ewc, utf16_mbtowc_j_S; conds; cbv zeta; rewrite !cks by lia; now apply v_char).
      1: (intros _; opend enc_utf16le utf16le_mbtowc; rewrite Ewc, Hi, Lo; reflexivity).
      all: (intros _; opend enc_utf16be utf16be_mbtowc; rewrite Ewc, Hi, Lo; reflexivity).
Qed.
Lemma utf16_marked : marked enc_utf16 g16 2 mark2 ok2.
Proof.
  apply (marked_intro enc_utf16 g16 2 mark2 ok2 (fun F count o s => L16 F count (b2z o) s)); try lia; try (intros []; reflexivity).
  - intros F count o o' t. unfold L16. apply utf16_LA.
  - exact utf16_LC.
  - intros o o' K. exact (K o' eq_refl).
Qed.

(** ** UCS-2 *)
Definition g2 (o : bool) : funcs := if o then enc_ucs2le else enc_ucs2be.
Definition L2 F count st s := ucs2_mbtowc_loop F count st s (length s) None 0.
Ltac marks := repeat (match goal with |- context [?x =? 0xfeff] => let v := eval vm_compute in (x =? 0xfeff) in change (x =? 0xfeff) with v
    | |- context [?x =? 0xfffe] => let v := eval vm_compute in (x =? 0xfffe) in change (x =? 0xfffe) with v
    | |- context [?x =? 0xfffe0000] => let v := eval vm_compute in (x =? 0xfffe0000) in change (x =? 0xfffe0000) with v end); cbv iota zeta.
Lemma ucs2_LA : forall F count o o' t, 0 <= count -> count + Z.of_nat (2 + length t) <= LIM -> L2 (3 + F) count (b2z o) (mark2 o' ++ t) = L2 F (count + Z.of_nat 2) (b2z o') t.
Proof.
  intros F count o o' t C H. unfold LIM in H. unfold L2. rewrite app_length. replace (length (mark2 o')) with 2%nat by now destruct o'. change (3 + F)%nat with (S (S (S F))).
  rewrite ucs2_mbtowc_loop_S. change (Nat.leb 2 (2 + length t)) with true. cbv iota. destruct (Z.leb_spec count 0x3ffffffe); [|lia]. destruct (Z.leb_spec count 0x7ffffffd); [|lia].
  destruct o, o'; cbn [b2z mark2 app Z.eqb negb]; unfold rd; cbn [nth_error]; cbv zeta; rewrite ucs2_mbtowc_j_S; marks;
   rewrite ucs2_mbtowc_j2_S; unfold nsub; change (Nat.leb 2 (2 + length t)) with true; cbv iota zeta; rewrite cks by lia; cbn [skipn];
   replace (2 + length t - 2)%nat with (length t) by lia; reflexivity.
Qed.
Lemma ucs2_LC : forall o s, bytes s -> (forall o', firstn 2 s <> mark2 o') -> LCgoal L2 g2 2 ok2 o s.
Proof.
  intros o s B N.
  assert (Short : (length s < 2)%nat -> LCgoal L2 g2 2 ok2 o s).
  { intros Hs. exists (DFew 0 (0, b2z o)). split; [|split; [reflexivity|]].
    - intros F count C H. unfold LIM in H. unfold L2. change (2 + F)%nat with (S (S F)). rewrite ucs2_mbtowc_loop_S. rewrite (proj2 (Nat.leb_gt _ _)) by lia. cbv iota.
      rewrite !cks by lia. now apply v_few.
    - intros _ _. destruct o; cbn [g2]; unfold dec; cbn [fst snd]; (change (f_mb enc_ucs2le) with (mb0 ucs2le_mbtowc) || change (f_mb enc_ucs2be) with (mb0 ucs2be_mbtowc));
        unfold mb0, ucs2le_mbtowc, ucs2be_mbtowc; rewrite (proj2 (Nat.leb_gt _ _)) by lia; reflexivity. }
  destruct s as [|a [|b s]]; [apply Short; cbn; lia..|]. clear Short.
  pose proof (Forall_inv B) as Ba. pose proof (Forall_inv (Forall_inv_tail B)) as Bb.
  pose proof (not_mark2 a b s Ba Bb N) as (N1 & N2). unfold byte in Ba, Bb. clear N.
  assert (M : exists wc, (if o then a + Z.shiftl b 8 else Z.shiftl a 8 + b) = wc /\ wc <> 0xfeff /\ wc <> 0xfffe /\ wc = (if o then a + 256 * b else 256 * a + b)) by (eexists; split; [reflexivity|]; destruct o; shl8; lia).
  destruct M as (wc & Ewc & M1 & M2 & M3). clear N1 N2.
  destruct ((wc >=? 0xd800) &&& (wc <? 0xe000)) eqn:Hi.
  - assert (Hb : let h := if o then b else a in (h >=? 0xd8) = true /\ (h <? 0xe0) = true) by (revert Hi; subst wc; destruct o; cbv zeta; casez; try discriminate; auto). destruct Hb as (Hb1 & Hb2).
    apply LC_by with (DIll 0 (0, 0)); [discriminate| |]; destruct o; cbn [g2 b2z put_state].
    1, 2: (loop_on L2 ucs2_mbtowc_loop_S; rewrite Ewc, ucs2_mbtowc_j_S; conds; cbv zeta; rewrite !cks by lia; now apply v_ill).
    1: (intros _; opend enc_ucs2le ucs2le_mbtowc; rewrite Hb1, Hb2; reflexivity).
    all: (intros _; opend enc_ucs2be ucs2be_mbtowc; rewrite Hb1, Hb2; reflexivity).
  - assert (Hb : let h := if o then b else a in (h >=? 0xd8) = true -> (h <? 0xe0) = false) by (revert Hi; subst wc; destruct o; cbv zeta; casez; try discriminate; auto).
    apply LC_by with (DChar 2 wc (0, 0)); [discriminate| |]; destruct o; cbn [g2 b2z put_state].
    1, 2: (loop_on L2 ucs2_mbtowc_loop_S; rewrite Ewc, ucs2_mbtowc_j_S; conds; cbv zeta; rewrite !cks by lia; now apply v_char).
    1: (intros _; opend enc_ucs2le ucs2le_mbtowc; destruct (b >=? 0xd8) eqn:Hb1; [rewrite (Hb Hb1)|]; rewrite Ewc; reflexivity).
    all: (intros _; opend enc_ucs2be ucs2be_mbtowc; destruct (a >=? 0xd8) eqn:Hb1; [rewrite (Hb Hb1)|]; rewrite Ewc; reflexivity).
Qed.
Lemma ucs2_marked : marked enc_ucs2 g2 2 mark2 ok2.
Proof.
  apply (marked_intro enc_ucs2 g2 2 mark2 ok2 (fun F count o s => L2 F count (b2z o) s)); try lia; try (intros []; reflexivity).
  - intros F count o o' t. apply ucs2_LA.
  - exact ucs2_LC.
  - intros o o' K. exact (K o' eq_refl).
Qed.

(** ** UTF-32 *)
Definition ok4 (o : bool) (x : list Z) : Prop := forall o', x <> mark4 o'.
Definition g32 (o : bool) : funcs := if o then enc_utf32le else enc_utf32be.
Definition L32 F count st s := utf32_mbtowc_loop F count st s (length s) None 0.
Lemma utf32_LA : forall F count o o' t, 0 <= count -> count + Z.of_nat (4 + length t) <= LIM -> L32 (3 + F) count (b2z o) (mark4 o' ++ t) = L32 F (count + Z.of_nat 4) (b2z o') t.
Proof.
  intros F count o o' t C H. unfold LIM in H. unfold L32. rewrite app_length. replace (length (mark4 o')) with 4%nat by now destruct o'. change (3 + F)%nat with (S (S (S F))).
  rewrite utf32_mbtowc_loop_S. change (Nat.leb 4 (4 + length t)) with true. cbv iota. destruct (Z.leb_spec count 0x3ffffffe); [|lia]. destruct (Z.leb_spec count 0x7ffffffb); [|lia].
  destruct o, o'; cbn [b2z mark4 app Z.eqb negb]; unfold rd; cbn [nth_error]; cbv zeta; rewrite utf32_mbtowc_j_S; marks;
   rewrite utf32_mbtowc_j2_S; unfold nsub; change (Nat.leb 4 (4 + length t)) with true; cbv iota zeta; rewrite cks by lia; cbn [skipn];
   replace (4 + length t - 4)%nat with (length t) by lia; reflexivity.
Qed.
Lemma not_mark4 : forall a b c d t, byte a -> byte b -> byte c -> byte d -> (forall o, firstn 4 (a :: b :: c :: d :: t) <> mark4 o) ->
  a * 16777216 + b * 65536 + c * 256 + d <> 0xfeff /\ a * 16777216 + b * 65536 + c * 256 + d <> 0xfffe0000.
Proof.
  intros a b c d t A B C D N. unfold byte in *. split; intro E; [apply (N false)|apply (N true)]; cbn; repeat (f_equal; [lia|]); f_equal; lia.
Qed.
Lemma utf32_LC : forall o s, bytes s -> (forall o', firstn 4 s <> mark4 o') -> LCgoal L32 g32 4 ok4 o s.
Proof.
  intros o s B N.
  assert (Short : (length s < 4)%nat -> LCgoal L32 g32 4 ok4 o s).
  { intros Hs. exists (DFew 0 (0, b2z o)). split; [|split; [reflexivity|]].
    - intros F count C H. unfold LIM in H. unfold L32. change (2 + F)%nat with (S (S F)). rewrite utf32_mbtowc_loop_S. rewrite (proj2 (Nat.leb_gt _ _)) by lia. cbv iota.
      rewrite !cks by lia. now apply v_few.
    - intros _ _. destruct o; cbn [g32]; unfold dec; cbn [fst snd]; (change (f_mb enc_utf32le) with (mb0 utf32le_mbtowc) || change (f_mb enc_utf32be) with (mb0 utf32be_mbtowc));
        unfold mb0, utf32le_mbtowc, utf32be_mbtowc; rewrite (proj2 (Nat.leb_gt _ _)) by lia; reflexivity. }
  destruct s as [|a [|b [|c [|d s]]]]; [apply Short; cbn; lia..|]. clear Short.
  pose proof (Forall_inv B) as Ba. pose proof (Forall_inv (Forall_inv_tail B)) as Bb. pose proof (Forall_inv (Forall_inv_tail (Forall_inv_tail B))) as Bc.
  pose proof (Forall_inv (Forall_inv_tail (Forall_inv_tail (Forall_inv_tail B)))) as Bd.
  pose proof (not_mark4 a b c d s Ba Bb Bc Bd N) as (N1 & N2). unfold byte in Ba, Bb, Bc, Bd. clear N.
  assert (M : exists wc, (if o then a + Z.shiftl b 8 + Z.shiftl c 16 + Z.shiftl d 24 else Z.shiftl a 24 + Z.shiftl b 16 + Z.shiftl c 8 + d) = wc /\ wc <> 0xfeff /\ wc <> 0xfffe0000)
    by (eexists; split; [reflexivity|]; destruct o; shl8; lia).
  destruct M as (wc & Ewc & M1 & M2). clear N1 N2.
  destruct ((wc <? 0x110000) &&& (negb ((wc >=? 0xd800) &&& (wc <? 0xe000)))) eqn:Hi.
  - apply LC_by with (DChar 4 wc (0, 0)); [discriminate| |]; destruct o; cbn [g32 b2z put_state].
    1, 2: (loop_on L32 utf32_mbtowc_loop_S; rewrite Ewc, utf32_mbtowc_j_S; conds; cbv zeta; rewrite !cks by lia; now apply v_char).
    1: (intros _; opend enc_utf32le utf32le_mbtowc; rewrite Ewc, Hi; reflexivity).
    all: (intros _; opend enc_utf32be utf32be_mbtowc; rewrite Ewc, Hi; reflexivity).
  - apply LC_by with (DIll 0 (0, 0)); [discriminate| |]; destruct o; cbn [g32 b2z put_state].
    1, 2: (loop_on L32 utf32_mbtowc_loop_S; rewrite Ewc, utf32_mbtowc_j_S; conds; cbv zeta; rewrite !cks by lia; now apply v_ill).
    1: (intros _; opend enc_utf32le utf32le_mbtowc; rewrite Ewc, Hi; reflexivity).
    all: (intros _; opend enc_utf32be utf32be_mbtowc; rewrite Ewc, Hi; reflexivity).
Qed.
Lemma utf32_marked : marked enc_utf32 g32 4 mark4 ok4.
Proof.
  apply (marked_intro enc_utf32 g32 4 mark4 ok4 (fun F count o s => L32 F count (b2z o) s)); try lia; try (intros []; reflexivity).
  - intros F count o o' t. apply utf32_LA.
  - exact utf32_LC.
  - intros o o' K. exact (K o' eq_refl).
Qed.

(** ** UCS-4: UCS-4BE and UCS-4LE also take units above 7fffffff. *)
Definition okh (o : bool) (x : list Z) : Prop := (forall o', x <> mark4 o') /\ (length x = 4%nat -> nth (if o then 3 else 0) x 0 < 128).
Definition g4 (o : bool) : funcs := if o then enc_ucs4le else enc_ucs4be.
Definition L4 F count st s := ucs4_mbtowc_loop F count st s (length s) None 0.
Lemma ucs4_LA : forall F count o o' t, 0 <= count -> count + Z.of_nat (4 + length t) <= LIM -> L4 (3 + F) count (b2z o) (mark4 o' ++ t) = L4 F (count + Z.of_nat 4) (b2z o') t.
Proof.
  intros F count o o' t C H. unfold LIM in H. unfold L4. rewrite app_length. replace (length (mark4 o')) with 4%nat by now destruct o'. change (3 + F)%nat with (S (S (S F))).
  rewrite ucs4_mbtowc_loop_S. change (Nat.leb 4 (4 + length t)) with true. cbv iota. destruct (Z.leb_spec count 0x3ffffffe); [|lia]. destruct (Z.leb_spec count 0x7ffffffb); [|lia].
  destruct o, o'; cbn [b2z mark4 app Z.eqb negb]; unfold rd; cbn [nth_error]; cbv zeta; rewrite ucs4_mbtowc_j_S; marks;
   rewrite ucs4_mbtowc_j2_S; unfold nsub; change (Nat.leb 4 (4 + length t)) with true; cbv iota zeta; rewrite cks by lia; cbn [skipn];
   replace (4 + length t - 4)%nat with (length t) by lia; reflexivity.
Qed.
Lemma ucs4_LC : forall o s, bytes s -> (forall o', firstn 4 s <> mark4 o') -> LCgoal L4 g4 4 okh o s.
Proof.
  intros o s B N.
  assert (Short : (length s < 4)%nat -> LCgoal L4 g4 4 okh o s).
  { intros Hs. exists (DFew 0 (0, b2z o)). split; [|split; [reflexivity|]].
    - intros F count C H. unfold LIM in H. unfold L4. change (2 + F)%nat with (S (S F)). rewrite ucs4_mbtowc_loop_S. rewrite (proj2 (Nat.leb_gt _ _)) by lia. cbv iota.
      rewrite !cks by lia. now apply v_few.
    - intros _ _. destruct o; cbn [g4]; unfold dec; cbn [fst snd]; (change (f_mb enc_ucs4le) with (mb0 ucs4le_mbtowc) || change (f_mb enc_ucs4be) with (mb0 ucs4be_mbtowc));
        unfold mb0, ucs4le_mbtowc, ucs4be_mbtowc; rewrite (proj2 (Nat.leb_gt _ _)) by lia; reflexivity. }
  destruct s as [|a [|b [|c [|d s]]]]; [apply Short; cbn; lia..|]. clear Short.
  pose proof (Forall_inv B) as Ba. pose proof (Forall_inv (Forall_inv_tail B)) as Bb. pose proof (Forall_inv (Forall_inv_tail (Forall_inv_tail B))) as Bc.
  pose proof (Forall_inv (Forall_inv_tail (Forall_inv_tail (Forall_inv_tail B)))) as Bd.
  pose proof (not_mark4 a b c d s Ba Bb Bc Bd N) as (N1 & N2). unfold byte in Ba, Bb, Bc, Bd. clear N.
  assert (M : exists wc, (if o then a + Z.shiftl b 8 + Z.shiftl c 16 + Z.shiftl d 24 else Z.shiftl a 24 + Z.shiftl b 16 + Z.shiftl c 8 + d) = wc /\ wc <> 0xfeff /\ wc <> 0xfffe0000 /\
      ((if o then d else a) < 128 -> wc <= 0x7fffffff))
    by (eexists; split; [reflexivity|]; destruct o; shl8; lia).
  destruct M as (wc & Ewc & M1 & M2 & M3). clear N1 N2.
  destruct (wc <=? 0x7fffffff) eqn:Hi.
  - apply LC_by with (DChar 4 wc (0, 0)); [discriminate| |]; destruct o; cbn [g4 b2z put_state].
    1, 2: (loop_on L4 ucs4_mbtowc_loop_S; rewrite Ewc, ucs4_mbtowc_j_S; conds; cbv zeta; rewrite !cks by lia; now apply v_char).
    1: (intros _; opend enc_ucs4le ucs4le_mbtowc; rewrite Ewc; reflexivity).
    all: (intros _; opend enc_ucs4be ucs4be_mbtowc; rewrite Ewc; reflexivity).
  - apply LC_by with (DIll 0 (0, 0)); [discriminate| |].
    + destruct o; cbn [b2z put_state]; (loop_on L4 ucs4_mbtowc_loop_S; rewrite Ewc, ucs4_mbtowc_j_S; conds; cbv zeta; rewrite !cks by lia; now apply v_ill).
    + intros [_ K]. specialize (K eq_refl). apply Z.leb_gt in Hi. destruct o; cbn [nth firstn] in K; lia.
Qed.
Lemma ucs4_marked : marked enc_ucs4 g4 4 mark4 okh.
Proof.
  apply (marked_intro enc_ucs4 g4 4 mark4 okh (fun F count o s => L4 F count (b2z o) s)); try lia; try (intros []; reflexivity).
  - intros F count o o' t. apply ucs4_LA.
  - exact ucs4_LC.
  - intros o o' [K _]. exact (K o' eq_refl).
Qed.
