(** Stepping through the translated C functions inside proofs.

    [holds m Q] says that the C code m terminates normally with a result satisfying Q.  The tactic [sx]
    advances the goal by one construct of the model at a time, deciding comparisons with lia and splitting
    on those it cannot decide. *)
From Coq Require Import ZArith List Bool Lia.
From Verif Require Import Base.
Import ListNotations.
Open Scope Z_scope.

(** In mode false nothing is claimed about m: it only drives the exploration of the paths. *)
Definition hold (md : bool) {A : Type} (m : res A) (Q : A -> Prop) : Prop :=
  if md then match m with Ok a => Q a | _ => False end else exists a, Q a.
Notation holds := (hold true).

Lemma holds_eq : forall A (m : res A) v, holds m (fun x => x = v) -> m = Ok v.
Proof. intros A [a| | |] v H; simpl in H; [now subst|easy..]. Qed.
Lemma holds_ex : forall A (m : res A) Q, holds m Q -> exists a, m = Ok a /\ Q a.
Proof. intros A [a| | |] Q H; simpl in H; [eauto|easy..]. Qed.
Lemma holds_of : forall md A (m : res A) a (Q : A -> Prop), m = Ok a -> Q a -> hold md m Q.
Proof. intros [|] A m a Q -> H; [exact H|now exists a]. Qed.
Lemma holds_imp : forall md A (m : res A) (Q R : A -> Prop), hold md m Q -> (forall a, Q a -> R a) -> hold md m R.
Proof. intros [|] A m Q R H I; [destruct m; simpl in *; auto|destruct H as [a H]; exists a; auto]. Qed.
Lemma holds_ok : forall md A (a : A) (Q : A -> Prop), Q a -> hold md (Ok a) Q.
Proof. intros [|] A a Q H; [exact H|now exists a]. Qed.
Lemma holds_bind : forall md A B (m : res A) (f : A -> res B) Q, hold md m (fun a => hold md (f a) Q) -> hold md (bind m f) Q.
Proof. intros [|] A B m f Q H; [destruct m; simpl in *; auto|destruct H as [a [b H]]; now exists b]. Qed.
Lemma holds_same : forall md A (m m' : res A) Q, m = m' -> hold md m' Q -> hold md m Q.
Proof. intros md A m m' Q -> H. exact H. Qed.
Lemma hold_any : forall A (m m' : res A) Q, hold false m' Q -> hold false m Q.
Proof. intros A m m' Q H. exact H. Qed.
Lemma holds_true : forall md A b (x y : res A) Q, b = true -> hold md x Q -> hold md (if b then x else y) Q.
Proof. intros md A b x y Q -> H. exact H. Qed.
Lemma holds_false : forall md A b (x y : res A) Q, b = false -> hold md y Q -> hold md (if b then x else y) Q.
Proof. intros md A b x y Q -> H. exact H. Qed.
Lemma holds_split : forall md A b (x y : res A) Q, (b = true -> hold md x Q) -> (b = false -> hold md y Q) -> hold md (if b then x else y) Q.
Proof. intros md A [|] x y Q H K; auto. Qed.
Lemma holds_ifif : forall md A (a b c : bool) (x y : res A) Q,
  hold md (if a then (if b then x else y) else (if c then x else y)) Q -> hold md (if (if a then b else c) then x else y) Q.
Proof. intros md A [|] b c x y Q H; exact H. Qed.
Lemma holds_and : forall md A (a b : bool) (x y : res A) Q,
  hold md (if a then (if b then x else y) else y) Q -> hold md (if a && b then x else y) Q.
Proof. intros md A [|] b x y Q H; exact H. Qed.
Lemma holds_neg : forall md A (a : bool) (x y : res A) Q,
  hold md (if a then y else x) Q -> hold md (if negb a then x else y) Q.
Proof. intros md A [|] x y Q H; exact H. Qed.
Lemma holds_ck : forall md A x (k : Z -> res A) Q, -0x80000000 <= x <= 0x7fffffff -> hold md (k x) Q -> hold md (ck x k) Q.
Proof.
  intros md A x k Q H K. unfold ck. rewrite (proj2 (Z.leb_le _ _) (proj1 H)), (proj2 (Z.leb_le _ _) (proj2 H)). exact K.
Qed.
Lemma holds_shck : forall md A x (k : Z -> res A) Q, 0 <= x < 32 -> hold md (k x) Q -> hold md (shck x k) Q.
Proof.
  intros md A x k Q H K. unfold shck. rewrite (proj2 (Z.leb_le _ _) (proj1 H)), (proj2 (Z.ltb_lt _ _) (proj2 H)). exact K.
Qed.
Lemma holds_nsub : forall md A a b (k : nat -> res A) Q, (b <= a)%nat -> hold md (k (a - b)%nat) Q -> hold md (nsub a b k) Q.
Proof. intros md A a b k Q H K. unfold nsub. rewrite (proj2 (Nat.leb_le _ _) H). exact K. Qed.

Lemma holds_rd : forall md A s i v (k : Z -> res A) Q, nth_error s i = Some v -> hold md (k v) Q -> hold md (rd s i k) Q.
Proof. intros md A s i v k Q H K. unfold rd. now rewrite H. Qed.
Lemma holds_lrd : forall md A r o v (k : Z -> res A) Q, lfind r o = Some v -> hold md (k v) Q -> hold md (lrd r o k) Q.
Proof. intros md A r o v k Q H K. unfold lrd. now rewrite H. Qed.
Lemma holds_lappb : forall md A size r o l (k : wlog -> res A) Q,
  forallb (fun e => Nat.ltb (Nat.add o (fst e)) size) l = true -> hold md (k (lapp r o l)) Q -> hold md (lappb size r o l k) Q.
Proof. intros md A size r o l k Q H K. unfold lappb. now rewrite H. Qed.
Lemma holds_wrb : forall md A size r o v (k : wlog -> res A) Q,
  (o < size)%nat -> hold md (k ((o, v) :: r)) Q -> hold md (wrb size r o v k) Q.
Proof. intros md A size r o v k Q H K. unfold wrb. rewrite (proj2 (Nat.ltb_lt _ _) H). exact K. Qed.
Lemma holds_tget : forall md A t i v (k : Z -> res A) Q, tlookup t i = Some v -> hold md (k v) Q -> hold md (tget t i k) Q.
Proof. intros md A t i v k Q H K. unfold tget. now rewrite H. Qed.
Lemma holds_oget : forall md A v (k : Z -> res A) Q, hold md (k v) Q -> hold md (oget (Some v) k) Q.
Proof. auto. Qed.

Lemma ltb_t : forall a b, a < b -> (a <? b) = true. Proof. intros; now apply Z.ltb_lt. Qed.
Lemma ltb_f : forall a b, b <= a -> (a <? b) = false. Proof. intros; now apply Z.ltb_ge. Qed.
Lemma leb_t : forall a b, a <= b -> (a <=? b) = true. Proof. intros; now apply Z.leb_le. Qed.
Lemma leb_f : forall a b, b < a -> (a <=? b) = false. Proof. intros; now apply Z.leb_gt. Qed.
Lemma gtb_t : forall a b, b < a -> (a >? b) = true. Proof. intros; now apply Z.gtb_lt. Qed.
Lemma gtb_f : forall a b, a <= b -> (a >? b) = false. Proof. intros. rewrite Z.gtb_ltb. now apply Z.ltb_ge. Qed.
Lemma geb_t : forall a b, b <= a -> (a >=? b) = true. Proof. intros; now apply Z.geb_le. Qed.
Lemma geb_f : forall a b, a < b -> (a >=? b) = false. Proof. intros. rewrite Z.geb_leb. now apply Z.leb_gt. Qed.
Lemma eqb_t : forall a b, a = b -> (a =? b) = true. Proof. intros; now apply Z.eqb_eq. Qed.
Lemma eqb_f : forall a b, a <> b -> (a =? b) = false. Proof. intros; now apply Z.eqb_neq. Qed.
Lemma gtb_lt' : forall a b, (a >? b) = true -> b < a. Proof. intros; now apply Z.gtb_lt. Qed.
Lemma gtb_ge' : forall a b, (a >? b) = false -> a <= b. Proof. intros a b H. rewrite Z.gtb_ltb in H. now apply Z.ltb_ge. Qed.
Lemma geb_le' : forall a b, (a >=? b) = true -> b <= a. Proof. intros; now apply Z.geb_le. Qed.
Lemma geb_lt' : forall a b, (a >=? b) = false -> a < b. Proof. intros a b H. rewrite Z.geb_leb in H. now apply Z.leb_gt. Qed.

Ltac sx_neval b := let b' := eval vm_compute in b in change b with b'.
(** Extension points: calls of leaf functions, and arithmetic facts lia does not know. *)
Ltac sx_call m := fail.
Ltac sx_fix m := fail.
Ltac sx_pre b := fail.
(** Terms at which to stop (succeeds on them). *)
Ltac sx_stop m := fail.
Ltac sx_arith := first [lia | progress rewrite ?Z.shiftr_div_pow2 by lia; simpl Z.pow in *; Z.div_mod_to_equations; lia].

Ltac sx_cmp0 b :=
  lazymatch b with
  | Z.ltb ?x ?y => first [apply holds_true; [apply ltb_t; sx_arith|] | apply holds_false; [apply ltb_f; sx_arith|]
                         | apply holds_split; [let H := fresh "C" in intro H; apply Z.ltb_lt in H|let H := fresh "C" in intro H; apply Z.ltb_ge in H] ]
  | Z.leb ?x ?y => first [apply holds_true; [apply leb_t; sx_arith|] | apply holds_false; [apply leb_f; sx_arith|]
                         | apply holds_split; [let H := fresh "C" in intro H; apply Z.leb_le in H|let H := fresh "C" in intro H; apply Z.leb_gt in H] ]
  | Z.gtb ?x ?y => first [apply holds_true; [apply gtb_t; sx_arith|] | apply holds_false; [apply gtb_f; sx_arith|]
                         | apply holds_split; [let H := fresh "C" in intro H; apply gtb_lt' in H|let H := fresh "C" in intro H; apply gtb_ge' in H] ]
  | Z.geb ?x ?y => first [apply holds_true; [apply geb_t; sx_arith|] | apply holds_false; [apply geb_f; sx_arith|]
                         | apply holds_split; [let H := fresh "C" in intro H; apply geb_le' in H|let H := fresh "C" in intro H; apply geb_lt' in H] ]
  | Z.eqb ?x ?y => first [apply holds_true; [apply eqb_t; sx_arith|] | apply holds_false; [apply eqb_f; sx_arith|]
                         | apply holds_split; [let H := fresh "C" in intro H; apply Z.eqb_eq in H|let H := fresh "C" in intro H; apply Z.eqb_neq in H] ]
  | Nat.ltb ?x ?y => first [apply holds_true; [apply Nat.ltb_lt; lia|] | apply holds_false; [apply Nat.ltb_ge; lia|]
                         | apply holds_split; [let H := fresh "C" in intro H; apply Nat.ltb_lt in H|let H := fresh "C" in intro H; apply Nat.ltb_ge in H] ]
  | Nat.leb ?x ?y => first [apply holds_true; [apply Nat.leb_le; lia|] | apply holds_false; [apply Nat.leb_gt; lia|]
                         | apply holds_split; [let H := fresh "C" in intro H; apply Nat.leb_le in H|let H := fresh "C" in intro H; apply Nat.leb_gt in H] ]
  | Nat.eqb ?x ?y => first [apply holds_true; [apply Nat.eqb_eq; lia|] | apply holds_false; [apply Nat.eqb_neq; lia|]
                         | apply holds_split; [let H := fresh "C" in intro H; apply Nat.eqb_eq in H|let H := fresh "C" in intro H; apply Nat.eqb_neq in H] ]
  end.

Ltac sx_cmp b :=
  lazymatch b with
  | context [if true then ?x else ?y] => change (if true then x else y) with x
  | context [if false then ?x else ?y] => change (if false then x else y) with y
  | context [if ?c then _ else _] =>
      first [ match goal with H : c = _ |- _ => rewrite H end
            | let v := eval vm_compute in c in lazymatch v with true => idtac | false => idtac end; change c with v
            | let H := fresh "C" in destruct c eqn:H; try (exfalso; lia) ]
  | context [Z.to_nat ?t] =>
      let v := eval vm_compute in (Z.to_nat t) in
      lazymatch v with
      | O => change (Z.to_nat t) with O
      | S _ => change (Z.to_nat t) with v
      | _ => sx_cmp0 b
      end
  | _ => sx_cmp0 b
  end.

Ltac head_of t := lazymatch t with ?f _ => head_of f | _ => t end.

Ltac sx_lfind := cbv [lfind wr Nat.eqb]; first [eassumption|reflexivity].

Ltac sx1 :=
  lazymatch goal with
  | |- hold ?md ?m ?Q =>
    lazymatch m with
    | Ok _ => apply holds_ok; cbv beta iota
    | bind _ _ => apply holds_bind
    | (let x := ?v in _) => cbv zeta
    | (if true then _ else _) => cbv iota
    | (if false then _ else _) => cbv iota
    | (if (if _ then _ else _) then _ else _) => apply holds_ifif
    | (if negb _ then _ else _) => apply holds_neg
    | (if andb _ _ then _ else _) => apply holds_and
    | (if isnull (Some _) then _ else _) => apply holds_false; [reflexivity|]
    | (if isnull None then _ else _) => apply holds_true; [reflexivity|]
    | (if ?b then _ else _) => first [apply holds_true; [reflexivity|] | apply holds_false; [reflexivity|] | sx_pre b | sx_cmp b]
    | ck _ _ => apply holds_ck; [sx_arith|]; cbv beta
    | shck _ _ => apply holds_shck; [sx_arith|]; cbv beta
    | nsub _ _ _ => apply holds_nsub; [lia|]; cbv beta
    | rd _ _ _ => eapply holds_rd; [cbn [nth_error]; first [eassumption|reflexivity]|]; cbv beta
    | lrd ?r _ _ => eapply holds_lrd; [sx_lfind|]; cbv beta
    | lappb _ ?r ?o ?l ?k => apply holds_lappb; [reflexivity|];
        let r' := eval cbv [lapp lshift map app Nat.add fst snd] in (lapp r o l) in change (lapp r o l) with r'; cbv beta
    | wrb _ _ _ _ _ => apply holds_wrb; [lia|]; cbv beta
    | tget _ ?i _ => first [sx_call m
        | let v := eval vm_compute in i in lazymatch v with Z0 => idtac | Zpos _ => idtac | Zneg _ => idtac end;
          eapply holds_tget; [vm_compute; reflexivity|]; cbv beta]
    | oget (Some _) _ => apply holds_oget; cbv beta
    | _ => tryif sx_stop m then fail else first [match goal with H : m = Ok _ |- _ => apply (holds_of _ _ _ _ _ H); cbv beta iota end | sx_call m | sx_fix m | let h := head_of m in let m' := eval cbv beta delta [h] in m in change (hold md m' Q)]
    end
  end.
Ltac sx := repeat sx1.
