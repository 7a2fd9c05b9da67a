(** Encoder contracts by stepping through the code: the result for a large output room is computed first, then
    shown to be the result for every room. *)
From Coq Require Import ZArith List Bool Lia.
From Verif Require Import Base Loop Contract LoopLib Reflect Sx Rng.
Import ListNotations.
Open Scope Z_scope.

(** What an encoder must do with one character in one state. *)
Definition egoal (e : funcs) (oinv : Z -> Prop) (wc ost : Z) : Prop :=
  exists o need, (need <= MAXNEED)%nat /\ enc_at e wc ost o need /\ match o with Some (_, ost') => oinv ost' | None => True end.
(** The same, carrying the outcome found with room 16. *)
Definition eleaf (e : funcs) (oinv : Z -> Prop) (wc ost : Z) (c : Z) (l : wlog) (ost' : Z) : Prop := egoal e oinv wc ost.

Lemma egoal_probe : forall e oinv wc ost,
  holds (f_wc e wc 16%nat ost) (fun '(c, l, ost') => eleaf e oinv wc ost c l ost') -> egoal e oinv wc ost.
Proof. intros e oinv wc ost H. destruct (f_wc e wc 16%nat ost) as [[[c l] o]| | |]; simpl in H; [exact H|easy..]. Qed.

Definition failing (c : Z) (n : nat) (ost : Z) (x : Z * wlog * Z) : Prop :=
  fst (fst x) = c /\ inb (snd (fst x)) n /\ snd x = ost.
Definition giving (bs : list Z) (ost' : Z) (x : Z * wlog * Z) : Prop :=
  fst (fst x) = Z.of_nat (length bs) /\ writes (snd (fst x)) bs /\ snd x = ost'.

Lemma failing_ex : forall m c n ost, holds m (failing c n ost) -> exists log, m = Ok (c, log, ost) /\ inb log n.
Proof. intros [[[c' l] o]| | |] c n ost H; simpl in H; [|easy..]. destruct H as (A & B & C). simpl in *. subst. eauto. Qed.
Lemma giving_ex : forall m bs ost, holds m (giving bs ost) -> exists log, m = Ok (Z.of_nat (length bs), log, ost) /\ writes log bs.
Proof. intros [[[c' l] o]| | |] bs ost H; simpl in H; [|easy..]. destruct H as (A & B & C). simpl in *. subst. eauto. Qed.

Lemma egoal_ill : forall e oinv wc ost need, (1 <= need <= MAXNEED)%nat ->
  (forall n, (1 <= n < need)%nat -> holds (f_wc e wc n ost) (failing (-2) n ost)) ->
  (forall n, (need <= n)%nat -> holds (f_wc e wc n ost) (failing (-1) n ost)) -> egoal e oinv wc ost.
Proof.
  intros e oinv wc ost need H A B. exists None, need. split; [lia|]. split; [|exact I].
  apply enc_at_ill; [lia| |]; intros n Hn; apply failing_ex; auto.
Qed.
Lemma egoal_ok : forall e (oinv : Z -> Prop) wc ost bs ost', (length bs <= MAXNEED)%nat -> oinv ost' ->
  (forall n, (1 <= n < length bs)%nat -> holds (f_wc e wc n ost) (failing (-2) n ost)) ->
  (forall n, (1 <= n)%nat -> (length bs <= n)%nat -> holds (f_wc e wc n ost) (giving bs ost')) -> egoal e oinv wc ost.
Proof.
  intros e oinv wc ost bs ost' H I A B. exists (Some (bs, ost')), (Nat.max 1 (length bs)). split; [unfold MAXNEED in *; lia|]. split; [|exact I].
  apply enc_at_ok; intros n Hn; [apply failing_ex|intro Hn'; apply giving_ex]; auto.
Qed.

Definition rgoal (rst : nat -> Z -> res (Z * wlog * Z)) (oinv : Z -> Prop) (ost : Z) : Prop :=
  exists bs ost', (length bs <= MAXNEED)%nat /\ oinv ost' /\
    (forall n, (n < length bs)%nat -> exists log, rst n ost = Ok (-2, log, ost) /\ inb log n) /\
    (forall n, (length bs <= n)%nat -> exists log, rst n ost = Ok (Z.of_nat (length bs), log, ost') /\ writes log bs).
Lemma rgoal_intro : forall rst (oinv : Z -> Prop) ost bs ost', (length bs <= MAXNEED)%nat -> oinv ost' ->
  (forall n, (n < length bs)%nat -> holds (rst n ost) (failing (-2) n ost)) ->
  (forall n, (length bs <= n)%nat -> holds (rst n ost) (giving bs ost')) -> rgoal rst oinv ost.
Proof.
  intros rst oinv ost bs ost' H I A B. exists bs, ost'. split; [exact H|]. split; [exact I|].
  split; intros n Hn; [apply failing_ex|apply giving_ex]; auto.
Qed.

Lemma writes_intro : forall log bs, inb log (length bs) -> log_bytes log 0 (length bs) = bs -> bytes bs -> writes log bs.
Proof.
  intros log bs I E B. split; [exact I|]. intros j b Hj.
  assert (0 <= b). { unfold bytes in B. rewrite Forall_forall in B. apply nth_error_In in Hj. apply B in Hj. unfold byte in Hj. lia. }
  rewrite <- E in Hj. now apply log_bytes_nth in Hj.
Qed.

(** ** Byte ranges *)
Lemma land_byte : forall x m, 0 <= m -> 0 <= Z.land x m <= m.
Proof.
  intros x m H. split; [apply Z.land_nonneg; auto|].
  destruct (Z.eq_dec m 0) as [->|N]; [rewrite Z.land_0_r; lia|].
  apply Z.ldiff_le; [exact H|]. apply Z.bits_inj'. intros n Hn.
  rewrite Z.ldiff_spec, Z.land_spec, Z.bits_0. destruct (Z.testbit x n), (Z.testbit m n); reflexivity.
Qed.
Lemma u8_byte : forall x, 0 <= u8 x < 256.
Proof. intro x. unfold u8. apply Z.mod_pos_bound. lia. Qed.
Ltac zfacts :=
  repeat match goal with
  | |- context [Z.land ?x ?m] => let v := eval vm_compute in (0 <=? m) in lazymatch v with true =>
      lazymatch goal with H : 0 <= Z.land x m <= m |- _ => fail | _ => pose proof (land_byte x m ltac:(lia)) end end
  | |- context [u8 ?x] => lazymatch goal with H : 0 <= u8 x < 256 |- _ => fail | _ => pose proof (u8_byte x) end
  end.
Ltac byte_ifs :=
  repeat match goal with |- context [if ?c then _ else _] => let H := fresh in destruct c eqn:H end;
  rewrite ?Z.shiftr_div_pow2 in * by lia; change (2 ^ 1) with 2 in *; Z.div_mod_to_equations; lia.
Ltac byte_ := unfold byte; first [lia | zfacts; lia | solve [byte_ifs] | lazymatch goal with |- 0 <= ?e < _ => change (rng 8 e); rng_ end].
Ltac bytes_ := repeat first [apply Forall_nil | apply Forall_cons; [byte_|]].
Ltac inb_ := repeat first [apply Forall_nil | apply Forall_cons; [split; [cbn [fst length Nat.add]; lia|cbn [snd]; byte_]|]].

Ltac e_log := cbv [lapp lshift map app fst snd Nat.add wr].
Ltac e_fail := unfold failing; e_log; split; [try reflexivity; lia|split; [unfold inb, wr; inb_|reflexivity]].
Ltac e_give := unfold giving; e_log; split; [try reflexivity; cbn [length]; lia|split; [|reflexivity]];
  apply writes_intro; [unfold inb, wr; cbn [length]; inb_|reflexivity|unfold bytes; bytes_].

(** Unfolding of the encoder (reset function) at hand; set by each file. *)
Ltac e_open := idtac.
Ltac r_open := idtac.

Ltac e_leaf_ill need :=
  apply (egoal_ill _ _ _ _ need); [unfold MAXNEED; lia| |]; intros n Hn; try (exfalso; lia); e_open; sx; e_fail.
Ltac e_leaf_ok bs ost' tac :=
  apply (egoal_ok _ _ _ _ bs ost'); [unfold MAXNEED; cbn [length]; lia|tac|intros n Hn; cbn [length] in Hn; try (exfalso; lia); e_open; sx; e_fail
   |intros n Hn Hl; cbn [length] in Hl; e_open; sx; e_give].
Ltac e_leaf tac :=
  lazymatch goal with
  | |- eleaf ?e ?oinv ?wc ?ost ?c ?l ?ost' =>
    let c' := eval vm_compute in c in
    unfold eleaf;
    lazymatch c' with
    | -1 => first [solve [e_leaf_ill 1%nat] | solve [e_leaf_ill 2%nat] | solve [e_leaf_ill 3%nat] | solve [e_leaf_ill 4%nat] | solve [e_leaf_ill 5%nat] | solve [e_leaf_ill 6%nat]
       | solve [e_leaf_ill 7%nat] | solve [e_leaf_ill 8%nat] | solve [e_leaf_ill 9%nat] | solve [e_leaf_ill 10%nat] | idtac "ill?"]
    | _ => let bs := eval cbv [log_bytes Z.to_nat Pos.to_nat Pos.iter_op Nat.add lfind wr Nat.eqb lapp lshift map app fst snd] in (log_bytes l 0 (Z.to_nat c')) in
           e_leaf_ok bs ost' tac
    end
  end.
Ltac e_probe := apply egoal_probe; e_open; sx.
Ltac e_run tac := e_probe; e_leaf tac.

Definition rleaf (rst : nat -> Z -> res (Z * wlog * Z)) (oinv : Z -> Prop) (ost c : Z) (l : wlog) (ost' : Z) : Prop := rgoal rst oinv ost.
Lemma rgoal_probe : forall rst oinv ost,
  holds (rst 16%nat ost) (fun '(c, l, ost') => rleaf rst oinv ost c l ost') -> rgoal rst oinv ost.
Proof. intros rst oinv ost H. destruct (rst 16%nat ost) as [[[c l] o]| | |]; simpl in H; [exact H|easy..]. Qed.
Ltac r_leaf tac :=
  lazymatch goal with
  | |- rleaf ?rst ?oinv ?ost ?c ?l ?ost' =>
    let c' := eval vm_compute in c in
    unfold rleaf;
    let bs := eval cbv [log_bytes Z.to_nat Pos.to_nat Pos.iter_op Nat.add lfind wr Nat.eqb] in (log_bytes l 0 (Z.to_nat c')) in
    apply (rgoal_intro _ _ _ bs ost'); [unfold MAXNEED; cbn [length]; lia|tac|intros n Hn; cbn [length] in Hn; try (exfalso; lia); r_open; sx; e_fail
     |intros n Hn; cbn [length] in Hn; r_open; sx; e_give]
  end.
Ltac r_run tac := apply rgoal_probe; r_open; sx; r_leaf tac.

(** The whole contract. *)
Lemma enc_ok_intro : forall e (oinv : Z -> Prop), oinv 0 -> (forall ost wc, oinv ost -> ucs4 wc -> egoal e oinv wc ost) ->
  (forall ost, oinv ost -> match f_reset e with None => True | Some rst => rgoal rst oinv ost end) -> enc_ok e oinv ucs4.
Proof. intros e oinv H A B. constructor; auto. Qed.

(** ** Running an encoder in every state of a list *)
Ltac in_ := solve [vm_compute; reflexivity].
Ltac st_ := repeat match goal with H : _ \/ _ |- _ => destruct H as [<-|H] end; try contradiction.
Ltac enc_go :=
  apply enc_ok_intro; [in_| |];
  [ let ost := fresh in let wc := fresh "wc" in let O := fresh "O" in let U := fresh "U" in intros ost wc O U; let U' := fresh in pose proof U as U'; unfold ucs4 in U'; apply mem_In in O; cbn [In] in O; st_; e_run in_
  | let ost := fresh in let O := fresh "O" in intros ost O; apply mem_In in O; cbn [In] in O; cbv [f_reset]; st_; r_run in_ ].

(** ** Leaf functions that produce at most k bytes, each at most hi *)
(** Outcomes of a charset function: nothing, or bs written in increasing order. *)
Fixpoint logof (o : nat) (bs : list Z) (acc : wlog) : wlog :=
  match bs with [] => acc | b :: bs => logof (S o) bs ((o, b) :: acc) end.
Definition leaf_ok (k : nat) (ok : list Z -> bool) (m : res (Z * wlog)) : bool :=
  match m with
  | Ok (c, l) => if c =? -1 then match l with [] => true | _ => false end
      else (c =? Z.of_nat k) && let bs := log_bytes l 0 k in
           match l, bs with
           | [(O, _)], [a] => ok bs
           | [(S O, _); (O, _)], [a; b] => ok bs
           | [(S (S O), _); (S O, _); (O, _)], [a; b; c] => ok bs
           | _, _ => false
           end
  | _ => false
  end.
Lemma leaf_ok_sound : forall k ok m, leaf_ok k ok m = true ->
  m = Ok (-1, []) \/
  match k with
  | 1%nat => exists a, ok [a] = true /\ m = Ok (1, [(0%nat, a)])
  | 2%nat => exists a b, ok [a; b] = true /\ m = Ok (2, [(1%nat, b); (0%nat, a)])
  | 3%nat => exists a b c, ok [a; b; c] = true /\ m = Ok (3, [(2%nat, c); (1%nat, b); (0%nat, a)])
  | _ => False
  end.
Proof.
  intros k ok [[c l]| | |] H; try discriminate. cbn in H. destruct (Z.eqb_spec c (-1)) as [->|N].
  - left. destruct l; [reflexivity|discriminate].
  - right. apply andb_true_iff in H. destruct H as [A B]. apply Z.eqb_eq in A. subst c.
    destruct l as [|[[|[|[|o1]]] v1] [|[[|[|[|o2]]] v2] [|[[|[|[|o3]]] v3] [|? ?]]]]; try discriminate B;
    destruct k as [|[|[|[|k]]]]; cbn in B; try discriminate B; eauto.
Qed.

(** hi-bounded bytes. *)
Definition inr (lo hi : Z) (bs : list Z) : bool := forallb (fun b => (lo <=? b) && (b <=? hi)) bs.
Definition leaf_all (f : Z -> res (Z * wlog)) (k : nat) (ok : list Z -> bool) (N : nat) : bool :=
  upto N (fun b => allp 16 b (fun wc => leaf_ok k ok (f wc))).
Lemma leaf_all_sound : forall f k ok N, leaf_all f k ok N = true ->
  (forall wc, ucs4 wc -> Z.of_nat N * 65536 <= wc -> f wc = Ok (-1, [])) ->
  forall wc, ucs4 wc -> leaf_ok k ok (f wc) = true.
Proof.
  intros f k ok N H B wc U. destruct (Z.lt_ge_cases wc (Z.of_nat N * 65536)) as [L|L].
  - unfold leaf_all in H. assert (Q : 0 <= wc / 65536 < Z.of_nat N).
    { unfold ucs4 in U. split; [apply Z.div_pos; lia|]. apply Z.div_lt_upper_bound; lia. }
    pose proof (upto_sound _ _ H (wc / 65536) Q) as A. cbv beta in A.
    apply (allp_sound _ _ _ A). change (2 ^ Z.of_nat 16) with 65536. pose proof (Z.div_mod wc 65536 ltac:(lia)). pose proof (Z.mod_pos_bound wc 65536 ltac:(lia)). lia.
  - rewrite B by auto. reflexivity.
Qed.
