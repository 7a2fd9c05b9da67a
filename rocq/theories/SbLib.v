(** Encoders that write one byte whatever the room, stepped through with the ranges of their tables. *)
From Coq Require Import ZArith List Bool Lia.
From Verif Require Import Base Loop Contract LoopLib Reflect Sx EncLib DecLib TabLib Conv_uni Encodings.
Import ListNotations.
Open Scope Z_scope.

Lemma leaf_holds : forall k ok m, holds m (fun x => leaf_ok k ok (Ok x) = true) -> leaf_ok k ok m = true.
Proof. intros k ok [x| | |] H; simpl in H; [exact H|easy..]. Qed.
Lemma leaf_none : forall k ok, leaf_ok k ok (Ok (-1, [])) = true.
Proof. reflexivity. Qed.
Lemma leaf_one : forall lo hi a, lo <= a <= hi -> leaf_ok 1 (inr lo hi) (Ok (1, [(0%nat, a)])) = true.
Proof. intros lo hi a H. cbn. rewrite (proj2 (Z.leb_le lo a)), (proj2 (Z.leb_le a hi)) by lia. reflexivity. Qed.
Lemma leaf_two : forall lo hi a b, lo <= a <= hi -> lo <= b <= hi -> leaf_ok 2 (inr lo hi) (Ok (2, [(1%nat, b); (0%nat, a)])) = true.
Proof. intros lo hi a b H K. cbn. rewrite (proj2 (Z.leb_le lo a)), (proj2 (Z.leb_le a hi)), (proj2 (Z.leb_le lo b)), (proj2 (Z.leb_le b hi)) by lia. reflexivity. Qed.

Lemma enc1_intro : forall e f, f_wc e = wc0 f -> f_reset e = None -> (forall wc n, (1 <= n)%nat -> f wc n = f wc 1%nat) ->
  (forall wc, ucs4 wc -> leaf_ok 1 (inr 0 255) (f wc 1%nat) = true) -> enc_ok e oinv0 ucs4.
Proof.
  intros e f E R N H. apply enc_ok_intro; [reflexivity| |intros ost _; rewrite R; exact I].
  intros ost wc O U. destruct (leaf_ok_sound _ _ _ (H wc U)) as [L|(a & A & L)].
  - apply (egoal_ill _ _ _ _ 1%nat); [unfold MAXNEED; lia|intros n Hn; lia|]. intros n Hn. rewrite E. unfold wc0. rewrite N, L by lia.
    split; [reflexivity|split; [constructor|reflexivity]].
  - cbn in A. rewrite !andb_true_iff, !Z.leb_le in A. apply (egoal_ok _ _ _ _ [a] ost); [unfold MAXNEED; cbn; lia|exact O|cbn; intros n Hn; lia|].
    intros n Hn _. rewrite E. unfold wc0. rewrite N, L by lia. split; [reflexivity|split; [|reflexivity]].
    apply writes_intro; [|reflexivity|]; repeat constructor; cbn; lia.
Qed.

(** Table accesses by the known range of the table. *)
Ltac tab_ti t := fail.
Ltac tab_get t i :=
  first
  [ match goal with E : tlookup t i = Some _ |- _ => apply (holds_tget _ _ _ _ _ _ _ E); cbv beta end
  | let H := tab_ti t in let v := fresh "v" in let E := fresh "E" in let R := fresh "R" in
    destruct (H i ltac:(first [sx_arith | zfacts; lia])) as (v & E & R); apply (holds_tget _ _ _ _ _ _ _ E); cbv beta ].
Ltac leaf_end := first [apply leaf_none | apply leaf_one; lia | apply leaf_two; lia].
Ltac enc1 f :=
  apply (enc1_intro _ f); [reflexivity|reflexivity|reflexivity|];
  let wc := fresh "wc" in let U := fresh "U" in intros wc U; unfold ucs4 in U; apply leaf_holds; sx; leaf_end.
Ltac dec1 f := apply dec0_intro with f; [reflexivity..|]; let s := fresh "s" in let B := fresh "B" in d0_open s B; d0_go.

(** ** Encodings without state *)
Lemma oinv0_eq : forall ost, oinv0 ost -> ost = 0.
Proof. intros ost H. apply mem_In in H. destruct H as [<-|[]]. reflexivity. Qed.
Lemma enc0_intro : forall e, f_reset e = None -> (forall wc, ucs4 wc -> egoal e oinv0 wc 0) -> enc_ok e oinv0 ucs4.
Proof.
  intros e R H. apply enc_ok_intro; [reflexivity|intros ost wc O U; apply oinv0_eq in O; subst; auto|].
  intros ost _. rewrite R. exact I.
Qed.
Ltac enc0_go := apply enc0_intro; [reflexivity|]; let wc := fresh "wc" in let U := fresh "U" in
  intros wc U; unfold ucs4 in U; e_run in_.
Ltac more := match goal with B : bytes ?tl |- _ => is_var tl; name_byte tl B end.
Ltac open2 := let s := fresh "s" in let B := fresh "B" in d0_open s B; [more].
Ltac open4 := open2; [|more; [|more]].
