(** CP1255, CP1258 and TCVN, whose readers hold back a letter until the next byte tells whether it is composed, read back what was written. *)
From Coq Require Import ZArith List Bool Lia.
From Verif Require Import Base Loop Contract LoopLib Reflect Sx Rng EncLib DecLib Spec SpecProps Leaf CharLib UniSpec Round Unroll RtLib RtHold.
From Verif Require Import Conv_uni Conv_sb Encodings Ok_sbst.
Import ListNotations.
Open Scope Z_scope.

Section COMB.
(** [dsts]: the states of the reader, each but 0 is the character held back; [drop]: the composing marks, and what is not written as itself. *)
Variables (f : funcs) (dsts drop : list Z).
(** What the reader makes of some bytes, one at a time, when no character comes out without a byte going in. *)
Fixpoint run (bs : list Z) (i : Z * Z) : option (list Z * (Z * Z)) :=
  match bs with
  | [] => Some ([], i)
  | b :: r => match dec f [b] i with
    | Some (DChar 1 c i') => match run r i' with Some (cs, j) => Some (c :: cs, j) | None => None end
    | Some (DFew 1 i') => run r i'
    | _ => None end
  end.
(** b is not composed with anything held back. *)
Definition starts (b : Z) : bool := forallb (fun d => if d =? 0 then true else
  match dec f [b] (d, 0) with Some (DChar 0 c (ist, ibo)) => if c =? d then (if ist =? 0 then ibo =? 0 else false) else false | _ => false end) dsts.
Definition alone (c : Z) (bs : list Z) : bool :=
  match run bs (0, 0) with
  | Some ([d], (ist, ibo)) => if d =? c then (if ist =? 0 then ibo =? 0 else false) else false
  | Some ([], (ist, ibo)) => if ist =? c then (if c =? 0 then false else if mem dsts c then ibo =? 0 else false) else false
  | _ => false end.
Definition comb1 (c : Z) : bool :=
  if mem drop c then true else match emit f c 0 with
  | None => true
  | Some (b :: r, o) => if o =? 0 then (if starts b then alone c (b :: r) else false) else false
  | _ => false end.

Hypothesis D0 : mem dsts 0 = true.
Hypothesis DEC1 : forall b t i, dec f (b :: t) i = dec f [b] i.
Hypothesis HELD : forallb (fun d => match held f d with [] => d =? 0 | [c] => if d =? 0 then false else c =? d | _ => false end) dsts = true.
Hypothesis CLOSE : closing f 0 = [].
Hypothesis ALL : forall c, scalar c = true -> comb1 c = true.

Lemma run_takes : forall bs i cs j t u skip, run bs i = Some (cs, j) -> takes f u skip (bs ++ t) i cs t j.
Proof.
  induction bs as [|b bs IH]; intros i cs j t u skip H; cbn [run] in H.
  - injection H as <- <-. apply takes_none.
  - cbn [app]. destruct (dec f [b] i) as [[k c i'|k i'|k i']|] eqn:D; try discriminate.
    + destruct k as [|[|k]]; try discriminate. destruct (run bs i') as [(cs', j')|] eqn:R; [|discriminate]. injection H as <- <-.
      eapply takes_char; [discriminate|rewrite DEC1; exact D|]. cbn [skipn]. now apply IH.
    + destruct k as [|[|k]]; try discriminate. eapply takes_shift; [discriminate|rewrite DEC1; exact D|]. cbn [skipn]. now apply IH.
Qed.
Lemma starts_takes : forall b s d u skip, starts b = true -> mem dsts d = true -> takes f u skip (b :: s) (d, 0) (some d d) (b :: s) (0, 0).
Proof.
  intros b s d u skip H M. unfold some. unfold starts in H. rewrite forallb_forall in H. specialize (H d (proj1 (mem_In _ _) M)). cbv beta in H.
  destruct (Z.eqb_spec d 0) as [->|N]; [apply takes_none|].
  destruct (dec f [b] (d, 0)) as [[[|k] c (ist, ibo)| |]|] eqn:D; try discriminate.
  destruct (Z.eqb_spec c d); [|discriminate]. destruct (Z.eqb_spec ist 0); [|discriminate]. apply Z.eqb_eq in H. subst.
  eapply takes_char; [discriminate|rewrite DEC1; exact D|]. cbn [skipn]. apply takes_none.
Qed.
Definition comb_rel (o : Z) (i : Z * Z) (lag : list Z) : Prop := o = 0 /\ mem dsts (fst i) = true /\ snd i = 0 /\ lag = some (fst i) (fst i).
Lemma comb_carries : carries f (plain drop).
Proof.
  apply (lag_carries f (plain drop) comb_rel). constructor.
  - repeat split. exact D0.
  - intros c o i lag (_ & T & _) _ T'. congruence.
  - intros c o bs o' (d, ibo) lag t u skip (S & T & N) (-> & Md & Zi & ->) E B L. cbn [fst snd] in *. subst ibo.
    pose proof (ALL c S) as A. unfold comb1 in A. destruct (mem drop c) eqn:Mc; [apply mem_In in Mc; contradiction|]. rewrite E in A.
    destruct bs as [|b r]; [discriminate|]. destruct (Z.eqb_spec o' 0) as [->|]; [|discriminate]. destruct (starts b) eqn:Sb; [|discriminate].
    unfold alone in A. destruct (run (b :: r) (0, 0)) as [(cs, (ist, ibo))|] eqn:R; [|discriminate].
    pose proof (run_takes _ _ _ _ t u skip R) as T1.
    pose proof (starts_takes b (r ++ t) d u skip Sb Md) as T0. change (b :: r ++ t) with ((b :: r) ++ t) in T0.
    pose proof (takes_app _ _ _ _ _ _ _ _ _ _ _ T0 T1) as T2.
    destruct cs as [|x [|y l]]; [| |discriminate].
    + destruct (Z.eqb_spec ist c) as [->|]; [|discriminate]. destruct (Z.eqb_spec c 0); [discriminate|]. destruct (mem dsts c) eqn:Mc'; [|discriminate]. apply Z.eqb_eq in A. subst ibo.
      exists (c, 0), (some d d ++ []), [c]. split; [repeat split; auto; cbn [fst]; unfold some; destruct (Z.eqb_spec c 0); [contradiction|reflexivity]|].
      split; [exact T2|now rewrite app_nil_r].
    + destruct (Z.eqb_spec x c) as [->|]; [|discriminate]. destruct (Z.eqb_spec ist 0) as [->|]; [|discriminate]. apply Z.eqb_eq in A. subst ibo.
      exists (0, 0), (some d d ++ [c]), []. split; [repeat split; auto|]. split; [exact T2|now rewrite app_nil_r].
  - intros o (d, ibo) lag u skip (-> & Md & Zi & ->) B L. cbn [fst snd] in *. subst ibo. rewrite CLOSE. exists [], (d, 0). split; [constructor|]. cbn [fst].
    pose proof HELD as He. rewrite forallb_forall in He. specialize (He d (proj1 (mem_In _ _) Md)). unfold some. cbv beta in He.
    destruct (held f d) as [|y [|z l]]; [now rewrite He| |discriminate]. destruct (Z.eqb_spec d 0); [discriminate|]. apply Z.eqb_eq in He. now subst.
Qed.
End COMB.

(** The composing marks, and those of the characters that are written as others (U+1FEE as U+0385, U+0340 and U+0341 as U+0300 and U+0301;
    in TCVN, U+00B4 and U+02DC as a space and a mark). *)
Definition marks_cp1258 : list Z := [0x300; 0x301; 0x303; 0x309; 0x323; 0x340; 0x341; 0x1fee].
Definition marks_tcvn : list Z := [0x300; 0x301; 0x303; 0x309; 0x323; 0x340; 0x341; 0xb4; 0x2dc].
Definition marks_cp1255 : list Z := [0x5b4; 0x5b7; 0x5b8; 0x5b9; 0x5bc; 0x5bf; 0x5c1; 0x5c2].
Ltac comb_gap e :=
  unfold comb1; match goal with |- (if ?m then _ else _) = true => destruct m; [reflexivity|] end;
  match goal with |- context [emit ?f ?c 0] => replace (emit f c 0) with (@None (list Z * Z)); [reflexivity|]; symmetry;
    unfold emit; let E := fresh "E" in enough (E : f_wc f c 16%nat 0 = Ok (-1, [], 0)) by (rewrite E; reflexivity) end;
  unfold e; cbn [f_wc]; unfold wc0; apply holds_eq; sx; try reflexivity.
Lemma cp1258_all : forall c, scalar c = true -> comb1 enc_cp1258 cp1258_sts marks_cp1258 c = true.
Proof.
  intros c S. apply scalar_ucs4 in S. unfold ucs4 in S.
  assert (A : iv_all (Z.to_nat 0x400) 0 (comb1 enc_cp1258 cp1258_sts marks_cp1258) = true) by (vm_cast_no_check (eq_refl true)).
  assert (B : iv_all (Z.to_nat 0x400) 0x1e00 (comb1 enc_cp1258 cp1258_sts marks_cp1258) = true) by (vm_cast_no_check (eq_refl true)).
  destruct (Z_lt_dec c 0x400); [apply (iv_all_sound _ _ _ A); lia|]. clear A.
  destruct (Z_lt_dec c 0x1e00), (Z_lt_dec c 0x2200); [clear B|lia|apply (iv_all_sound _ _ _ B); lia|clear B]; comb_gap enc_cp1258.
Qed.
Lemma tcvn_all : forall c, scalar c = true -> comb1 enc_tcvn tcvn_sts marks_tcvn c = true.
Proof.
  intros c S. apply scalar_ucs4 in S. unfold ucs4 in S.
  assert (A : iv_all (Z.to_nat 0x400) 0 (comb1 enc_tcvn tcvn_sts marks_tcvn) = true) by (vm_cast_no_check (eq_refl true)).
  assert (B : iv_all (Z.to_nat 0x400) 0x1e00 (comb1 enc_tcvn tcvn_sts marks_tcvn) = true) by (vm_cast_no_check (eq_refl true)).
  destruct (Z_lt_dec c 0x400); [apply (iv_all_sound _ _ _ A); lia|]. clear A.
  destruct (Z_lt_dec c 0x1e00), (Z_lt_dec c 0x2200); [clear B|lia|apply (iv_all_sound _ _ _ B); lia|clear B]; comb_gap enc_tcvn.
Qed.
Lemma cp1255_all : forall c, scalar c = true -> comb1 enc_cp1255 cp1255_sts marks_cp1255 c = true.
Proof.
  intros c S. apply scalar_ucs4 in S. unfold ucs4 in S.
  assert (A : iv_all (Z.to_nat 0x600) 0 (comb1 enc_cp1255 cp1255_sts marks_cp1255) = true) by (vm_cast_no_check (eq_refl true)).
  assert (B : iv_all (Z.to_nat 0x300) 0x2000 (comb1 enc_cp1255 cp1255_sts marks_cp1255) = true) by (vm_cast_no_check (eq_refl true)).
  assert (C : iv_all (Z.to_nat 0x100) 0xfb00 (comb1 enc_cp1255 cp1255_sts marks_cp1255) = true) by (vm_cast_no_check (eq_refl true)).
  destruct (Z_lt_dec c 0x600); [apply (iv_all_sound _ _ _ A); lia|]. clear A.
  destruct (Z_lt_dec c 0x2000), (Z_lt_dec c 0x2300); [clear B C|lia|apply (iv_all_sound _ _ _ B); lia|clear B].
  - comb_gap enc_cp1255.
  - destruct (Z_lt_dec c 0xfb00), (Z_lt_dec c 0xfc00); [clear C|lia|apply (iv_all_sound _ _ _ C); lia|clear C]; comb_gap enc_cp1255.
Qed.
Lemma cp1258_carries : carries enc_cp1258 (plain marks_cp1258).
Proof. apply (comb_carries enc_cp1258 cp1258_sts marks_cp1258); [reflexivity|reflexivity|vm_cast_no_check (eq_refl true)|reflexivity|exact cp1258_all]. Qed.
Lemma tcvn_carries : carries enc_tcvn (plain marks_tcvn).
Proof. apply (comb_carries enc_tcvn tcvn_sts marks_tcvn); [reflexivity|reflexivity|vm_cast_no_check (eq_refl true)|reflexivity|exact tcvn_all]. Qed.
Lemma cp1255_carries : carries enc_cp1255 (plain marks_cp1255).
Proof. apply (comb_carries enc_cp1255 cp1255_sts marks_cp1255); [reflexivity|reflexivity|vm_cast_no_check (eq_refl true)|reflexivity|exact cp1255_all]. Qed.
