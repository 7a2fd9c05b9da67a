(** BIG5-HKSCS reads back what was written: the encodings. *)
From Coq Require Import ZArith List Bool Lia.
From Verif Require Import Base Loop Contract LoopLib Reflect Sx Rng EncLib DecLib Spec SpecProps TabLib SbLib Leaf CharLib UniSpec UniProps Round Unroll RtLib RtHold.
From Verif Require Import Conv_uni Conv_sb Conv_set_ja Conv_set_zh Conv_set_ko Conv_cjk Encodings DLeaf DCjk CjkLib Ok_held Ok_hkscs Rt_hkscs.
Import ListNotations.
Open Scope Z_scope.

(** What is written for c when nothing is held back. *)
Definition hk_fresh (f : funcs) (c k : Z) (l : wlog) (o : Z) : Prop :=
  k < 0 \/ o = 0 /\ is_char f (log_bytes l 0 (Z.to_nat k)) c 0 = true \/ o <> 0 /\ k = 0 /\ mem hkscs_osts o = true /\ base f o = c.
Lemma hk_fresh_use : forall f c, holds (f_wc f c 16 0) (fun '(k, l, o) => hk_fresh f c k l o) -> fresh1 f hkscs_osts c = true.
Proof.
  intros f c H. unfold fresh1, emit. destruct (f_wc f c 16%nat 0) as [[[k l] o]| | |]; cbn in H; try contradiction. unfold hk_fresh in H.
  destruct (Z.ltb_spec k 0); [reflexivity|]. destruct H as [H|[(-> & H)|(N & -> & M & B)]]; [lia|exact H|].
  destruct (Z.eqb_spec o 0); [contradiction|]. cbn [Z.to_nat log_bytes]. rewrite M, B. apply Z.eqb_refl.
Qed.
(** The same character with and without one held back. *)
Definition hk_same (pre : list Z) (k : Z) (l : wlog) (o : Z) (k0 : Z) (l0 : wlog) (o0 : Z) : Prop :=
  k < 0 \/ 0 <= k0 /\ o = o0 /\ log_bytes l 0 (Z.to_nat k) = pre ++ log_bytes l0 0 (Z.to_nat k0).
Lemma hk_same_use : forall f c o bs o' pre, holds (f_wc f c 16 o) (fun '(k, l, o1) => holds (f_wc f c 16 0) (fun '(k0, l0, o0) => hk_same pre k l o1 k0 l0 o0)) ->
  emit f c o = Some (bs, o') -> exists bs0, emit f c 0 = Some (bs0, o') /\ bs = pre ++ bs0.
Proof.
  intros f c o bs o' pre H E. unfold emit in *. destruct (f_wc f c 16%nat o) as [[[k l] o1]| | |]; cbn in H; try contradiction.
  destruct (f_wc f c 16%nat 0) as [[[k0 l0] o0]| | |]; cbn in H; try contradiction. unfold hk_same in H. destruct (Z.ltb_spec k 0); [discriminate|].
  injection E as <- <-. destruct H as [H|(A & -> & ->)]; [lia|]. destruct (Z.ltb_spec k0 0); [lia|]. eauto.
Qed.
(** The two combining marks make a pair with the letter held back. *)
Definition hk_pairs (f : funcs) : bool :=
  forallb (fun o => forallb (fun c => match emit f c o with Some (bs, o') => (o' =? 0) && is_char f bs (base f o) c | None => true end) [0x304; 0x30c]) [0x66; 0xa7].
Lemma hk_next : forall f c o bs o', (c <> 0x304 -> c <> 0x30c -> holds (f_wc f c 16 o) (fun '(k, l, o1) => holds (f_wc f c 16 0) (fun '(k0, l0, o0) => hk_same (closing f o) k l o1 k0 l0 o0))) ->
  hk_pairs f = true -> mem hkscs_osts o = true -> o <> 0 -> emit f c o = Some (bs, o') ->
  (exists bs0, emit f c 0 = Some (bs0, o') /\ bs = closing f o ++ bs0) \/ (o' = 0 /\ mem hkscs_sts c = true /\ c <> 0 /\ is_char f bs (base f o) c = true).
Proof.
  intros f c o bs o' S H M N E. destruct (Z.eq_dec c 0x304) as [->|N1]; [|destruct (Z.eq_dec c 0x30c) as [->|N2]].
  1, 2: right; apply mem_In in M; unfold hkscs_osts in M; cbn [In] in M; unfold hk_pairs in H; rewrite forallb_forall in H;
    assert (I : In o [0x66; 0xa7]) by (destruct M as [<-|[<-|[<-|[]]]]; [congruence|cbn; auto|cbn; auto]); specialize (H o I); cbv beta in H; rewrite forallb_forall in H.
  1: specialize (H 0x304 ltac:(cbn; auto)). 2: specialize (H 0x30c ltac:(cbn; auto)).
  1, 2: cbv beta in H; rewrite E in H; apply andb_true_iff in H; destruct H as (A & B); apply Z.eqb_eq in A; repeat split; [exact A|lia|exact B].
  left. eapply hk_same_use; eauto.
Qed.
Ltac hk_use L P b wc :=
  let E := fresh "E" in let R := fresh "R" in let x := fresh "a" in let y := fresh "b" in let Q := fresh "Q" in
  first [match goal with E : ?g wc 2%nat = Ok _ |- holds (bind (?g wc 2%nat) _) _ => apply (holds_of _ _ _ _ _ E); cbv beta iota end |
  destruct (leaf_ok_sound _ _ _ (L wc ltac:(assumption))) as [E|(x & y & R & E)];
  [|apply inr2 in R; destruct R; pose proof (part_use _ _ _ _ _ _ (P wc ltac:(assumption)) E) as Q];
  apply (holds_of _ _ _ _ _ E); cbv beta iota].
Ltac hk_c m L P wc := first [closedZ wc; hk_run m | match goal with H : Z.land wc 0xffffffdf <> 0xca |- _ => idtac end; hk_use L P true wc
  | let E := fresh "W" in destruct (hk_cases wc ltac:(assumption)) as [E|[E|E]]; [subst wc|subst wc|]].
Ltac sx_call m ::=
  lazymatch m with
  | big5_wctomb ?wc _ => hk_c m leaf_big5 part_big5 wc
  | hkscs1999_wctomb ?wc _ => hk_c m leaf_hkscs1999 part_hkscs1999 wc
  | hkscs2001_wctomb ?wc _ => hk_c m leaf_hkscs2001 part_hkscs2001 wc
  | hkscs2004_wctomb ?wc _ => hk_c m leaf_hkscs2004 part_hkscs2004 wc
  | hkscs2008_wctomb ?wc _ => hk_c m leaf_hkscs2008 part_hkscs2008 wc
  | _ => fail
  end.
Lemma hk_ascii : forall f c, iv_all 128 0 (fun c => is_char f [c] c 0) = true -> 0 <= c < 128 -> is_char f [c] c 0 = true.
Proof. intros f c H R. exact (iv_all_sound _ _ _ H c ltac:(lia)). Qed.
Ltac hk_in := unfold hkscs_from; cbn [Z.leb Z.compare Pos.compare Pos.compare_cont app In]; auto 6.
Ltac hk_end :=
  lazymatch goal with
  | |- hk_fresh ?f ?c (-1) _ _ => left; reflexivity
  | |- hk_fresh ?f ?c (0 + 0) _ _ => right; right; split; [discriminate|]; split; [reflexivity|]; split; vm_compute; reflexivity
  | |- hk_fresh ?f ?c (0 + 1) _ _ => right; left; split; [reflexivity|]; change (is_char f [c] c 0 = true); apply hk_ascii; [vm_cast_no_check (eq_refl true)|lia]
  | Q : _ -> forall g, In g _ -> is_char g [?a; ?b] ?c 0 = true |- hk_fresh ?f ?c (0 + 2) (wr (wr [] 0 ?a) _ ?b) _ =>
    right; left; split; [reflexivity|]; change (is_char f [a; b] c 0 = true); apply Q; [first [reflexivity|lia]|hk_in]
  end.
Ltac hk_two := first [left; reflexivity | right; split; [lia|]; split; reflexivity].

Lemma fresh_big5hkscs1999 : forall c, ucs4 c -> fresh1 enc_big5hkscs1999 hkscs_osts c = true.
Proof.
  intros c U. pose proof U as U'. unfold ucs4 in U'. apply hk_fresh_use. change (f_wc enc_big5hkscs1999) with big5hkscs1999_wctomb. unfold big5hkscs1999_wctomb. sx. all: hk_end.
Qed.
Lemma same_big5hkscs1999 : forall c o, ucs4 c -> mem hkscs_osts o = true -> o <> 0 -> c <> 0x304 -> c <> 0x30c ->
  holds (f_wc enc_big5hkscs1999 c 16 o) (fun '(k, l, o1) => holds (f_wc enc_big5hkscs1999 c 16 0) (fun '(k0, l0, o0) => hk_same (closing enc_big5hkscs1999 o) k l o1 k0 l0 o0)).
Proof.
  intros c o U M N N1 N2. pose proof U as U'. unfold ucs4 in U'. apply mem_In in M. unfold hkscs_osts in M. cbn [In] in M. destruct M as [<-|[<-|[<-|[]]]]; [congruence| |].
  all: change (f_wc enc_big5hkscs1999) with big5hkscs1999_wctomb; unfold big5hkscs1999_wctomb at 1; sx; hk_two.
Qed.
Lemma big5hkscs1999_carries : carries enc_big5hkscs1999 (plain []).
Proof.
  apply (hold_carries enc_big5hkscs1999 (plain []) hkscs_osts hkscs_sts).
  - now intros c (_ & T & _).
  - reflexivity.
  - reflexivity.
  - intros c (S & _). apply fresh_big5hkscs1999. now apply scalar_ucs4.
  - vm_cast_no_check (eq_refl true).
  - vm_cast_no_check (eq_refl true).
  - intros s p N. unfold dec. cbn [fst snd]. change (f_mb enc_big5hkscs1999) with big5hkscs1999_mbtowc. unfold big5hkscs1999_mbtowc. destruct (Z.eqb_spec p 0); [contradiction|reflexivity].
  - exact (proj2 dec_big5hkscs1999).
  - intros c o bs o' (S & _) M N E. apply scalar_ucs4 in S. apply (hk_next enc_big5hkscs1999 c o bs o'); [intros; now apply same_big5hkscs1999|vm_cast_no_check (eq_refl true)|exact M|exact N|exact E].
Qed.

Lemma fresh_big5hkscs2001 : forall c, ucs4 c -> fresh1 enc_big5hkscs2001 hkscs_osts c = true.
Proof.
  intros c U. pose proof U as U'. unfold ucs4 in U'. apply hk_fresh_use. change (f_wc enc_big5hkscs2001) with big5hkscs2001_wctomb. unfold big5hkscs2001_wctomb. sx. all: hk_end.
Qed.
Lemma same_big5hkscs2001 : forall c o, ucs4 c -> mem hkscs_osts o = true -> o <> 0 -> c <> 0x304 -> c <> 0x30c ->
  holds (f_wc enc_big5hkscs2001 c 16 o) (fun '(k, l, o1) => holds (f_wc enc_big5hkscs2001 c 16 0) (fun '(k0, l0, o0) => hk_same (closing enc_big5hkscs2001 o) k l o1 k0 l0 o0)).
Proof.
  intros c o U M N N1 N2. pose proof U as U'. unfold ucs4 in U'. apply mem_In in M. unfold hkscs_osts in M. cbn [In] in M. destruct M as [<-|[<-|[<-|[]]]]; [congruence| |].
  all: change (f_wc enc_big5hkscs2001) with big5hkscs2001_wctomb; unfold big5hkscs2001_wctomb at 1; sx; hk_two.
Qed.
Lemma big5hkscs2001_carries : carries enc_big5hkscs2001 (plain []).
Proof.
  apply (hold_carries enc_big5hkscs2001 (plain []) hkscs_osts hkscs_sts).
  - now intros c (_ & T & _).
  - reflexivity.
  - reflexivity.
  - intros c (S & _). apply fresh_big5hkscs2001. now apply scalar_ucs4.
  - vm_cast_no_check (eq_refl true).
  - vm_cast_no_check (eq_refl true).
  - intros s p N. unfold dec. cbn [fst snd]. change (f_mb enc_big5hkscs2001) with big5hkscs2001_mbtowc. unfold big5hkscs2001_mbtowc. destruct (Z.eqb_spec p 0); [contradiction|reflexivity].
  - exact (proj2 dec_big5hkscs2001).
  - intros c o bs o' (S & _) M N E. apply scalar_ucs4 in S. apply (hk_next enc_big5hkscs2001 c o bs o'); [intros; now apply same_big5hkscs2001|vm_cast_no_check (eq_refl true)|exact M|exact N|exact E].
Qed.

Lemma fresh_big5hkscs2004 : forall c, ucs4 c -> fresh1 enc_big5hkscs2004 hkscs_osts c = true.
Proof.
  intros c U. pose proof U as U'. unfold ucs4 in U'. apply hk_fresh_use. change (f_wc enc_big5hkscs2004) with big5hkscs2004_wctomb. unfold big5hkscs2004_wctomb. sx. all: hk_end.
Qed.
Lemma same_big5hkscs2004 : forall c o, ucs4 c -> mem hkscs_osts o = true -> o <> 0 -> c <> 0x304 -> c <> 0x30c ->
  holds (f_wc enc_big5hkscs2004 c 16 o) (fun '(k, l, o1) => holds (f_wc enc_big5hkscs2004 c 16 0) (fun '(k0, l0, o0) => hk_same (closing enc_big5hkscs2004 o) k l o1 k0 l0 o0)).
Proof.
  intros c o U M N N1 N2. pose proof U as U'. unfold ucs4 in U'. apply mem_In in M. unfold hkscs_osts in M. cbn [In] in M. destruct M as [<-|[<-|[<-|[]]]]; [congruence| |].
  all: change (f_wc enc_big5hkscs2004) with big5hkscs2004_wctomb; unfold big5hkscs2004_wctomb at 1; sx; hk_two.
Qed.
Lemma big5hkscs2004_carries : carries enc_big5hkscs2004 (plain []).
Proof.
  apply (hold_carries enc_big5hkscs2004 (plain []) hkscs_osts hkscs_sts).
  - now intros c (_ & T & _).
  - reflexivity.
  - reflexivity.
  - intros c (S & _). apply fresh_big5hkscs2004. now apply scalar_ucs4.
  - vm_cast_no_check (eq_refl true).
  - vm_cast_no_check (eq_refl true).
  - intros s p N. unfold dec. cbn [fst snd]. change (f_mb enc_big5hkscs2004) with big5hkscs2004_mbtowc. unfold big5hkscs2004_mbtowc. destruct (Z.eqb_spec p 0); [contradiction|reflexivity].
  - exact (proj2 dec_big5hkscs2004).
  - intros c o bs o' (S & _) M N E. apply scalar_ucs4 in S. apply (hk_next enc_big5hkscs2004 c o bs o'); [intros; now apply same_big5hkscs2004|vm_cast_no_check (eq_refl true)|exact M|exact N|exact E].
Qed.

Lemma fresh_big5hkscs2008 : forall c, ucs4 c -> fresh1 enc_big5hkscs2008 hkscs_osts c = true.
Proof.
  intros c U. pose proof U as U'. unfold ucs4 in U'. apply hk_fresh_use. change (f_wc enc_big5hkscs2008) with big5hkscs2008_wctomb. unfold big5hkscs2008_wctomb. sx. all: hk_end.
Qed.
Lemma same_big5hkscs2008 : forall c o, ucs4 c -> mem hkscs_osts o = true -> o <> 0 -> c <> 0x304 -> c <> 0x30c ->
  holds (f_wc enc_big5hkscs2008 c 16 o) (fun '(k, l, o1) => holds (f_wc enc_big5hkscs2008 c 16 0) (fun '(k0, l0, o0) => hk_same (closing enc_big5hkscs2008 o) k l o1 k0 l0 o0)).
Proof.
  intros c o U M N N1 N2. pose proof U as U'. unfold ucs4 in U'. apply mem_In in M. unfold hkscs_osts in M. cbn [In] in M. destruct M as [<-|[<-|[<-|[]]]]; [congruence| |].
  all: change (f_wc enc_big5hkscs2008) with big5hkscs2008_wctomb; unfold big5hkscs2008_wctomb at 1; sx; hk_two.
Qed.
Lemma big5hkscs2008_carries : carries enc_big5hkscs2008 (plain []).
Proof.
  apply (hold_carries enc_big5hkscs2008 (plain []) hkscs_osts hkscs_sts).
  - now intros c (_ & T & _).
  - reflexivity.
  - reflexivity.
  - intros c (S & _). apply fresh_big5hkscs2008. now apply scalar_ucs4.
  - vm_cast_no_check (eq_refl true).
  - vm_cast_no_check (eq_refl true).
  - intros s p N. unfold dec. cbn [fst snd]. change (f_mb enc_big5hkscs2008) with big5hkscs2008_mbtowc. unfold big5hkscs2008_mbtowc. destruct (Z.eqb_spec p 0); [contradiction|reflexivity].
  - exact (proj2 dec_big5hkscs2008).
  - intros c o bs o' (S & _) M N E. apply scalar_ucs4 in S. apply (hk_next enc_big5hkscs2008 c o bs o'); [intros; now apply same_big5hkscs2008|vm_cast_no_check (eq_refl true)|exact M|exact N|exact E].
Qed.
