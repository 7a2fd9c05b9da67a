(** Decoder contracts of the multi-byte encodings in which some codes stand for two characters, the second of
    which is held back until the next call: BIG5-HKSCS, EUC-JISX0213, Shift_JISX0213. *)
From Coq Require Import ZArith List Bool Lia.
From Verif Require Import Base Loop Contract LoopLib Reflect Sx Rng EncLib DecLib TabLib SbLib.
From Verif Require Import TabIn_sb TabIn_cjk.
From Verif Require Import Conv_uni Conv_sb Conv_set_ja Conv_set_zh Conv_set_ko Conv_cjk Encodings DLeaf DCjk JLeaf Ok_sbst.
Import ListNotations.
Open Scope Z_scope.

Section HELD.
Variables (e : funcs) (unit : nat) (stl : list Z).
(** The decoder on s in the initial state; a character may leave a held back one behind. *)
Definition hdat (s : list Z) (d : d0res) (st : Z) : Prop :=
  holds (f_mb e s (length s) 0 0) (fun '(c, w, a, b) => c = d0ret d /\ b = 0 /\
    match d with D0Char _ wc => w = Some wc /\ a = st | _ => a = 0 end).
Definition hdgoal (s : list Z) : Prop :=
  exists d st, d0ok unit s d /\ mem stl st = true /\ hdat s d st /\ (d <> D0Few -> forall t, hdat (s ++ t) d st).
Definition hdleaf (s : list Z) (c : Z) (w : option Z) (a : Z) : Prop := hdgoal s.
Lemma hd_probe : forall s, holds (f_mb e s (length s) 0 0) (fun '(c, w, a, b) => hdleaf s c w a) -> hdgoal s.
Proof. intros s H. destruct (f_mb e s (length s) 0 0) as [[[[c w] a] b]| | |]; simpl in H; [exact H|easy..]. Qed.
Definition hddres (d : d0res) (st : Z) : dres := match d with D0Char k wc => DChar k wc (st, 0) | D0Few => DFew 0 (0, 0) | D0Ill => DIll 0 (0, 0) end.
Lemma hdat_dec : forall s d st, hdat s d st -> dec e s (0, 0) = Some (hddres d st).
Proof.
  intros s d st H. unfold dec, hdat, holds in *. cbn [fst snd].
  destruct (f_mb e s (length s) 0 0) as [[[[c w] a] b]| | |]; [|contradiction..]. destruct H as (-> & -> & H).
  destruct d as [k wc| |]; cbn [d0ret hddres].
  - destruct H as (-> & ->). rewrite view_char, Nat2Z.id by lia. reflexivity.
  - subst a. exact (view_few 0 w 0 0 ltac:(lia)).
  - subst a. exact (view_ill 0 w 0 0 ltac:(lia)).
Qed.

Hypothesis M0 : mem stl 0 = true.
Hypothesis U : forallb (fun st => (0 <=? st) && (st <? 0x100000000)) stl = true.
Hypothesis PEND : forall s n st, (st =? 0) = false -> f_mb e s n st 0 = Ok (0, Some st, 0, 0).
Hypothesis RUN : forall s, s <> [] -> bytes s -> hdgoal s.
Hypothesis FL : flush_ok (f_flush e) stl = true.

Lemma pend_dec : forall s st, (st =? 0) = false -> dec e s (st, 0) = Some (DChar 0 st (0, 0)).
Proof. intros s st H. unfold dec. cbn [fst snd]. rewrite PEND by exact H. reflexivity. Qed.
Lemma stl_ucs4 : forall st, mem stl st = true -> ucs4 st.
Proof. intros st H. apply mem_In in H. rewrite forallb_forall in U. specialize (U _ H). apply andb_true_iff in U. destruct U as [A B]. apply Z.leb_le in A. apply Z.ltb_lt in B. unfold ucs4. lia. Qed.

Lemma held_intro : dec_ok e unit (dfin (mem stl)) (dpend nz) ucs4 /\ dec_stable e (dfin (mem stl)).
Proof.
  split; constructor.
  - split; [exact M0|reflexivity].
  - intros i [A B]. split; [exact M0|exact B].
  - reflexivity.
  - intros s [st b] [A B] S Bs _. cbn [fst snd] in A, B. subst b. destruct (st =? 0) eqn:Z0.
    + apply Z.eqb_eq in Z0. subst st. destruct (RUN s S Bs) as (d & st & O & M & D & _). exists (hddres d st). split; [now apply hdat_dec|].
      destruct d as [k wc| |]; cbn [hddres dres_ok d0ok fst snd] in *.
      * destruct O as [O1 O2]. unfold dfin, dpend. cbn [fst snd]. split; [lia|]. split; [exact O2|]. split; [now split|]. split; [now split|]. split; [reflexivity|]. intros; exfalso; lia.
      * unfold dfin. cbn. repeat split; try assumption; lia.
      * unfold dfin. cbn. repeat split; try assumption; lia.
    + exists (DChar 0 st (0, 0)). split; [now apply pend_dec|]. cbn [dres_ok fst snd]. unfold dfin, dpend, nz. cbn [fst snd]. rewrite Z0.
      repeat split; try assumption; try lia; now apply stl_ucs4.
  - intros [ist ibo] [I O]. cbn in I, O. subst ibo. cbn [fst snd]. unfold flush_ok in FL. destruct (f_flush e) as [fl|]; [|exact Logic.I].
    rewrite forallb_forall in FL. specialize (FL ist (proj1 (mem_In _ _) I)).
    destruct (fl ist) as [[[b w] ist']| | |]; try discriminate. apply andb_true_iff in FL. destruct FL as [M1 HF].
    exists b, w, ist'. split; [reflexivity|]. split; [split; [exact M1|reflexivity]|].
    destruct (Z.eqb_spec b 0).
    + apply Z.eqb_eq in HF. subst ist'. split; [auto|congruence].
    + destruct w as [wc|]; [|discriminate]. rewrite !andb_true_iff in HF. destruct HF as [[A B] C].
      split; [congruence|]. intros _. exists wc. split; [reflexivity|].
      apply Z.leb_le in A. apply Z.ltb_lt in B. split; [unfold ucs4; lia|].
      destruct (fl ist') as [[[b2 w2] ist2]| | |]; try discriminate. apply andb_true_iff in C. destruct C as [C1 C2].
      apply Z.eqb_eq in C1. apply Z.eqb_eq in C2. subst. eauto.
  - intros s t [st b] k wc i' [A B] Bs _ _ S D. cbn [fst snd] in A, B. subst b. destruct (st =? 0) eqn:Z0.
    + apply Z.eqb_eq in Z0. subst st. destruct (RUN s S Bs) as (d & st & O & M & H & T). rewrite (hdat_dec _ _ _ H) in D.
      destruct d; try discriminate D. rewrite (hdat_dec _ _ _ (T ltac:(discriminate) t)). exact D.
    + rewrite pend_dec in D |- * by exact Z0. exact D.
  - intros s t [st b] k i' [A B] Bs _ _ S D. cbn [fst snd] in A, B. subst b. destruct (st =? 0) eqn:Z0.
    + apply Z.eqb_eq in Z0. subst st. destruct (RUN s S Bs) as (d & st & O & M & H & T). rewrite (hdat_dec _ _ _ H) in D.
      destruct d; try discriminate D. rewrite (hdat_dec _ _ _ (T ltac:(discriminate) t)). exact D.
    + rewrite pend_dec in D by exact Z0. discriminate D.
  - intros s t [st b] k i' [A B] Bs _ _ S D. cbn [fst snd] in A, B. subst b. destruct (st =? 0) eqn:Z0.
    + apply Z.eqb_eq in Z0. subst st. destruct (RUN s S Bs) as (d & st & O & M & H & T). rewrite (hdat_dec _ _ _ H) in D.
      destruct d; discriminate D.
    + rewrite pend_dec in D by exact Z0. discriminate D.
  - intros s [st b] k wc i' [A B] Bs _ S D. cbn [fst snd] in A, B |- *. subst b. destruct (st =? 0) eqn:Z0.
    + apply Z.eqb_eq in Z0. subst st. destruct (RUN s S Bs) as (d & st & O & M & H & T). pose proof D as D'. rewrite (hdat_dec _ _ _ H) in D.
      destruct d; try discriminate D. injection D as -> -> <-. exact D'.
    + pose proof D as D'. rewrite pend_dec in D by exact Z0. injection D as <- <- <-. exact D'.
  - intros s [st b] k i' [A B] Bs _ S D. cbn [fst snd] in A, B. subst b. destruct (st =? 0) eqn:Z0.
    + apply Z.eqb_eq in Z0. subst st. destruct (RUN s S Bs) as (d & st & O & M & H & T). pose proof D as D'. rewrite (hdat_dec _ _ _ H) in D.
      destruct d; try discriminate D. injection D as <- <-. exact D'.
    + rewrite pend_dec in D by exact Z0. discriminate D.
Qed.
End HELD.

Ltac hd_open := idtac.
Ltac hd_end := cbn [d0ret]; repeat split; reflexivity.
Ltac is_num c := lazymatch c with Zpos ?p => is_ground p | Z0 => idtac end.
Ltac hd_subst := repeat match goal with H : ?x = ?c |- _ => is_var x; is_num c; subst x end.
Ltac hd_leaf :=
  hd_subst;
  lazymatch goal with
  | |- hdleaf ?e ?unit ?stl ?s ?c ?w ?a =>
    let c' := eval vm_compute in c in
    let w := eval cbv [oset] in w in
    unfold hdleaf;
    lazymatch c' with
    | -2 => exists D0Few, 0; split; [exact I|split; [reflexivity|split; [unfold hdat; cbn [length]; hd_open; sx; hd_end|let X := fresh in intro X; exfalso; now apply X]]]
    | -1 => exists D0Ill, 0; split; [cbn [d0ok length]; lia|split; [reflexivity|split; [unfold hdat; cbn [length]; hd_open; sx; hd_end|
              let t := fresh "t" in intros _ t; unfold hdat; cbn [app length]; hd_open; sx; hd_end]]]
    | _ => let k := eval vm_compute in (Z.to_nat c') in
           let a' := eval vm_compute in a in
           lazymatch w with Some ?wc => exists (D0Char k wc), a' end; split; [cbn [d0ok length]; split; [lia|sx_ucs4]|split; [reflexivity|split; [unfold hdat; cbn [length]; hd_open; sx; hd_end|
              let t := fresh "t" in intros _ t; unfold hdat; cbn [app length]; hd_open; sx; hd_end]]]
    end
  end.
Ltac hd_go := cbn [length]; apply hd_probe; cbn [length]; hd_open; sx; hd_leaf.
Ltac held := apply held_intro; [reflexivity|reflexivity| | |reflexivity].

Ltac tab_ti t ::= match constr:(tt) with _ => TabIn_cjk.ti_of t | _ => TabIn_sb.ti_of t end.
Ltac sx_pre b ::= u32_in b.
Ltac open3 := open2; [|more].

Definition hkscs_sts : list Z := [0; 0x304; 0x30c].
(** The second halves of the composed characters of JISX 0213. *)
Definition jisx0213_sts : list Z := [0; 0x2e5; 0x2e9; 0x300; 0x301; 0x309a].

Ltac sx_call m ::= djk_call m.
Ltac hd_open ::= change (f_mb enc_big5hkscs1999) with big5hkscs1999_mbtowc.
Lemma dec_big5hkscs1999 : dec_ok enc_big5hkscs1999 1 (dfin (mem hkscs_sts)) (dpend nz) ucs4 /\ dec_stable enc_big5hkscs1999 (dfin (mem hkscs_sts)).
Proof.
  held.
  - intros s n st H. hd_open. unfold big5hkscs1999_mbtowc. rewrite H. reflexivity.
  - open2; hd_go.
Qed.
Ltac hd_open ::= change (f_mb enc_big5hkscs2001) with big5hkscs2001_mbtowc.
Lemma dec_big5hkscs2001 : dec_ok enc_big5hkscs2001 1 (dfin (mem hkscs_sts)) (dpend nz) ucs4 /\ dec_stable enc_big5hkscs2001 (dfin (mem hkscs_sts)).
Proof.
  held.
  - intros s n st H. hd_open. unfold big5hkscs2001_mbtowc. rewrite H. reflexivity.
  - open2; hd_go.
Qed.
Ltac hd_open ::= change (f_mb enc_big5hkscs2004) with big5hkscs2004_mbtowc.
Lemma dec_big5hkscs2004 : dec_ok enc_big5hkscs2004 1 (dfin (mem hkscs_sts)) (dpend nz) ucs4 /\ dec_stable enc_big5hkscs2004 (dfin (mem hkscs_sts)).
Proof.
  held.
  - intros s n st H. hd_open. unfold big5hkscs2004_mbtowc. rewrite H. reflexivity.
  - open2; hd_go.
Qed.
Ltac hd_open ::= change (f_mb enc_big5hkscs2008) with big5hkscs2008_mbtowc.
Lemma dec_big5hkscs2008 : dec_ok enc_big5hkscs2008 1 (dfin (mem hkscs_sts)) (dpend nz) ucs4 /\ dec_stable enc_big5hkscs2008 (dfin (mem hkscs_sts)).
Proof.
  held.
  - intros s n st H. hd_open. unfold big5hkscs2008_mbtowc. rewrite H. reflexivity.
  - open2; hd_go.
Qed.

(** Codes of JISX 0213: none, one character, or two characters. *)
Ltac j213_step r c :=
  first
  [ match goal with E : jisx0213_to_ucs4 r c = Ok _ |- _ => eapply holds_same; [exact E|]; apply holds_ok; cbv beta end
  | let v := fresh "v" in let E := fresh "E" in let V := fresh "V" in let w1 := fresh "w" in let w2 := fresh "w" in
    let E1 := fresh "E" in let E2 := fresh "E" in let R1 := fresh "R" in let R2 := fresh "R" in let P := fresh "P" in
    destruct (j213_row r c) as (v & E & [V|[V|(V & P & w1 & w2 & E1 & E2 & R1 & R2)]]);
    [ subst v | | clear P; cbn [In jp3_halves] in R2; repeat (destruct R2 as [R2|R2]; [subst w2|]); [..|contradiction R2] ];
    (eapply holds_same; [exact E|]); apply holds_ok; cbv beta ].
Ltac sx_call m ::=
  lazymatch m with
  | jisx0213_to_ucs4 ?r ?c => j213_step r c
  | tget ?t ?i _ => match goal with E : tlookup t i = Some _ |- _ => apply (holds_tget _ _ _ _ _ _ _ E); cbv beta end
  end.
Ltac hd_open ::= change (f_mb enc_euc_jisx0213) with euc_jisx0213_mbtowc.
Lemma dec_euc_jisx0213 : dec_ok enc_euc_jisx0213 1 (dfin (mem jisx0213_sts)) (dpend nz) ucs4 /\ dec_stable enc_euc_jisx0213 (dfin (mem jisx0213_sts)).
Proof.
  held.
  - intros s n st H. hd_open. unfold euc_jisx0213_mbtowc. rewrite H. reflexivity.
  - open3; hd_go.
Qed.
Ltac hd_open ::= change (f_mb enc_shift_jisx0213) with shift_jisx0213_mbtowc.
Lemma dec_shift_jisx0213 : dec_ok enc_shift_jisx0213 1 (dfin (mem jisx0213_sts)) (dpend nz) ucs4 /\ dec_stable enc_shift_jisx0213 (dfin (mem jisx0213_sts)).
Proof.
  held.
  - intros s n st H. hd_open. unfold shift_jisx0213_mbtowc. rewrite H. reflexivity.
  - open2; hd_go.
Qed.
