(** Encoder contract of ISO-2022-JP-2, whose state has three parts. *)
From Coq Require Import ZArith List Bool Lia.
From Verif Require Import Base Loop Contract LoopLib Reflect Sx EncLib Leaf Unroll.
From Verif Require Import Conv_uni Conv_sb Conv_set_ja Conv_set_zh Conv_set_ko Conv_cjk Conv_iso2022 Encodings.
Import ListNotations.
Open Scope Z_scope.

Definition pack3 (s1 s2 s3 : Z) : Z := Z.lor (Z.lor (Z.shiftl s3 16) (Z.shiftl s2 8)) s1.
Definition jp2_oinv (ost : Z) : Prop := exists s1 s2 s3, 0 <= s1 <= 6 /\ 0 <= s2 <= 2 /\ 0 <= s3 <= 7 /\ ost = pack3 s1 s2 s3.
Lemma jp2_parts : forall s1 s2 s3, 0 <= s1 <= 6 -> 0 <= s2 <= 2 -> 0 <= s3 <= 7 ->
  Z.land (pack3 s1 s2 s3) 0xff = s1 /\ Z.land (Z.shiftr (pack3 s1 s2 s3) 8) 0xff = s2 /\ Z.shiftr (pack3 s1 s2 s3) 16 = s3.
Proof.
  assert (C : upto 7 (fun a => upto 3 (fun b => upto 8 (fun c =>
    (Z.land (pack3 a b c) 0xff =? a) && (Z.land (Z.shiftr (pack3 a b c) 8) 0xff =? b) && (Z.shiftr (pack3 a b c) 16 =? c)))) = true) by reflexivity.
  intros s1 s2 s3 H1 H2 H3. pose proof (upto_sound _ _ C s1 ltac:(lia)) as D. cbv beta in D.
  pose proof (upto_sound _ _ D s2 ltac:(lia)) as E. cbv beta in E. pose proof (upto_sound _ _ E s3 ltac:(lia)) as F. cbv beta in F.
  rewrite !andb_true_iff, !Z.eqb_eq in F. tauto.
Qed.
Ltac jp2_split c1 c2 c3 :=
  let E := fresh in assert (E := jp2_parts c1 c2 c3 ltac:(lia) ltac:(lia) ltac:(lia)); let A := fresh in let B := fresh in let C := fresh in
  destruct E as (A & B & C); rewrite ?A, ?B, ?C; clear A B C.
Ltac r_open ::= unfold iso2022_jp2_reset;
  match goal with |- context [pack3 ?a ?b ?c] => jp2_split a b c end.
Ltac jp2_in := solve [ lazymatch goal with
  | |- jp2_oinv (Z.lor (Z.lor (Z.shiftl ?c 16) (Z.shiftl ?b 8)) ?a) => exists a, b, c; split; [lia|split; [lia|split; [lia|reflexivity]]]
  | |- jp2_oinv (pack3 ?a ?b ?c) => exists a, b, c; split; [lia|split; [lia|split; [lia|reflexivity]]]
  end ].

(** ** One character: a call with room n, all of whose parts are known *)
Section CHARACTER.
Variables (s1 s2 s3 wc ost : Z).
Hypothesis H1 : 0 <= s1 <= 6.
Hypothesis H2 : 0 <= s2 <= 2.
Hypothesis H3 : 0 <= s3 <= 3.
Hypothesis U : ucs4 wc.
Definition good (K : nat -> res (Z * wlog * Z)) : Prop :=
  (forall n, K n = Ok (-1, [], ost)) \/
  exists bs st', (1 <= length bs <= MAXNEED)%nat /\ jp2_oinv st' /\ forall n, if Nat.ltb n (length bs) then K n = Ok (-2, [], ost) else exists log, K n = Ok (Z.of_nat (length bs), log, st') /\ writes log bs.
Lemma good_eq : forall K K', (forall n, K n = K' n) -> good K' -> good K.
Proof.
  intros K K' E [H|(bs & st' & L & I & H)]; [left; intros n; now rewrite E|]. right. exists bs, st'. split; [exact L|]. split; [exact I|]. intros n. rewrite E. apply H.
Qed.
(** Bytes bs are written when there is room for them. *)
Lemma good_out : forall K bs log st', (1 <= length bs <= MAXNEED)%nat -> jp2_oinv st' -> writes log bs ->
  (forall n, K n = if Nat.ltb n (length bs) then Ok (-2, [], ost) else Ok (Z.of_nat (length bs), log, st')) -> good K.
Proof.
  intros K bs log st' L I W H. right. exists bs, st'. split; [exact L|]. split; [exact I|]. intros n. rewrite H. destruct (Nat.ltb n (length bs)); [reflexivity|]. exists log. auto.
Qed.

Ltac calc := unfold lappb, lrd, lapp, lshift; cbn [bind forallb map app fst snd Nat.add Nat.ltb Nat.leb andb lfind Nat.eqb negb Z.eqb Pos.eqb]; cbv zeta.
Ltac wrt := split; [unfold inb, wr; cbn [length]; repeat (apply Forall_cons; [split; [cbn [fst Nat.add]; lia|cbn [snd]; unfold byte; lia]|]); apply Forall_nil | let j := fresh "j" in let X := fresh "X" in intros j ?; do 7 (destruct j as [|j]; [cbn; intros X; first [discriminate X | now injection X as <-]|]); destruct j; discriminate].
Ltac give bs run := eapply (good_out _ bs); cycle 3; [intros n; run; reflexivity | cbn [length]; unfold MAXNEED; lia | jp2_in | wrt].
Ltac pass run N := eapply good_eq; [intros n; run; reflexivity|apply N].
Notation F K fuel cl buf := (fun n => K fuel buf cl s1 s2 s3 wc n 0%nat [] ost) (only parsing).

Lemma g_j6 : forall fuel cl, (Z.shiftr cl 3 = 0 \/ Z.shiftr cl 3 <> 0 /\ forall buf, good (F iso2022_jp2_wctomb_loop fuel (Z.shiftr cl 3) buf)) -> forall buf, good (F iso2022_jp2_wctomb_j6 (S fuel) cl buf).
Proof.
  intros fuel cl N buf. destruct N as [N|(N & G)].
  - left. intros n. rewrite iso2022_jp2_wctomb_j6_S. cbv zeta. now rewrite N.
  - eapply good_eq; [|apply (G buf)]. intros n. rewrite iso2022_jp2_wctomb_j6_S. cbv zeta. now rewrite (proj2 (Z.eqb_neq _ _) N).
Qed.
(** Half-width katakana *)
Lemma g_kana : forall fuel cl, Z.land cl 7 = 5 -> (forall buf, good (F iso2022_jp2_wctomb_j6 fuel cl buf)) -> forall buf, good (F iso2022_jp2_wctomb_loop (S fuel) cl buf).
Proof.
  intros fuel cl C N buf. destruct (leaf_ok_sound _ _ _ (leaf_jisx0201 wc U)) as [L|(a & A & L)].
  - pass ltac:(rewrite iso2022_jp2_wctomb_loop_S; change (Z.shiftl 1 3 - 1) with 7; rewrite C; calc; rewrite L; calc) N.
  - apply inr1 in A. destruct (a >=? 0x80) eqn:G.
    + rewrite Z.geb_leb in G. pose proof (proj1 (Z.leb_le _ _) G). rewrite <- Z.geb_leb in G. destruct (s1 =? 2) eqn:Q.
      * give [a - 0x80] ltac:(rewrite iso2022_jp2_wctomb_loop_S; change (Z.shiftl 1 3 - 1) with 7; rewrite C; calc; rewrite L; calc; rewrite G, Q; calc).
      * give [0x1b; 0x28; 0x49; a - 0x80] ltac:(rewrite iso2022_jp2_wctomb_loop_S; change (Z.shiftl 1 3 - 1) with 7; rewrite C; calc; rewrite L; calc; rewrite G, Q; calc).
    + pass ltac:(rewrite iso2022_jp2_wctomb_loop_S; change (Z.shiftl 1 3 - 1) with 7; rewrite C; calc; rewrite L; calc; rewrite G) N.
Qed.
(** Sets of two bytes *)
Lemma g_ksc : forall fuel cl, Z.land cl 7 = 4 -> (forall buf, good (F iso2022_jp2_wctomb_j6 fuel cl buf)) -> forall buf, good (F iso2022_jp2_wctomb_loop (S fuel) cl buf).
Proof.
  intros fuel cl C N buf. destruct (leaf_ok_sound _ _ _ (leaf_ksc5601 wc U)) as [L|(a & b & A & L)].
  - pass ltac:(rewrite iso2022_jp2_wctomb_loop_S; change (Z.shiftl 1 3 - 1) with 7; rewrite C; calc; rewrite L; calc) N.
  - apply inr2 in A. assert (Ga : a <? 0x80 = true) by lia. assert (Gb : b <? 0x80 = true) by lia. destruct (s1 =? 6) eqn:Q.
    + give [a; b] ltac:(rewrite iso2022_jp2_wctomb_loop_S; change (Z.shiftl 1 3 - 1) with 7; rewrite C; calc; rewrite L; calc; rewrite Ga, Gb, Q; calc).
    + give [0x1b; 0x24; 0x28; 0x43; a; b] ltac:(rewrite iso2022_jp2_wctomb_loop_S; change (Z.shiftl 1 3 - 1) with 7; rewrite C; calc; rewrite L; calc; rewrite Ga, Gb, Q; calc).
Qed.
Lemma g_gb : forall fuel cl, Z.land cl 7 = 3 -> (forall buf, good (F iso2022_jp2_wctomb_j6 fuel cl buf)) -> forall buf, good (F iso2022_jp2_wctomb_loop (S fuel) cl buf).
Proof.
  intros fuel cl C N buf. destruct (leaf_ok_sound _ _ _ (leaf_gb2312 wc U)) as [L|(a & b & A & L)].
  - pass ltac:(rewrite iso2022_jp2_wctomb_loop_S; change (Z.shiftl 1 3 - 1) with 7; rewrite C; calc; rewrite L; calc) N.
  - apply inr2 in A. assert (Ga : a <? 0x80 = true) by lia. assert (Gb : b <? 0x80 = true) by lia. destruct (s1 =? 5) eqn:Q.
    + give [a; b] ltac:(rewrite iso2022_jp2_wctomb_loop_S; change (Z.shiftl 1 3 - 1) with 7; rewrite C; calc; rewrite L; calc; rewrite Ga, Gb, Q; calc).
    + give [0x1b; 0x24; 0x41; a; b] ltac:(rewrite iso2022_jp2_wctomb_loop_S; change (Z.shiftl 1 3 - 1) with 7; rewrite C; calc; rewrite L; calc; rewrite Ga, Gb, Q; calc).
Qed.
Lemma g_0212 : forall fuel cl, (forall buf, good (F iso2022_jp2_wctomb_j6 fuel cl buf)) -> forall buf, good (F iso2022_jp2_wctomb_j13 (S fuel) cl buf).
Proof.
  intros fuel cl N buf. destruct (leaf_ok_sound _ _ _ (leaf_jisx0212 wc U)) as [L|(a & b & A & L)].
  - pass ltac:(rewrite iso2022_jp2_wctomb_j13_S; rewrite L; calc) N.
  - apply inr2 in A. assert (Ga : a <? 0x80 = true) by lia. assert (Gb : b <? 0x80 = true) by lia. destruct (s1 =? 4) eqn:Q.
    + give [a; b] ltac:(rewrite iso2022_jp2_wctomb_j13_S; rewrite L; calc; rewrite Ga, Gb, Q; calc).
    + give [0x1b; 0x24; 0x28; 0x44; a; b] ltac:(rewrite iso2022_jp2_wctomb_j13_S; rewrite L; calc; rewrite Ga, Gb, Q; calc).
Qed.
Lemma g_0208 : forall fuel cl, (forall buf, good (F iso2022_jp2_wctomb_j13 fuel cl buf)) -> forall buf, good (F iso2022_jp2_wctomb_j11 (S fuel) cl buf).
Proof.
  intros fuel cl N buf. destruct (leaf_ok_sound _ _ _ (leaf_jisx0208 wc U)) as [L|(a & b & A & L)].
  - pass ltac:(rewrite iso2022_jp2_wctomb_j11_S; rewrite L; calc) N.
  - apply inr2 in A. assert (Ga : a <? 0x80 = true) by lia. assert (Gb : b <? 0x80 = true) by lia. destruct (s1 =? 3) eqn:Q.
    + give [a; b] ltac:(rewrite iso2022_jp2_wctomb_j11_S; rewrite L; calc; rewrite Ga, Gb, Q; calc).
    + give [0x1b; 0x24; 0x42; a; b] ltac:(rewrite iso2022_jp2_wctomb_j11_S; rewrite L; calc; rewrite Ga, Gb, Q; calc).
Qed.
(** Japanese: JIS X 0201 Roman, JIS X 0208, JIS X 0212 *)
Lemma g_ja : forall fuel cl, Z.land cl 7 = 2 -> (forall buf, good (F iso2022_jp2_wctomb_j11 fuel cl buf)) -> forall buf, good (F iso2022_jp2_wctomb_loop (S fuel) cl buf).
Proof.
  intros fuel cl C N buf. destruct (leaf_ok_sound _ _ _ (leaf_jisx0201 wc U)) as [L|(a & A & L)].
  - pass ltac:(rewrite iso2022_jp2_wctomb_loop_S; change (Z.shiftl 1 3 - 1) with 7; rewrite C; calc; rewrite L; calc) N.
  - apply inr1 in A. destruct (a <? 0x80) eqn:G.
    + pose proof (proj1 (Z.ltb_lt _ _) G). destruct (s1 =? 1) eqn:Q, (wc =? 0xa) eqn:W1, (wc =? 0xd) eqn:W2.
      all: first [ give [a] ltac:(rewrite iso2022_jp2_wctomb_loop_S; change (Z.shiftl 1 3 - 1) with 7; rewrite C; calc; rewrite L; calc; rewrite G, Q; unfold iso2022_jp2_wctomb_j10; rewrite W1, ?W2; calc)
                 | give [0x1b; 0x28; 0x4a; a] ltac:(rewrite iso2022_jp2_wctomb_loop_S; change (Z.shiftl 1 3 - 1) with 7; rewrite C; calc; rewrite L; calc; rewrite G, Q; unfold iso2022_jp2_wctomb_j10; rewrite W1, ?W2; calc) ].
    + pass ltac:(rewrite iso2022_jp2_wctomb_loop_S; change (Z.shiftl 1 3 - 1) with 7; rewrite C; calc; rewrite L; calc; rewrite G) N.
Qed.
(** European: ISO-8859-1, ISO-8859-7 *)
Lemma g_greek : forall fuel cl, (forall buf, good (F iso2022_jp2_wctomb_j6 fuel cl buf)) -> forall buf, good (F iso2022_jp2_wctomb_j8 (S fuel) cl buf).
Proof.
  intros fuel cl N buf. destruct (leaf_ok_sound _ _ _ (leaf_iso8859_7 wc U)) as [L|(a & A & L)].
  - pass ltac:(rewrite iso2022_jp2_wctomb_j8_S; rewrite L; calc) N.
  - apply inr1 in A. destruct (a >=? 0x80) eqn:G.
    + rewrite Z.geb_leb in G. pose proof (proj1 (Z.leb_le _ _) G). rewrite <- Z.geb_leb in G. destruct (s2 =? 2) eqn:Q.
      * give [0x1b; 0x4e; a - 0x80] ltac:(rewrite iso2022_jp2_wctomb_j8_S; rewrite L; calc; rewrite G, Q; calc).
      * give [0x1b; 0x2e; 0x46; 0x1b; 0x4e; a - 0x80] ltac:(rewrite iso2022_jp2_wctomb_j8_S; rewrite L; calc; rewrite G, Q; calc).
    + pass ltac:(rewrite iso2022_jp2_wctomb_j8_S; rewrite L; calc; rewrite G) N.
Qed.
Lemma g_latin : forall fuel cl, Z.land cl 7 = 1 -> (forall buf, good (F iso2022_jp2_wctomb_j8 fuel cl buf)) -> forall buf, good (F iso2022_jp2_wctomb_loop (S fuel) cl buf).
Proof.
  intros fuel cl C N buf. destruct (leaf_ok_sound _ _ _ (leaf_iso8859_1 wc U)) as [L|(a & A & L)].
  - pass ltac:(rewrite iso2022_jp2_wctomb_loop_S; change (Z.shiftl 1 3 - 1) with 7; rewrite C; calc; rewrite L; calc) N.
  - apply inr1 in A. destruct (a >=? 0x80) eqn:G.
    + rewrite Z.geb_leb in G. pose proof (proj1 (Z.leb_le _ _) G). rewrite <- Z.geb_leb in G. destruct (s2 =? 1) eqn:Q.
      * give [0x1b; 0x4e; a - 0x80] ltac:(rewrite iso2022_jp2_wctomb_loop_S; change (Z.shiftl 1 3 - 1) with 7; rewrite C; calc; rewrite L; calc; rewrite G, Q; calc).
      * give [0x1b; 0x2e; 0x41; 0x1b; 0x4e; a - 0x80] ltac:(rewrite iso2022_jp2_wctomb_loop_S; change (Z.shiftl 1 3 - 1) with 7; rewrite C; calc; rewrite L; calc; rewrite G, Q; calc).
    + pass ltac:(rewrite iso2022_jp2_wctomb_loop_S; change (Z.shiftl 1 3 - 1) with 7; rewrite C; calc; rewrite L; calc; rewrite G) N.
Qed.
(** The list for each language *)
Ltac chain := first
  [ solve [intros; apply g_j6; left; reflexivity]
  | intros; apply g_j6; right; split; [discriminate|]; chain
  | apply g_kana; [reflexivity|chain] | apply g_ksc; [reflexivity|chain] | apply g_gb; [reflexivity|chain]
  | apply g_ja; [reflexivity|apply g_0208; apply g_0212; chain] | apply g_latin; [reflexivity|apply g_greek; chain] ].
Lemma g_list : forall cl buf, In cl [22730; 22156; 22667] -> good (F iso2022_jp2_wctomb_loop 64%nat cl buf).
Proof. intros cl buf I. revert buf. cbn [In] in I. destruct I as [I|[I|[I|I]]]; [subst cl; chain..|contradiction]. Qed.
Lemma g_char : forall buf, good (fun n => iso2022_jp2_wctomb_j3 buf s1 s2 s3 wc n 0 [] ost).
Proof.
  intros buf. assert (G5 : forall buf, good (fun n => iso2022_jp2_wctomb_j5 buf s1 s2 s3 wc n 0 [] ost)).
  { intros buf'. unfold iso2022_jp2_wctomb_j5. assert (T : exists cl, tlookup conversion_lists s3 = Some cl /\ In cl [22730; 22156; 22667]).
    { assert (D : s3 = 0 \/ s3 = 1 \/ s3 = 2 \/ s3 = 3) by lia. destruct D as [D|[D|[D|D]]]; rewrite D; eexists; (split; [reflexivity|cbn; tauto]). }
    destruct T as (cl & T & I). eapply good_eq; [intros n; unfold tget; rewrite T; reflexivity|]. now apply g_list. }
  unfold iso2022_jp2_wctomb_j3, ascii_wctomb. destruct (wc <? 0x80) eqn:G.
  - pose proof (proj1 (Z.ltb_lt _ _) G). unfold ucs4 in U. destruct (s1 =? 0) eqn:Q, (wc =? 0xa) eqn:W1, (wc =? 0xd) eqn:W2.
    all: first [ give [wc] ltac:(calc; unfold wr; calc; rewrite ?G, ?Q; unfold iso2022_jp2_wctomb_j4; rewrite W1, ?W2; calc)
               | give [0x1b; 0x28; 0x42; wc] ltac:(calc; unfold wr; calc; rewrite ?G, ?Q; unfold iso2022_jp2_wctomb_j4; rewrite W1, ?W2; calc) ].
  - pass ltac:(calc) G5.
Qed.
End CHARACTER.
Lemma good_goal : forall wc ost, good ost (fun n => iso2022_jp2_wctomb wc n ost) -> egoal enc_iso2022_jp2 jp2_oinv wc ost.
Proof.
  intros wc ost [H|(bs & st' & L & I & H)].
  - apply (egoal_ill _ _ _ _ 1%nat); [unfold MAXNEED; lia| |]; intros n N; [lia|]. change (f_wc enc_iso2022_jp2 wc n ost) with (iso2022_jp2_wctomb wc n ost). rewrite H. cbn. repeat split. constructor.
  - apply (egoal_ok _ _ _ _ bs st'); [lia|exact I| |]; intros n N.
    + change (f_wc enc_iso2022_jp2 wc n ost) with (iso2022_jp2_wctomb wc n ost). specialize (H n). destruct (Nat.ltb_spec n (length bs)); [|lia]. rewrite H. cbn. repeat split. constructor.
    + intros N'. change (f_wc enc_iso2022_jp2 wc n ost) with (iso2022_jp2_wctomb wc n ost). specialize (H n). destruct (Nat.ltb_spec n (length bs)); [lia|]. destruct H as (log & -> & W). cbn. repeat split; apply W.
Qed.
(** A language tag writes nothing. *)
Lemma tag_state : forall c s1 s2 s3, 0 <= s1 <= 6 -> 0 <= s2 <= 2 -> 0 <= s3 <= 7 -> exists st', jp2_oinv st' /\ iso2022_jp2_wctomb_j c s1 s2 s3 [] = Ok (0, [], st').
Proof.
  intros c s1 s2 s3 H1 H2 H3. unfold iso2022_jp2_wctomb_j, iso2022_jp2_wctomb_j2. cbv zeta.
  repeat match goal with |- context [if ?b then _ else _] => destruct b eqn:? end; (eexists; split; [|reflexivity]; jp2_in).
Qed.
Lemma enc_iso2022_jp2_ok : enc_ok enc_iso2022_jp2 jp2_oinv ucs4.
Proof.
  apply enc_ok_intro.
  - exists 0, 0, 0. repeat split; lia.
  - intros ost wc (s1 & s2 & s3 & H1 & H2 & H3 & ->) U. destruct (jp2_parts s1 s2 s3 H1 H2 H3) as (E1 & E2 & E3).
    destruct (Z.shiftr wc 7 =? Z.shiftr 0xe0000 7) eqn:T.
    + assert (X : exists st', jp2_oinv st' /\ forall n, iso2022_jp2_wctomb wc n (pack3 s1 s2 s3) = Ok (0, [], st')).
      { destruct (tag_state (Z.land wc 0x7f) s1 s2 s3 H1 H2 H3) as (x & I & E). destruct (tag_state (Z.land wc 0x7f + 0x20) s1 s2 s3 H1 H2 H3) as (y & J & E').
        destruct ((Z.land wc 0x7f >=? 0x41) &&& (Z.land wc 0x7f <=? 0x5a)) eqn:Q; [exists y|exists x]; (split; [assumption|]); intros n; unfold iso2022_jp2_wctomb; cbv zeta;
          rewrite E1, E2, E3, T, Q; assumption. }
      destruct X as (st' & I & E). apply (egoal_ok _ _ _ _ [] st'); [cbn; unfold MAXNEED; lia|exact I| |]; intros n N; [cbn in N; lia|]. intros _.
      change (f_wc enc_iso2022_jp2 wc n (pack3 s1 s2 s3)) with (iso2022_jp2_wctomb wc n (pack3 s1 s2 s3)). rewrite E. cbn. repeat split; [constructor|]. intros [|j]; discriminate.
    + apply good_goal. eapply good_eq; [intros n; unfold iso2022_jp2_wctomb; cbv zeta; rewrite E1, E2, E3, T; reflexivity|].
      destruct (s3 >=? 4) eqn:Q; rewrite Z.geb_leb in Q; apply g_char; auto; lia.
  - intros ost (s1 & s2 & s3 & H1 & H2 & H3 & ->). cbv [f_reset enc_iso2022_jp2].
    r_run jp2_in.
Qed.
