(** Texts written in an encoding and read back: general part. *)
From Coq Require Import ZArith List Bool Lia.
From Verif Require Import Base Indexes Loop Contract LoopLib LoopProps Spec SpecProps Encodings Api AllOk Public Demo UniSpec UniProps C_iconv C_api C_uni Whole C_comb.
Import ListNotations.
Open Scope Z_scope.

(** [carries f P]: a text of characters in P that was written without loss, and closed, reads as the same characters. *)
Definition carries (f : funcs) (P : Z -> Prop) : Prop := forall skip skip' u cs out o, Forall P cs ->
  writes_all f skip cs 0 = (out, 0%nat, o, []) -> bytes (out ++ closing f o) -> Z.of_nat (length (out ++ closing f o)) <= LIM ->
  exists cs0 i, reads f u skip' (out ++ closing f o) (0, 0) cs0 AtEnd [] i /\ cs0 ++ held f (fst i) = cs.

(** Every character written as it is, one after the other. *)
Fixpoint emits (f : funcs) (cs : list Z) (o : Z) : option (list Z * Z) :=
  match cs with
  | [] => Some ([], o)
  | c :: cs => match emit f c o with
    | Some (bs, o1) => match emits f cs o1 with Some (out, o2) => Some (bs ++ out, o2) | None => None end
    | None => None end
  end.
Lemma lossless : forall f (P Q : Z -> Prop), (forall c o, P c -> Q o -> tag c = true -> emit f c o <> None) ->
  (forall c o bs o', P c -> Q o -> emit f c o = Some (bs, o') -> Q o') ->
  forall skip cs o out o', Forall P cs -> Q o -> writes_all f skip cs o = (out, 0%nat, o', []) -> emits f cs o = Some (out, o').
Proof.
  intros f P Q H1 H2 skip cs. induction cs as [|c cs IH]; cbn; intros o out o' T Qo W; [inversion W; reflexivity|].
  inversion T as [|? ? T1 T2]; subst. unfold write1 in W. destruct (emit f c o) as [[bs o1]|] eqn:E.
  - destruct (writes_all f skip cs o1) as [[[b n] oo] bad] eqn:W1. inversion W; subst. now rewrite (IH _ _ _ T2 (H2 _ _ _ _ T1 Qo E) W1).
  - destruct (tag c) eqn:G; [exfalso; exact (H1 c o T1 Qo G E)|].
    destruct skip; [|destruct (emit f 0xfffd o) as [[x y]|]; [|discriminate]];
      [destruct (writes_all f true cs o) as [[[? ?] ?] ?]|destruct (writes_all f false cs y) as [[[? ?] ?] ?]]; inversion W.
Qed.
Lemma takes_reads : forall f u skip s i cs1 r i1, takes f u skip s i cs1 r i1 -> forall cs2 st q i2, reads f u skip r i1 cs2 st q i2 ->
  reads f u skip s i (cs1 ++ cs2) st q i2.
Proof.
  intros f u skip s i cs1 r i1 T. induction T; intros cs2 st q j2 R; cbn.
  - exact R.
  - eapply reads_char; eauto.
  - eapply reads_shift; eauto.
  - eapply reads_skip; eauto.
Qed.

(** A relation between encoder and decoder states, kept by every character, is enough. *)
Record in_step (f : funcs) (P : Z -> Prop) (rel : Z -> Z * Z -> Prop) : Prop := {
  st_init : rel 0 (0, 0);
  st_tag : forall c o i, P c -> rel o i -> tag c = true -> emit f c o <> None;
  st_char : forall c o bs o' i t u skip, P c -> rel o i -> emit f c o = Some (bs, o') -> bytes (bs ++ t) -> Z.of_nat (length (bs ++ t)) <= LIM ->
    exists i', rel o' i' /\ takes f u skip (bs ++ t) i [c] t i';
  st_end : forall o i u skip, rel o i -> exists i', reads f u skip (closing f o) i [] AtEnd [] i' /\ held f (fst i') = [] }.
Lemma step_carries : forall f P rel, in_step f P rel -> carries f P.
Proof.
  intros f P rel S skip skip' u cs out o C W.
  pose proof (st_init f P rel S) as R. revert out o W R. generalize (0, 0) as i. generalize 0 as o0.
  induction cs as [|c cs IH]; intros o0 i out o W R B L; cbn in W.
  - inversion W; subst. destruct (st_end f P rel S o i u skip' R) as (i' & Q & Hd). exists [], i'. cbn in *. auto.
  - inversion C as [|? ? C1 C2]; subst. unfold write1 in W. destruct (emit f c o0) as [[bs o1]|] eqn:E.
    + destruct (writes_all f skip cs o1) as [[[out1 n1] o2] bad] eqn:W1. inversion W; subst. rewrite <- app_assoc in *.
      destruct (st_char f P rel S c o0 bs o1 i (out1 ++ closing f o) u skip') as (i' & R' & T); auto.
      apply Forall_app in B. rewrite app_length in L. destruct (IH C2 o1 i' out1 o W1 R' (proj2 B)) as (cs0 & j & Q & Hd); [lia|].
      exists (c :: cs0), j. split; [|now cbn; rewrite Hd]. change (c :: cs0) with ([c] ++ cs0). eapply takes_reads; eauto.
    + destruct (tag c) eqn:G; [exfalso; exact (st_tag f P rel S c o0 i C1 R G E)|].
      destruct skip; [|destruct (emit f 0xfffd o0) as [[x y]|]; [|discriminate]];
        [destruct (writes_all f true cs o0) as [[[? ?] ?] ?]|destruct (writes_all f false cs y) as [[[? ?] ?] ?]]; inversion W.
Qed.

(** An encoding as pivot. *)
Theorem pivot : forall a e b f P flags s u out n, source a -> target e -> source e -> target b ->
  nth_error all_encodings (Z.to_nat e) = Some f -> carries f P ->
  (forall cs i, rd (opened a e flags) s cs AtEnd [] i -> Forall P (cs ++ held (ifuncs (opened a e flags)) (fst i))) ->
  input s -> input u -> whole (opened a e flags) s u 0 ->
  (whole (opened a b flags) s out n <-> whole (opened e b flags) u out n).
Proof.
  intros a e b f P flags s u out n Sa Te Se Tb F C Ch I1 I2 W8.
  pose proof (proj1 Sa) as Ra. pose proof (proj1 Tb) as Rb. pose proof (proj1 Te) as Re. rewrite num_encodings in Ra, Rb, Re. change (Z.of_nat 198) with 198 in *.
  assert (O : forall i j, source i -> target j -> reachable (opened i j flags)).
  { intros i j Hi Hj. eapply reach_open; [exact Hi|exact Hj|]. destruct Hi as (Hi & _), Hj as (Hj & _). rewrite num_encodings in Hi, Hj. apply open_ok; lia. }
  pose proof (O a b Sa Tb) as H1. pose proof (O a e Sa Te) as H2. pose proof (O e b Se Tb) as H3.
  destruct (opened_index a b flags) as (A1 & A2 & A3 & A4 & A5 & A6 & A7); auto.
  destruct (opened_index a e flags) as (B1 & B2 & B3 & B4 & B5 & B6 & B7); auto.
  destruct (opened_index e b flags) as (C1 & C2 & C3 & C4 & C5 & C6 & C7); auto.
  set (ab := opened a b flags) in *. set (ae := opened a e flags) in *. set (eb := opened e b flags) in *.
  assert (K1 : skipping ae = skipping ab) by (unfold skipping; now rewrite A7, B7).
  assert (K2 : skipping eb = skipping ab) by (unfold skipping; now rewrite A7, C7).
  rewrite A3 in B3. inversion B3 as [E1]. rewrite A4 in C4. inversion C4 as [E2]. rewrite F in B4, C3. inversion B4 as [E3]. inversion C3 as [E4].
  rewrite !whole_iff by assumption. rewrite whole_iff in W8 by assumption. destruct W8 as (cs & i & bs & o & R & W & Eu).
  specialize (Ch cs i R). set (all := cs ++ held (ifuncs ae) (fst i)) in *.
  assert (R' : rd ab s cs AtEnd [] i).
  { unfold rd, unit_of in *. rewrite E1, A1, A5, <- K1. rewrite B1, B5 in R. exact R. }
  unfold wr in W. rewrite B6, <- E3 in W. rewrite <- E3 in Eu.
  assert (Re' : exists cs0 i0, rd eb u cs0 AtEnd [] i0 /\ cs0 ++ held f (fst i0) = all).
  { destruct (C (skipping ae) (skipping eb) (unit_of eb) all bs o Ch W) as (cs0 & i0 & Q & Hd); [rewrite <- Eu; apply I2..|].
    exists cs0, i0. split; [|exact Hd]. unfold rd. rewrite C5, <- E4, Eu. exact Q. }
  destruct Re' as (cs0 & i0 & Q & Hd).
  assert (Wsame : wr eb all = wr ab all). { unfold wr. rewrite <- E2, A6, C6, K2. reflexivity. }
  split.
  - intros (cs' & i' & bs' & o' & R1 & W1 & ->). destruct (rd_det _ _ _ _ _ _ _ _ _ _ R1 R') as (-> & _ & _ & ->).
    rewrite E1 in W1. fold all in W1. exists cs0, i0, bs', o'. rewrite <- E4, Hd, Wsame, <- E2. auto.
  - intros (cs' & i' & bs' & o' & R1 & W1 & ->). destruct (rd_det _ _ _ _ _ _ _ _ _ _ R1 Q) as (-> & _ & _ & ->).
    rewrite <- E4, Hd, Wsame in W1. exists cs, i, bs', o'. rewrite E1. fold all. rewrite <- E2. auto.
Qed.

(** The characters of a text that converts to UTF-8 without loss are Unicode scalar values. *)
Lemma text_scalar : forall cs out, text utf8_form cs = Some out -> Forall (fun c => scalar c = true) cs.
Proof.
  induction cs as [|c cs IH]; cbn; intros out T; [constructor|]. unfold utf8_form at 1 in T. destruct (scalar c) eqn:S; [|discriminate].
  destruct (text utf8_form cs); [|discriminate]. eauto.
Qed.
Lemma chars_ucs4 : forall cd s cs i, reachable cd -> input s -> rd cd s cs AtEnd [] i -> Forall ucs4 (cs ++ held (ifuncs cd) (fst i)).
Proof.
  intros cd s cs i H (B & L) R. destruct (reachable_good cd H) as (inv & oinv & pend & A1 & A2 & A3 & A4 & A5 & A6).
  destruct (reads_total (ifuncs cd) (unit_of cd) inv pend ucs4 (skipping cd) A1 A4 s (cd_i cd)) as (cs' & st & r & i' & X & Z1 & Y & Z2); auto.
  { apply A5. }
  destruct (rd_det _ _ _ _ _ _ _ _ _ _ R X) as (<- & _ & _ & <-). apply Forall_app. split; [exact Y|].
  unfold held. pose proof (d_flush _ _ _ _ _ A1 i Z1) as F. destruct (f_flush (ifuncs cd)) as [fl|]; [|constructor].
  destruct F as (b & w & ist' & E & _ & _ & F). rewrite E.
  destruct w as [wc|]; [|constructor]. destruct (Z.eqb_spec b 0); [constructor|].
  destruct (F n) as (wc' & W & P & _). inversion W; subst. constructor; [exact P|constructor].
Qed.
Lemma chars_text : forall a e flags s v, source a -> target e -> input s -> whole (opened a ei_utf8 flags) s v 0 ->
  forall cs i, rd (opened a e flags) s cs AtEnd [] i -> text utf8_form (cs ++ held (ifuncs (opened a e flags)) (fst i)) = Some v.
Proof.
  intros a e flags s v Sa Te I W cs i R.
  pose proof (proj1 Sa) as Ra. pose proof (proj1 Te) as Re. rewrite num_encodings in Ra, Re. change (Z.of_nat 198) with 198 in *.
  assert (T8 : target ei_utf8) by (apply targetb_ok; reflexivity).
  assert (R8 : 0 <= ei_utf8 < 198) by (unfold ei_utf8; lia).
  assert (O : forall j, target j -> reachable (opened a j flags)).
  { intros j Hj. eapply reach_open; [exact Sa|exact Hj|]. destruct Hj as (Hj & _). rewrite num_encodings in Hj. apply open_ok; lia. }
  destruct (opened_index a e flags) as (A1 & A2 & A3 & A4 & A5 & A6 & A7); auto.
  destruct (opened_index a ei_utf8 flags) as (B1 & B2 & B3 & B4 & B5 & B6 & B7); auto.
  rewrite whole_iff in W by auto. destruct W as (cs' & i' & bs & o & R' & W & Ev).
  rewrite A3 in B3. inversion B3 as [E1].
  assert (R2 : rd (opened a ei_utf8 flags) s cs AtEnd [] i).
  { unfold rd, unit_of, skipping in *. rewrite <- E1, B1, B5, B7. rewrite A1, A5, A7 in R. exact R. }
  destruct (rd_det _ _ _ _ _ _ _ _ _ _ R2 R') as (<- & _ & _ & <-). rewrite E1.
  pose proof (chars_ucs4 _ s cs i (O ei_utf8 T8) I R2) as U.
  apply utf8_funcs in B4. assert (C : closing (ofuncs (opened a ei_utf8 flags)) o = []) by now rewrite B4. rewrite C, app_nil_r in Ev. subst bs.
  apply (utf8_lossless (ofuncs (opened a ei_utf8 flags)) (skipping (opened a ei_utf8 flags)) _ _ v o ltac:(rewrite B4; exact utf8_implements) U W).
Qed.
Lemma chars_scalar : forall a e flags s v, source a -> target e -> input s -> whole (opened a ei_utf8 flags) s v 0 ->
  forall cs i, rd (opened a e flags) s cs AtEnd [] i -> Forall (fun c => scalar c = true) (cs ++ held (ifuncs (opened a e flags)) (fst i)).
Proof. intros a e flags s v Sa Te I W cs i R. eapply text_scalar, chars_text; eauto. Qed.
(** If a text can be expressed in UTF-8, and in e, going through e makes no difference. *)
Theorem scalar_pivot : forall a e b f flags s u v out n, source a -> target e -> source e -> target b ->
  nth_error all_encodings (Z.to_nat e) = Some f -> carries f (fun c => scalar c = true) ->
  input s -> input u -> whole (opened a ei_utf8 flags) s v 0 -> whole (opened a e flags) s u 0 ->
  (whole (opened a b flags) s out n <-> whole (opened e b flags) u out n).
Proof. intros. eapply pivot; eauto. eapply chars_scalar; eauto. Qed.
(** An encoding that can express every scalar value expresses every such text. *)
Definition expresses (f : funcs) (P Q : Z -> Prop) : Prop := Q 0 /\ forall c o, P c -> Q o -> exists bs o', emit f c o = Some (bs, o') /\ Q o'.
Lemma expresses_all : forall f P Q skip cs o, expresses f P Q -> Q o -> Forall P cs -> exists out o', writes_all f skip cs o = (out, 0%nat, o', []) /\ Q o'.
Proof.
  intros f P Q skip cs o (_ & H). revert o. induction cs as [|c cs IH]; cbn; intros o Qo C; [eauto|].
  inversion C; subst. destruct (H c o) as (bs & o1 & E & Q1); auto. unfold write1. rewrite E.
  destruct (IH o1) as (out & o2 & -> & Q2); auto. eauto.
Qed.
Theorem scalar_expressed : forall a e f flags s v Q, source a -> target e -> nth_error all_encodings (Z.to_nat e) = Some f -> expresses f (fun c => scalar c = true) Q ->
  input s -> whole (opened a ei_utf8 flags) s v 0 -> exists u, whole (opened a e flags) s u 0.
Proof.
  intros a e f flags s v Q Sa Te F X I W.
  pose proof (chars_scalar a e flags s v Sa Te I W) as Ch.
  pose proof (proj1 Sa) as Ra. pose proof (proj1 Te) as Re. rewrite num_encodings in Ra, Re. change (Z.of_nat 198) with 198 in *.
  assert (T8 : target ei_utf8) by (apply targetb_ok; reflexivity).
  assert (R8 : 0 <= ei_utf8 < 198) by (unfold ei_utf8; lia).
  assert (O : forall j, target j -> reachable (opened a j flags)).
  { intros j Hj. eapply reach_open; [exact Sa|exact Hj|]. destruct Hj as (Hj & _). rewrite num_encodings in Hj. apply open_ok; lia. }
  destruct (opened_index a e flags) as (A1 & A2 & A3 & A4 & A5 & A6 & A7); auto.
  destruct (opened_index a ei_utf8 flags) as (B1 & B2 & B3 & B4 & B5 & B6 & B7); auto.
  rewrite whole_iff in W by auto. destruct W as (cs' & i' & bs & o & R' & _).
  assert (R2 : rd (opened a e flags) s cs' AtEnd [] i').
  { rewrite A3 in B3. inversion B3 as [E1]. unfold rd, unit_of, skipping in *. rewrite E1, A1, A5, A7. rewrite B1, B5, B7 in R'. exact R'. }
  rewrite F in A4. inversion A4 as [E2].
  destruct (expresses_all f _ Q (skipping (opened a e flags)) _ 0 X (proj1 X) (Ch _ _ R2)) as (out & o' & W & _).
  exists (out ++ closing f o'). apply whole_iff; auto. exists cs', i', out, o'. unfold wr. rewrite <- E2, A6. auto.
Qed.
(** The bytes of such a text satisfy what the bytes of every character satisfy. *)
Lemma writes_all_bytes : forall f skip (P Q B : Z -> Prop), (forall c o bs o', P c -> Q o -> emit f c o = Some (bs, o') -> Forall B bs /\ Q o') -> P 0xfffd ->
  forall cs o out n o' bad, Forall P cs -> Q o -> writes_all f skip cs o = (out, n, o', bad) -> Forall B out /\ Q o'.
Proof.
  intros f skip P Q B H Pf. induction cs as [|c cs IH]; cbn; intros o out n o' bad C Qo W; [inversion W; subst; auto|].
  inversion C as [|? ? C1 C2]; subst. destruct (write1 f skip c o) as [[[bs o1] k]|] eqn:E; [|inversion W; subst; auto].
  destruct (writes_all f skip cs o1) as [[[out1 n1] o2] bad1] eqn:W1. inversion W; subst.
  assert (G : Forall B bs /\ Q o1).
  { unfold write1 in E. destruct (emit f c o) as [[b ox]|] eqn:E1; [inversion E; subst; eapply H; eauto|].
    destruct (tag c); [inversion E; subst; auto|]. destruct skip; [inversion E; subst; auto|].
    destruct (emit f 0xfffd o) as [[b ox]|] eqn:E2; [inversion E; subst; eapply H; [exact Pf|exact Qo|exact E2]|discriminate]. }
  destruct (IH o1 out1 n1 o' bad C2 (proj2 G) W1). split; [apply Forall_app; tauto|tauto].
Qed.
Theorem whole_bytes : forall a e f flags s u n (Q B : Z -> Prop), source a -> target e -> nth_error all_encodings (Z.to_nat e) = Some f ->
  Q 0 -> (forall c o bs o', ucs4 c -> Q o -> emit f c o = Some (bs, o') -> Forall B bs /\ Q o') -> (forall o, Q o -> Forall B (closing f o)) ->
  input s -> whole (opened a e flags) s u n -> Forall B u.
Proof.
  intros a e f flags s u n Q B Sa Te F Q0 H1 H2 I W.
  pose proof (proj1 Sa) as Ra. pose proof (proj1 Te) as Re. rewrite num_encodings in Ra, Re. change (Z.of_nat 198) with 198 in *.
  assert (H : reachable (opened a e flags)).
  { eapply reach_open; [exact Sa|exact Te|]. apply open_ok; lia. }
  destruct (opened_index a e flags) as (A1 & A2 & A3 & A4 & A5 & A6 & A7); auto.
  apply whole_iff in W; auto. destruct W as (cs & i & bs & o & R & W & ->). rewrite F in A4. inversion A4 as [E2]. unfold wr in W. rewrite A6, <- E2 in W.
  destruct (writes_all_bytes f _ ucs4 Q B H1 ltac:(unfold ucs4; lia) _ _ _ _ _ _ (chars_ucs4 _ s cs i H I R) Q0 W). apply Forall_app. rewrite <- E2. auto.
Qed.
