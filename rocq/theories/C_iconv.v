(** Theorems about reiconv_iconv: C01-C11, C13-C15, C43. *)
From Coq Require Import ZArith List Bool Lia.
From Verif Require Import Base Indexes Loop Contract LoopLib LoopProps Spec SpecProps Encodings Api AllOk Public Demo.
Import ListNotations.
Open Scope Z_scope.

(** * C01: memory safety *)
Theorem C01_iconv_memory_safe : forall cd s outb outleft,
  reachable cd -> input s -> (outleft <= length outb)%nat ->
  exists r, reiconv_iconv cd (Some s) (Some outb) outleft = Ok r /\
    length (r_out r) = length outb /\ skipn outleft (r_out r) = skipn outleft outb.
Proof.
  intros cd s outb outleft H I R. destruct (iconv_meets_spec cd s outb outleft H I R) as (r & E & S & _).
  exists r. destruct S as (S1 & S2 & _). auto.
Qed.

(** * C02: byte accounting *)
Theorem C02_iconv_accounting : forall cd s outb outleft r,
  reachable cd -> input s -> (outleft <= length outb)%nat -> reiconv_iconv cd (Some s) (Some outb) outleft = Ok r ->
  (exists consumed, s = consumed ++ r_in r) /\
  (r_pos r + r_left r)%nat = outleft /\
  exists cs more st rest i n, rd cd s (cs ++ more) st rest i /\ wr cd cs = (firstn (r_pos r) (r_out r), n, ostate (r_cd r), []).
Proof.
  intros cd s outb outleft r H I R E. destruct (iconv_meets_spec cd s outb outleft H I R) as (r' & E' & S & _).
  rewrite E in E'. inversion E'; subst r'.
  destruct S as (S1 & S2 & S3 & (k & K & S4) & S5 & cs1 & cs2 & st & rest & i & n & S6 & S7 & _).
  split; [exists (firstn k s); rewrite S4; symmetry; apply firstn_skipn|]. split; [exact S3|].
  exists cs1, cs2, st, rest, i, n. auto.
Qed.

(** * C03: termination (reiconv_iconv) *)
(** At most 2n+1 iterations of the conversion loop for n input bytes. *)
Theorem C03_iconv_terminates : forall cd s outb outleft,
  reachable cd -> input s -> (outleft <= length outb)%nat ->
  exists r, conv_loop (2 * length s + 1) cd s outb 0 outleft 0 = Ok r.
Proof.
  intros cd s outb outleft H I R. destruct (iconv_meets_spec cd s outb outleft H I R) as (r & E & _). exists r. exact E.
Qed.

(** * C04, C05: how input and output are cut into pieces does not matter *)
(** A program that converts a text given in pieces, with any output buffers: after E2BIG it goes on with the
    unread input and another buffer, after success or EINVAL it appends the next piece to the unread input.
    [session cd inp pieces out res rest cd'] : starting with inp unread and pieces still to come, the calls
    produce out in total, the last one returns res (success counts as Num 0 here), leaving rest unread and the
    descriptor cd'. *)
Definition kind (r : ret) : ret := match r with Num _ => Num 0 | Err e => Err e end.
Inductive session : conv -> list Z -> list (list Z) -> list Z -> ret -> list Z -> conv -> Prop :=
| ses_end cd inp outb outleft r :
    (outleft <= length outb)%nat -> reiconv_iconv cd (Some inp) (Some outb) outleft = Ok r ->
    r_ret r <> Err E2BIG -> r_ret r <> Err EILSEQ ->
    session cd inp [] (produced r) (kind (r_ret r)) (r_in r) (r_cd r)
| ses_bad cd inp pieces outb outleft r :
    (outleft <= length outb)%nat -> reiconv_iconv cd (Some inp) (Some outb) outleft = Ok r ->
    r_ret r = Err EILSEQ -> session cd inp pieces (produced r) (Err EILSEQ) (r_in r ++ concat pieces) (r_cd r)
| ses_next cd inp piece pieces outb outleft r out res rest cd' :
    (outleft <= length outb)%nat -> reiconv_iconv cd (Some inp) (Some outb) outleft = Ok r ->
    r_ret r <> Err E2BIG -> r_ret r <> Err EILSEQ ->
    session (r_cd r) (r_in r ++ piece) pieces out res rest cd' ->
    session cd inp (piece :: pieces) (produced r ++ out) res rest cd'
| ses_more cd inp pieces outb outleft r out res rest cd' :
    (outleft <= length outb)%nat -> reiconv_iconv cd (Some inp) (Some outb) outleft = Ok r ->
    r_ret r = Err E2BIG -> session (r_cd r) (r_in r) pieces out res rest cd' ->
    session cd inp pieces (produced r ++ out) res rest cd'.

(** The outcome of a conversion with unlimited output space. *)
Definition outcome (cd : conv) (s out : list Z) (res : ret) (rest : list Z) (cd' : conv) : Prop :=
  exists cs st rest0 i m o bad, rd cd s cs st rest0 i /\ wr cd cs = (out, m, o, bad) /\ same_desc cd cd' /\ ostate cd' = o /\
    match bad with
    | [] => rest = rest0 /\ cd_i cd' = i /\ res = match st with AtEnd => Num 0 | Truncated => Err EINVAL | Invalid => Err EILSEQ end
    | _ :: _ => res = Err EILSEQ /\ rd cd' rest bad st rest0 i
    end.

Lemma rd_end : forall cd s cs r i, rd cd s cs AtEnd r i -> r = [].
Proof.
  intros cd s cs r i H. unfold rd in H. remember AtEnd as st eqn:E. induction H; try discriminate; auto.
Qed.
Lemma wr_all : forall cd cs1 cs2 out n o, wr cd cs1 = (out, n, o, []) -> cs2 = [] -> wr cd (cs1 ++ cs2) = (out, n, o, []).
Proof. intros. subst. now rewrite app_nil_r. Qed.

Lemma wr_bad : forall cd cs1 wc cs out n o, wr cd cs1 = (out, n, o, []) -> write1 (ofuncs cd) (skipping cd) wc o = None ->
  wr cd (cs1 ++ wc :: cs) = (out, n, o, wc :: cs).
Proof.
  intros cd cs1 wc cs out n o H W. rewrite (wr_app _ _ _ _ _ _ H). cbn. rewrite W. now rewrite app_nil_r, Nat.add_0_r.
Qed.

Lemma call_outcome : forall cd s outb outleft r, iconv_spec cd s outb outleft r -> r_ret r <> Err E2BIG ->
  outcome cd s (produced r) (kind (r_ret r)) (r_in r) (r_cd r).
Proof.
  intros cd s outb outleft r (S1 & S2 & S3 & S4 & S5 & cs1 & cs2 & st & rest & i & n & S6 & S7 & S8) N.
  destruct (r_ret r) as [m|[]] eqn:E; try congruence; cbn [kind].
  - destruct S8 as (-> & -> & -> & X & Y). rewrite app_nil_r in S6. pose proof (rd_end _ _ _ _ _ S6). subst rest.
    exists cs1, AtEnd, [], i, n, (ostate (r_cd r)), []. auto 10.
  - destruct S8 as (D & [(-> & -> & X & Y & Z)|(wc & cs & -> & W & RR & _)]).
    + rewrite app_nil_r in S6. exists cs1, Invalid, rest, i, n, (ostate (r_cd r)), []. auto 10.
    + exists (cs1 ++ wc :: cs), st, rest, i, n, (ostate (r_cd r)), (wc :: cs).
      split; [exact S6|]. split; [now apply wr_bad|]. auto 10.
  - destruct S8 as (-> & -> & X & Y & Z & _). rewrite app_nil_r in S6.
    exists cs1, Truncated, rest, i, n, (ostate (r_cd r)), []. auto 10.
  - contradiction.
Qed.

Lemma rd_tail : forall cd s t cs st r i, reachable cd -> input (s ++ t) -> rd cd s cs st r i ->
  exists csT st2 r2 i2, reads (ifuncs cd) (unit_of cd) (skipping cd) (r ++ t) i csT st2 r2 i2.
Proof.
  intros cd s t cs st r i H (B & L) R. destruct (reachable_good cd H) as (inv & oinv & pend & A1 & A2 & A3 & A4 & A5 & A6).
  apply Forall_app in B. destruct B as (B1 & B2). rewrite app_length in L.
  destruct (reads_total (ifuncs cd) (unit_of cd) inv pend ucs4 (skipping cd) A1 A4 s (cd_i cd)) as (cs' & st' & r' & i' & X & Y & Z1 & Z2 & k & Z3 & Z4); auto.
  { apply A5. } { lia. }
  destruct (reads_det _ _ _ _ _ _ _ _ _ R _ _ _ _ X) as (-> & -> & -> & ->).
  destruct (reads_total (ifuncs cd) (unit_of cd) inv pend ucs4 (skipping cd) A1 A4 (r' ++ t) i') as (csT & st2 & r2 & i2 & X2 & _); auto.
  { subst r'. apply Forall_app. split; [now apply Forall_skipn|exact B2]. }
  { subst r'. rewrite app_length, skipn_length. lia. }
  eauto 10.
Qed.

Lemma same_desc_trans : forall a b c, same_desc a b -> same_desc b c -> same_desc a c.
Proof. unfold same_desc. intros a b c (A1 & A2 & A3 & A4 & A5) (B1 & B2 & B3 & B4 & B5). repeat split; congruence. Qed.
Lemma rd_same : forall cd cd' s cs st r i, same_desc cd cd' -> rd cd' s cs st r i <-> reads (ifuncs cd) (unit_of cd) (skipping cd) s (cd_i cd') cs st r i.
Proof. intros cd cd' s cs st r i (A1 & A2 & A3 & A4 & A5). unfold rd, unit_of, skipping. rewrite A1, A2, A5. tauto. Qed.
Lemma wr_same : forall cd cd' cs, same_desc cd cd' -> wr cd' cs = writes_all (ofuncs cd) (skipping cd) cs (ostate cd').
Proof. intros cd cd' cs (A1 & A2 & A3 & A4 & A5). unfold wr, skipping. rewrite A4, A5. reflexivity. Qed.


Lemma input_app : forall a b, input (a ++ b) -> input a /\ input b.
Proof. intros a b (B & L). apply Forall_app in B. rewrite app_length in L. repeat split; try apply B; lia. Qed.
Lemma input_tail : forall k s t, input (s ++ t) -> input (skipn k s ++ t).
Proof.
  intros k s t (B & L). apply Forall_app in B. rewrite app_length in L. split.
  - apply Forall_app. split; [now apply Forall_skipn|apply B].
  - rewrite app_length, skipn_length. lia.
Qed.

(** Reading two inputs that meet in the same state goes on alike when more bytes follow. *)
Lemma rd_join : forall cd cd1 s s1 t cs1 cs2 st rest i,
  reachable cd -> reachable cd1 -> same_desc cd cd1 -> input (s ++ t) -> input (s1 ++ t) ->
  rd cd s (cs1 ++ cs2) st rest i -> rd cd1 s1 cs2 st rest i ->
  exists cs3 st3 rest3 i3, rd cd (s ++ t) (cs1 ++ cs2 ++ cs3) st3 rest3 i3 /\ rd cd1 (s1 ++ t) (cs2 ++ cs3) st3 rest3 i3.
Proof.
  intros cd cd1 s s1 t cs1 cs2 st rest i H H1 SD I I1 R R1.
  pose proof (rd_app cd s t _ _ _ _ H I R) as X. pose proof (rd_app cd1 s1 t _ _ _ _ H1 I1 R1) as X1.
  destruct (rd_tail cd s t _ _ _ _ H I R) as (csT & st2 & r2 & i2 & T).
  assert (T1 : reads (ifuncs cd1) (unit_of cd1) (skipping cd1) (rest ++ t) i csT st2 r2 i2).
  { destruct SD as (A1 & A2 & A3 & A4 & A5). unfold unit_of, skipping in *. rewrite A1, A2, A5. exact T. }
  destruct st.
  - exists csT, st2, r2, i2. rewrite app_assoc. auto.
  - exists csT, st2, r2, i2. rewrite app_assoc. auto.
  - exists [], Invalid, (rest ++ t), i. rewrite app_nil_r. auto.
Qed.

Lemma outcome_glue : forall cd cd1 s s1 t cs1 cs2 st rest i out1 n out res rest' cd',
  reachable cd -> reachable cd1 -> same_desc cd cd1 -> input (s ++ t) -> input (s1 ++ t) ->
  rd cd s (cs1 ++ cs2) st rest i -> rd cd1 s1 cs2 st rest i -> wr cd cs1 = (out1, n, ostate cd1, []) ->
  outcome cd1 (s1 ++ t) out res rest' cd' -> outcome cd (s ++ t) (out1 ++ out) res rest' cd'.
Proof.
  intros cd cd1 s s1 t cs1 cs2 st rest i out1 n out res rest' cd' H H1 SD I I1 R R1 W (cs & st' & rest0 & i' & m & o & bad & A1 & A2 & A3 & A4 & A5).
  destruct (rd_join cd cd1 s s1 t cs1 cs2 st rest i H H1 SD I I1 R R1) as (cs3 & st3 & rest3 & i3 & X & X1).
  destruct (rd_det _ _ _ _ _ _ _ _ _ _ A1 X1) as (-> & -> & -> & ->).
  exists (cs1 ++ cs2 ++ cs3), st3, rest3, i3, (n + m)%nat, o, bad. split; [exact X|]. split.
  { rewrite (wr_app _ _ _ _ _ _ W). rewrite (wr_same cd cd1) in A2 by exact SD. rewrite A2. reflexivity. }
  split; [eapply same_desc_trans; eauto|]. split; [exact A4|]. exact A5.
Qed.

Lemma spec_mid : forall cd s outb outleft r, iconv_spec cd s outb outleft r ->
  exists cs1 cs2 st rest i n, rd cd s (cs1 ++ cs2) st rest i /\ rd (r_cd r) (r_in r) cs2 st rest i /\
    wr cd cs1 = (produced r, n, ostate (r_cd r), []).
Proof.
  intros cd s outb outleft r (S1 & S2 & S3 & S4 & S5 & cs1 & cs2 & st & rest & i & n & S6 & S7 & S8).
  exists cs1, cs2, st, rest, i, n. split; [exact S6|]. split; [|exact S7].
  destruct (r_ret r) as [m|[]].
  - destruct S8 as (-> & -> & -> & X & Y). rewrite app_nil_r in S6. pose proof (rd_end _ _ _ _ _ S6). subst rest.
    unfold rd. rewrite X, Y. constructor.
  - destruct S8 as (wc & cs & -> & (X & _) & _). exact X.
  - destruct S8 as (D & [(-> & -> & X & Y & Z & RR)|(wc & cs & -> & W & RR & _)]); [rewrite X|]; exact RR.
  - destruct S8 as (-> & -> & X & Y & Z & RR). rewrite X. exact RR.
  - contradiction.
Qed.

Lemma session_outcome : forall cd inp pieces out res rest cd', session cd inp pieces out res rest cd' ->
  reachable cd -> input (inp ++ concat pieces) -> outcome cd (inp ++ concat pieces) out res rest cd'.
Proof.
  intros cd inp pieces out res rest cd' H.
  assert (GET : forall cd inp t outb outleft r, reachable cd -> input (inp ++ t) -> (outleft <= length outb)%nat ->
    reiconv_iconv cd (Some inp) (Some outb) outleft = Ok r ->
    iconv_spec cd inp outb outleft r /\ reachable (r_cd r) /\ input (r_in r ++ t)).
  { clear. intros cd inp t outb outleft r RC I R E. pose proof (proj1 (input_app _ _ I)) as I0.
    destruct (iconv_meets_spec cd inp outb outleft RC I0 R) as (r' & E' & S & RC'). rewrite E in E'. inversion E'; subst r'.
    split; [exact S|]. split; [exact RC'|]. destruct S as (_ & _ & _ & (k & K & ->) & _). now apply input_tail. }
  induction H as [cd inp outb outleft r R E N1 N2|cd inp pieces outb outleft r R E N|
    cd inp piece pieces outb outleft r out res rest cd' R E N1 N2 H IH|cd inp pieces outb outleft r out res rest cd' R E N H IH];
  intros RC I; destruct (GET _ _ _ _ _ _ RC I R E) as (S & RC' & I').
  - cbn [concat] in *. rewrite app_nil_r in *. eapply call_outcome; eauto.
  - destruct (spec_mid _ _ _ _ _ S) as (cs1 & cs2 & st & rest & i & n & M1 & M2 & M3).
    pose proof S as (_ & _ & _ & _ & SD & _).
    rewrite <- (app_nil_r (produced r)). eapply outcome_glue; eauto.
    destruct S as (_ & _ & _ & _ & _ & cs1' & cs2' & st' & rest' & i' & n' & S6 & S7 & S8). rewrite N in S8.
    assert (SR : same_desc (r_cd r) (r_cd r)) by (unfold same_desc; auto).
    destruct S8 as (D & [(-> & -> & X & Y & Z & RR)|(wc & cs & -> & W & RR & _)]).
    + rewrite X in *. pose proof (rd_app (r_cd r) rest' (concat pieces) _ _ _ _ RC' I' RR) as RR2. cbn in RR2.
      exists [], Invalid, (rest' ++ concat pieces), i', 0%nat, (ostate (r_cd r)), []. auto 10.
    + destruct (rd_join _ _ _ _ _ [] _ _ _ _ RC' RC' SR I' I' RR RR) as (cs3 & st3 & rest3 & i3 & J & _).
      exists (([] ++ wc :: cs) ++ cs3), st3, rest3, i3, 0%nat, (ostate (r_cd r)), ((wc :: cs) ++ cs3).
      split; [exact J|]. split; [|split; [exact SR|split; [reflexivity|split; [reflexivity|exact J]]]].
      rewrite (wr_same cd (r_cd r)) by exact SD. cbn. rewrite W. reflexivity.
  - cbn [concat] in *. rewrite <- app_assoc in IH.
    destruct (spec_mid _ _ _ _ _ S) as (cs1 & cs2 & st & rest1 & i & n & M1 & M2 & M3).
    pose proof S as (_ & _ & _ & _ & SD & _).
    eapply outcome_glue; eauto.
  - destruct (spec_mid _ _ _ _ _ S) as (cs1 & cs2 & st & rest1 & i & n & M1 & M2 & M3).
    pose proof S as (_ & _ & _ & _ & SD & _).
    eapply outcome_glue; eauto.
Qed.

Lemma outcome_det : forall cd s out res rest cd' out2 res2 rest2 cd2,
  outcome cd s out res rest cd' -> outcome cd s out2 res2 rest2 cd2 ->
  out = out2 /\ res = res2 /\ ostate cd' = ostate cd2 /\
  ((rest = rest2 /\ cd' = cd2) \/
   (res = Err EILSEQ /\ exists wc cs st r i, rd cd' rest (wc :: cs) st r i /\ rd cd2 rest2 (wc :: cs) st r i)).
Proof.
  intros cd s out res rest cd' out2 res2 rest2 cd2 (cs & st & r0 & i & m & o & bad & A1 & A2 & A3 & A4 & A5)
    (cs' & st' & r0' & i' & m' & o' & bad' & B1 & B2 & B3 & B4 & B5).
  destruct (rd_det _ _ _ _ _ _ _ _ _ _ A1 B1) as (<- & <- & <- & <-). rewrite A2 in B2. injection B2 as <- <- <- <-.
  split; [reflexivity|]. destruct bad as [|wc bad].
  - destruct A5 as (-> & A6 & ->). destruct B5 as (-> & B6 & ->). repeat split; try congruence. left. split; [reflexivity|].
    assert (S : same_desc cd' cd2).
    { destruct A3 as (X1 & X2 & X3 & X4 & X5), B3 as (Y1 & Y2 & Y3 & Y4 & Y5). unfold same_desc. repeat split; congruence. }
    apply same_at in S. rewrite S, B6, B4, <- A6, <- A4. destruct cd'; reflexivity.
  - destruct A5 as (-> & A6). destruct B5 as (-> & B6). repeat split; try congruence. right. split; [reflexivity|]. eauto 10.
Qed.

(** A buffer of 16*(2n+1)+16 bytes is unlimited for n input bytes. *)
Definition enough (n : nat) : nat := (MAXNEED * (2 * n + 1) + MAXNEED)%nat.
Lemma enough_room : forall cd s outb outleft r, reachable cd -> input s -> (outleft <= length outb)%nat ->
  (enough (length s) <= outleft)%nat -> reiconv_iconv cd (Some s) (Some outb) outleft = Ok r -> r_ret r <> Err E2BIG.
Proof.
  intros cd s outb outleft r H I R L E X. destruct (iconv_meets_spec cd s outb outleft H I R) as (r' & E' & S & _).
  rewrite E in E'. inversion E'; subst r'.
  destruct S as (S1 & S2 & S3 & _ & _ & cs1 & cs2 & st & rest & i & n & S6 & S7 & S8). rewrite X in S8.
  destruct S8 as (wc & cs & -> & _ & F & _).
  destruct (rd_total cd s H I) as (cs' & st' & rest' & i' & T & U & V & _).
  destruct (rd_det _ _ _ _ _ _ _ _ _ _ S6 T) as (<- & _).
  apply Forall_app in U. destruct U as (U & _). destruct (wr_bounds _ _ _ _ _ _ H U S7) as (_ & W & _).
  rewrite app_length in V. cbn in V. unfold produced in W. rewrite firstn_length in W. rewrite S1 in W.
  unfold enough, MAXNEED in *. lia.
Qed.

(** C04: any way of cutting the input (and the output) gives the bytes, the result and the final state of one
    call that does not run out of space. *)
Theorem C04_input_cut_anywhere : forall cd inp pieces out res rest cd' outb outleft r,
  reachable cd -> input (inp ++ concat pieces) -> session cd inp pieces out res rest cd' ->
  (outleft <= length outb)%nat -> reiconv_iconv cd (Some (inp ++ concat pieces)) (Some outb) outleft = Ok r ->
  r_ret r <> Err E2BIG ->
  out = produced r /\ res = kind (r_ret r) /\ ostate cd' = ostate (r_cd r) /\
  (res <> Err EILSEQ -> rest = r_in r /\ cd' = r_cd r).
Proof.
  intros cd inp pieces out res rest cd' outb outleft r H I S R E N.
  destruct (iconv_meets_spec cd _ outb outleft H I R) as (r' & E' & S' & _). rewrite E in E'. inversion E'; subst r'.
  destruct (outcome_det _ _ _ _ _ _ _ _ _ _ (session_outcome _ _ _ _ _ _ _ S H I) (call_outcome _ _ _ _ _ S' N)) as (A & B & C & D).
  repeat (split; [assumption|]). intros X. destruct D as [D|(D & _)]; [exact D|contradiction].
Qed.
(** Such a call exists, for every input. *)
Theorem C04_unlimited_call : forall cd s, reachable cd -> input s ->
  exists outb r, reiconv_iconv cd (Some s) (Some outb) (length outb) = Ok r /\ r_ret r <> Err E2BIG.
Proof.
  intros cd s H I. set (outb := repeat 0 (enough (length s))). exists outb.
  destruct (iconv_meets_spec cd s outb (length outb) H I (le_n _)) as (r & E & _). exists r. split; [exact E|].
  eapply enough_room; [exact H|exact I|apply le_n| |exact E]. unfold outb. rewrite repeat_length. apply le_n.
Qed.
(** When the conversion stops at a character that cannot be written, both ways stop at that same character. *)
Theorem C04_same_stop : forall cd inp pieces out rest cd' outb outleft r,
  reachable cd -> input (inp ++ concat pieces) -> session cd inp pieces out (Err EILSEQ) rest cd' ->
  (outleft <= length outb)%nat -> reiconv_iconv cd (Some (inp ++ concat pieces)) (Some outb) outleft = Ok r ->
  r_ret r <> Err E2BIG ->
  (rest = r_in r /\ cd' = r_cd r) \/
  exists wc cs st r0 i, rd cd' rest (wc :: cs) st r0 i /\ rd (r_cd r) (r_in r) (wc :: cs) st r0 i.
Proof.
  intros cd inp pieces out rest cd' outb outleft r H I S R E N.
  destruct (iconv_meets_spec cd _ outb outleft H I R) as (r' & E' & S' & _). rewrite E in E'. inversion E'; subst r'.
  destruct (outcome_det _ _ _ _ _ _ _ _ _ _ (session_outcome _ _ _ _ _ _ _ S H I) (call_outcome _ _ _ _ _ S' N)) as (A & B & C & D).
  destruct D as [D|(_ & D)]; auto.
Qed.

(** C05: a conversion of one input that is continued with new buffers after each E2BIG. *)
Inductive refill : conv -> list Z -> list Z -> ret -> list Z -> conv -> Prop :=
| ref_end cd inp outb outleft r :
    (outleft <= length outb)%nat -> reiconv_iconv cd (Some inp) (Some outb) outleft = Ok r -> r_ret r <> Err E2BIG ->
    refill cd inp (produced r) (kind (r_ret r)) (r_in r) (r_cd r)
| ref_more cd inp outb outleft r out res rest cd' :
    (outleft <= length outb)%nat -> reiconv_iconv cd (Some inp) (Some outb) outleft = Ok r -> r_ret r = Err E2BIG ->
    refill (r_cd r) (r_in r) out res rest cd' -> refill cd inp (produced r ++ out) res rest cd'.
Lemma refill_session : forall cd inp out res rest cd', refill cd inp out res rest cd' -> session cd inp [] out res rest cd'.
Proof.
  intros cd inp out res rest cd' H. induction H.
  - destruct (r_ret r) as [n|e] eqn:E; [apply ses_end with (outb := outb) (outleft := outleft) in H0; try congruence; now rewrite E in H0|].
    destruct e; try congruence.
    2, 3: apply ses_end with (outb := outb) (outleft := outleft) in H0; try congruence; now rewrite E in H0.
    pose proof (ses_bad cd inp [] outb outleft r H H0 E) as X. cbn in X. rewrite app_nil_r in X. exact X.
  - eapply ses_more; eauto.
Qed.
Theorem C05_E2BIG_loses_nothing : forall cd s out res rest cd' outb outleft r,
  reachable cd -> input s -> refill cd s out res rest cd' ->
  (outleft <= length outb)%nat -> reiconv_iconv cd (Some s) (Some outb) outleft = Ok r -> r_ret r <> Err E2BIG ->
  out = produced r /\ res = kind (r_ret r) /\ ostate cd' = ostate (r_cd r) /\
  (res <> Err EILSEQ -> rest = r_in r /\ cd' = r_cd r).
Proof.
  intros cd s out res rest cd' outb outleft r H I S R E N. apply refill_session in S.
  eapply (C04_input_cut_anywhere cd s []); eauto; cbn; now rewrite app_nil_r.
Qed.
(** Buffers of at least 16 bytes always get to the end. *)
Theorem C05_refill_ends : forall cd s size, reachable cd -> input s -> (MAXNEED <= size)%nat ->
  exists out res rest cd', refill cd s out res rest cd'.
Proof.
  intros cd s size H I L. destruct (rd_total cd s H I) as (cs & st & rest & i & R & _).
  remember (length cs) as m eqn:M. assert (LE : (length cs <= m)%nat) by lia. clear M. revert cd s cs st rest i H I R LE.
  induction m as [m IH] using lt_wf_ind. intros cd s cs st rest i H I R LE.
  destruct (iconv_meets_spec cd s (repeat 0 size) size H I) as (r & E & S & RC); [rewrite repeat_length; lia|].
  assert (LL : (size <= length (repeat 0%Z size))%nat) by (rewrite repeat_length; lia).
  assert (D : r_ret r = Err E2BIG \/ r_ret r <> Err E2BIG).
  { destruct (r_ret r) as [|[]]; auto; right; discriminate. }
  destruct D as [D|D].
  - destruct S as (S1 & S2 & S3 & (k & K & S4) & S5 & cs1 & cs2 & st' & rest' & i' & n & S6 & S7 & S8). rewrite D in S8.
    destruct S8 as (wc & cs' & -> & (RR & _) & F & _).
    destruct (rd_det _ _ _ _ _ _ _ _ _ _ R S6) as (-> & <- & <- & <-).
    assert (N : cs1 <> []).
    { intros ->. unfold wr in S7. cbn in S7. inversion S7 as [[P0 P1 P2]]. unfold produced in P0.
      assert (P : length (firstn (r_pos r) (r_out r)) = r_pos r). { rewrite firstn_length, S1, repeat_length. lia. }
      rewrite <- P0 in P. cbn in P. unfold MAXNEED in *. lia. }
    destruct (IH (length (wc :: cs'))) with (cd := r_cd r) (s := r_in r) (cs := wc :: cs') (st := st) (rest := rest) (i := i)
      as (out & res & rest2 & cd2 & X); auto.
    { rewrite app_length in LE. destruct cs1; [congruence|cbn in *; lia]. }
    { rewrite S4. rewrite <- (app_nil_r (skipn k s)). apply input_tail. now rewrite app_nil_r. }
    exists (produced r ++ out), res, rest2, cd2. exact (ref_more cd s (repeat 0 size) size r out res rest2 cd2 LL E D X).
  - exists (produced r), (kind (r_ret r)), (r_in r), (r_cd r). eapply ref_end; eauto.
Qed.

(** * C06: E2BIG only when the next character does not fit *)
Theorem C06_E2BIG_only_when_full : forall cd s outb outleft r,
  reachable cd -> input s -> (outleft <= length outb)%nat -> reiconv_iconv cd (Some s) (Some outb) outleft = Ok r ->
  r_ret r = Err E2BIG ->
  (r_left r < 16)%nat /\
  exists wc cs st rest i, rd (r_cd r) (r_in r) (wc :: cs) st rest i /\
    forall bs ost', emit (ofuncs cd) wc (ostate (r_cd r)) = Some (bs, ost') -> r_left r = 0%nat \/ (r_left r < length bs)%nat.
Proof.
  intros cd s outb outleft r H I R E X. destruct (iconv_meets_spec cd s outb outleft H I R) as (r' & E' & S & _).
  rewrite E in E'. inversion E'; subst r'.
  destruct S as (S1 & S2 & S3 & _ & _ & cs1 & cs2 & st & rest & i & n & S6 & S7 & S8). rewrite X in S8.
  destruct S8 as (wc & cs & -> & (RR & _) & F & G). split; [exact F|]. exists wc, cs, st, rest, i. split; [exact RR|].
  intros bs ost' EM. specialize (G bs ost' EM). lia.
Qed.
(** 16 free bytes suffice for progress: either the call ends for another reason or it has written something. *)
Theorem C06_progress : forall cd s outb outleft r,
  reachable cd -> input s -> (16 <= outleft <= length outb)%nat -> reiconv_iconv cd (Some s) (Some outb) outleft = Ok r ->
  r_ret r = Err E2BIG -> (0 < r_pos r)%nat.
Proof.
  intros cd s outb outleft r H I R E X. destruct (C06_E2BIG_only_when_full cd s outb outleft r H I (proj2 R) E X) as (L & _).
  destruct (C02_iconv_accounting cd s outb outleft r H I (proj2 R) E) as (_ & A & _). lia.
Qed.

(** * C07: EINVAL means an incomplete tail *)
Theorem C07_EINVAL_incomplete_tail : forall cd s outb outleft r,
  reachable cd -> input s -> (outleft <= length outb)%nat -> reiconv_iconv cd (Some s) (Some outb) outleft = Ok r ->
  r_ret r = Err EINVAL ->
  r_in r <> [] /\ (exists before, s = before ++ r_in r) /\
  exists cs i n, rd cd s cs Truncated (r_in r) i /\ wr cd cs = (produced r, n, ostate (r_cd r), []).
Proof.
  intros cd s outb outleft r H I R E X. destruct (iconv_meets_spec cd s outb outleft H I R) as (r' & E' & S & _).
  rewrite E in E'. inversion E'; subst r'.
  destruct S as (S1 & S2 & S3 & (k & K & S4) & _ & cs1 & cs2 & st & rest & i & n & S6 & S7 & S8). rewrite X in S8.
  destruct S8 as (-> & -> & A & B & C & D). rewrite app_nil_r in S6. rewrite A. split; [exact B|]. split.
  { exists (firstn k s). rewrite <- A, S4. symmetry. apply firstn_skipn. }
  exists cs1, i, n. rewrite <- A in *. auto.
Qed.
(** Appending the missing bytes and calling again gives what one call on the complete input gives. *)
Theorem C07_EINVAL_resume : forall cd s t outb outleft r outb1 outleft1 r1 outb2 outleft2 r2,
  reachable cd -> input (s ++ t) ->
  (outleft <= length outb)%nat -> reiconv_iconv cd (Some s) (Some outb) outleft = Ok r -> r_ret r = Err EINVAL ->
  (outleft1 <= length outb1)%nat -> reiconv_iconv (r_cd r) (Some (r_in r ++ t)) (Some outb1) outleft1 = Ok r1 -> r_ret r1 <> Err E2BIG ->
  (outleft2 <= length outb2)%nat -> reiconv_iconv cd (Some (s ++ t)) (Some outb2) outleft2 = Ok r2 -> r_ret r2 <> Err E2BIG ->
  produced r2 = produced r ++ produced r1 /\ kind (r_ret r2) = kind (r_ret r1) /\ ostate (r_cd r2) = ostate (r_cd r1) /\
  (kind (r_ret r1) <> Err EILSEQ -> r_in r2 = r_in r1 /\ r_cd r2 = r_cd r1).
Proof.
  intros cd s t outb outleft r outb1 outleft1 r1 outb2 outleft2 r2 H I R E X R1 E1 N1 R2 E2 N2.
  assert (S1 : session (r_cd r) (r_in r ++ t) [] (produced r1) (kind (r_ret r1)) (r_in r1) (r_cd r1)).
  { apply refill_session. exact (ref_end _ _ outb1 outleft1 r1 R1 E1 N1). }
  assert (S : session cd s [t] (produced r ++ produced r1) (kind (r_ret r1)) (r_in r1) (r_cd r1)).
  { refine (ses_next cd s t [] outb outleft r _ _ _ _ R E _ _ S1); congruence. }
  assert (CC : s ++ concat [t] = s ++ t) by (cbn; now rewrite app_nil_r).
  rewrite <- CC in I, E2.
  destruct (C04_input_cut_anywhere cd s [t] _ _ _ _ outb2 outleft2 r2 H I S R2 E2 N2) as (A & B & C & D).
  split; [now symmetry|]. split; [now symmetry|]. split; [now symmetry|]. intros Y. destruct (D Y). auto.
Qed.

(** * C08: EILSEQ stops at the offending sequence *)
Theorem C08_EILSEQ_output_exact : forall cd s outb outleft r,
  reachable cd -> input s -> (outleft <= length outb)%nat -> reiconv_iconv cd (Some s) (Some outb) outleft = Ok r ->
  r_ret r = Err EILSEQ ->
  exists cs n, wr cd cs = (produced r, n, ostate (r_cd r), []) /\
    ((exists i, rd cd s cs Invalid (r_in r) i /\ rd (r_cd r) (r_in r) [] Invalid (r_in r) i) \/
     (exists wc cs' st rest i, rd cd s (cs ++ wc :: cs') st rest i /\ rd (r_cd r) (r_in r) (wc :: cs') st rest i /\
        emit (ofuncs cd) wc (ostate (r_cd r)) = None /\ emit (ofuncs cd) 0xfffd (ostate (r_cd r)) = None)).
Proof.
  intros cd s outb outleft r H I R E X. destruct (iconv_meets_spec cd s outb outleft H I R) as (r' & E' & S & _).
  rewrite E in E'. inversion E'; subst r'.
  destruct S as (S1 & S2 & S3 & _ & _ & cs1 & cs2 & st & rest & i & n & S6 & S7 & S8). rewrite X in S8.
  exists cs1, n. split; [exact S7|]. destruct S8 as (D & [(-> & -> & A & B & C & F)|(wc & cs & -> & W & RR & _)]).
  - left. rewrite app_nil_r in S6. exists i. rewrite A. auto.
  - right. exists wc, cs, st, rest, i. split; [exact S6|]. split; [exact RR|]. rewrite D in W. unfold write1 in W.
    destruct (emit (ofuncs cd) wc (ostate (r_cd r))) as [[? ?]|]; [discriminate|]. split; [reflexivity|].
    destruct (tag wc); [discriminate|]. destruct (emit (ofuncs cd) 65533 (ostate (r_cd r))) as [[? ?]|]; [discriminate|reflexivity].
Qed.
(** A further call at that position produces nothing and fails again, with EILSEQ or, if the buffer has
    less than 16 bytes, possibly with E2BIG. *)
Theorem C08_EILSEQ_again : forall cd s outb outleft r outb2 outleft2 r2,
  reachable cd -> input s -> (outleft <= length outb)%nat -> reiconv_iconv cd (Some s) (Some outb) outleft = Ok r ->
  r_ret r = Err EILSEQ -> (outleft2 <= length outb2)%nat ->
  reiconv_iconv (r_cd r) (Some (r_in r)) (Some outb2) outleft2 = Ok r2 ->
  (r_ret r2 = Err EILSEQ \/ r_ret r2 = Err E2BIG /\ (outleft2 < 16)%nat) /\ r_pos r2 = 0%nat.
Proof.
  intros cd s outb outleft r outb2 outleft2 r2 H I R E X R2 E2.
  destruct (iconv_meets_spec cd s outb outleft H I R) as (r' & E' & S & RC). rewrite E in E'. inversion E'; subst r'.
  pose proof S as (S1 & S2 & S3 & (k & K & S4) & SD & cs1 & cs2 & st & rest & i & n & S6 & S7 & S8). rewrite X in S8.
  assert (I2 : input (r_in r)).
  { rewrite S4. rewrite <- (app_nil_r (skipn k s)). apply input_tail. now rewrite app_nil_r. }
  destruct (iconv_meets_spec (r_cd r) (r_in r) outb2 outleft2 RC I2 R2) as (r' & E3 & T & _). rewrite E2 in E3. inversion E3; subst r'.
  destruct T as (T1 & T2 & T3 & _ & _ & ds1 & ds2 & st2 & rest2 & i2 & n2 & T6 & T7 & T8).
  assert (W : ds1 = [] /\ (ds2 <> [] \/ st2 = Invalid)).
  { destruct S8 as (D & [(-> & -> & A & B & C & F)|(wc & cs & -> & W & RR & _)]).
    - rewrite A in T6. destruct (rd_det _ _ _ _ _ _ _ _ _ _ F T6) as (Y & <- & _). symmetry in Y. apply app_eq_nil in Y. destruct Y. auto.
    - destruct (rd_det _ _ _ _ _ _ _ _ _ _ RR T6) as (Y & _). destruct ds1 as [|d ds1]; [split; [reflexivity|]; left; cbn in Y; subst ds2; discriminate|].
      exfalso. cbn in Y. inversion Y; subst d. rewrite (wr_same cd (r_cd r)) in T7 by exact SD. cbn in T7. rewrite W in T7. discriminate. }
  destruct W as (-> & W). rewrite (wr_same cd (r_cd r)) in T7 by exact SD. cbn in T7. inversion T7 as [[P0 P1 P2]].
  assert (P : r_pos r2 = 0%nat).
  { unfold produced in P0. apply (f_equal (@length Z)) in P0. rewrite firstn_length, T1 in P0. cbn in P0. lia. }
  split; [|exact P]. destruct (r_ret r2) as [m|[]]; auto.
  - destruct T8 as (_ & -> & -> & _). destruct W as [W|W]; [congruence|discriminate].
  - right. destruct T8 as (_ & _ & _ & _ & L & _). unfold MAXNEED in L. split; [reflexivity|lia].
  - destruct T8 as (-> & -> & _). destruct W as [W|W]; [congruence|discriminate].
  - contradiction.
Qed.

(** * C09: discarding *)
Theorem C09_discard_never_EILSEQ : forall cd s outb outleft r,
  reachable cd -> input s -> (outleft <= length outb)%nat -> skipping cd = true ->
  reiconv_iconv cd (Some s) (Some outb) outleft = Ok r -> r_ret r <> Err EILSEQ.
Proof.
  intros cd s outb outleft r H I R D E X. destruct (iconv_meets_spec cd s outb outleft H I R) as (r' & E' & S & _).
  rewrite E in E'. inversion E'; subst r'.
  destruct S as (S1 & S2 & S3 & _ & _ & cs1 & cs2 & st & rest & i & n & S6 & S7 & S8). rewrite X in S8. destruct S8. congruence.
Qed.
(** The bytes of the encodable characters of a text, in order: nothing else is written when discarding. *)
Fixpoint encodable (f : funcs) (cs : list Z) (ost : Z) : list Z :=
  match cs with
  | [] => []
  | wc :: cs' => match emit f wc ost with
    | Some (bs, ost') => bs ++ encodable f cs' ost'
    | None => encodable f cs' ost
    end
  end.
Lemma writes_all_skip : forall f cs ost, exists n o, writes_all f true cs ost = (encodable f cs ost, n, o, []).
Proof.
  induction cs as [|wc cs IH]; intros ost; cbn; eauto. unfold write1. destruct (emit f wc ost) as [[bs ost']|].
  - destruct (IH ost') as (n & o & ->). eauto.
  - destruct (IH ost) as (n & o & E). destruct (tag wc); rewrite E; cbn; eauto.
Qed.
Theorem C09_discard_keeps_the_rest : forall cd s outb outleft r n,
  reachable cd -> input s -> (outleft <= length outb)%nat -> skipping cd = true ->
  reiconv_iconv cd (Some s) (Some outb) outleft = Ok r -> r_ret r = Num n ->
  exists cs i, reads (ifuncs cd) (unit_of cd) true s (cd_i cd) cs AtEnd [] i /\ produced r = encodable (ofuncs cd) cs (ostate cd).
Proof.
  intros cd s outb outleft r n H I R D E X. destruct (iconv_meets_spec cd s outb outleft H I R) as (r' & E' & S & _).
  rewrite E in E'. inversion E'; subst r'.
  destruct S as (S1 & S2 & S3 & _ & _ & cs1 & cs2 & st & rest & i & m & S6 & S7 & S8). rewrite X in S8.
  destruct S8 as (_ & -> & -> & _ & _). rewrite app_nil_r in S6. pose proof (rd_end _ _ _ _ _ S6). subst rest.
  exists cs1, i. unfold rd in S6. rewrite D in S6. split; [exact S6|].
  unfold wr in S7. rewrite D in S7. destruct (writes_all_skip (ofuncs cd) cs1 (ostate cd)) as (a & b & Y). rewrite Y in S7.
  inversion S7. reflexivity.
Qed.

(** * C10: the returned count *)
(** How many characters of a text are neither representable nor tags: lost f repl cs ost, where repl says
    whether U+FFFD is written in their place. *)
Fixpoint lost (f : funcs) (skip : bool) (cs : list Z) (ost : Z) : nat :=
  match cs with
  | [] => 0
  | wc :: cs' =>
    match emit f wc ost with
    | Some (_, ost') => lost f skip cs' ost'
    | None =>
      if tag wc then lost f skip cs' ost
      else S (if skip then lost f skip cs' ost
              else match emit f 0xfffd ost with Some (_, ost') => lost f skip cs' ost' | None => 0 end)
    end
  end.
Lemma writes_all_lost : forall f skip cs ost out n o, writes_all f skip cs ost = (out, n, o, []) -> n = lost f skip cs ost.
Proof.
  induction cs as [|wc cs IH]; cbn; intros ost out n o H; [now inversion H|]. unfold write1 in H.
  destruct (emit f wc ost) as [[bs ost']|] eqn:E.
  { destruct (writes_all f skip cs ost') as [[[a b] c] d] eqn:W. inversion H; subst. eapply IH; eauto. }
  destruct (tag wc).
  { destruct (writes_all f skip cs ost) as [[[a b] c] d] eqn:W. inversion H; subst. eapply IH; eauto. }
  destruct skip.
  { destruct (writes_all f true cs ost) as [[[a b] c] d] eqn:W. inversion H; subst. f_equal. eapply IH; eauto. }
  destruct (emit f 65533 ost) as [[bs ost']|] eqn:E2; [|discriminate].
  destruct (writes_all f false cs ost') as [[[a b] c] d] eqn:W. inversion H; subst. f_equal. eapply IH; eauto.
Qed.
Theorem C10_count_of_lost_characters : forall cd s outb outleft r n,
  reachable cd -> input s -> (outleft <= length outb)%nat -> reiconv_iconv cd (Some s) (Some outb) outleft = Ok r ->
  r_ret r = Num n ->
  exists cs i, rd cd s cs AtEnd [] i /\ n = lost (ofuncs cd) (skipping cd) cs (ostate cd).
Proof.
  intros cd s outb outleft r n H I R E X. destruct (iconv_meets_spec cd s outb outleft H I R) as (r' & E' & S & _).
  rewrite E in E'. inversion E'; subst r'.
  destruct S as (S1 & S2 & S3 & _ & _ & cs1 & cs2 & st & rest & i & m & S6 & S7 & S8). rewrite X in S8.
  destruct S8 as (-> & -> & -> & _ & _). rewrite app_nil_r in S6. pose proof (rd_end _ _ _ _ _ S6). subst rest.
  exists cs1, i. split; [exact S6|]. eapply writes_all_lost. exact S7.
Qed.
(** 0 exactly when every character is representable or a tag. *)
Theorem C10_zero_iff_all_representable : forall cd s outb outleft r n,
  reachable cd -> input s -> (outleft <= length outb)%nat -> reiconv_iconv cd (Some s) (Some outb) outleft = Ok r ->
  r_ret r = Num n ->
  exists cs i, rd cd s cs AtEnd [] i /\
   (n = 0%nat <-> forall a wc b out m o, cs = a ++ wc :: b -> wr cd a = (out, m, o, []) -> emit (ofuncs cd) wc o <> None \/ tag wc = true).
Proof.
  intros cd s outb outleft r n H I R E X. destruct (iconv_meets_spec cd s outb outleft H I R) as (r' & E' & S & _).
  rewrite E in E'. inversion E'; subst r'.
  destruct S as (S1 & S2 & S3 & _ & _ & cs1 & cs2 & st & rest & i & m & S6 & S7 & S8). rewrite X in S8.
  destruct S8 as (-> & -> & -> & _ & _). rewrite app_nil_r in S6. pose proof (rd_end _ _ _ _ _ S6). subst rest.
  exists cs1, i. split; [exact S6|]. unfold wr in *. revert S7.
  generalize (produced r) (ostate (r_cd r)) (ostate cd). clear. revert m. generalize (ofuncs cd) (skipping cd). intros f skip.
  induction cs1 as [|wc cs IH]; intros m out o ost H; cbn in H.
  - inversion H; subst. split; [|auto]. intros _ a wc b out m o2 C. destruct a; discriminate.
  - destruct (write1 f skip wc ost) as [[[bs ost'] c]|] eqn:W; [|discriminate].
    destruct (writes_all f skip cs ost') as [[[out2 n2] o2] bad2] eqn:W2. inversion H; subst. specialize (IH _ _ _ _ W2). split.
    + intros Z. assert (Z1 : c = 0%nat /\ n2 = 0%nat) by lia. destruct Z1; subst. intros a wc2 b out m o3 C Wa.
      destruct a as [|a0 a]; cbn in C; inversion C; subst.
      * cbn in Wa. inversion Wa; subst. unfold write1 in W. destruct (emit f wc2 o3) as [[? ?]|]; [left; discriminate|].
        destruct (tag wc2); [auto|]. destruct skip; [discriminate|]. destruct (emit f 65533 o3) as [[? ?]|]; discriminate.
      * cbn in Wa. rewrite W in Wa. destruct (writes_all f skip a ost') as [[[? ?] ?] ?] eqn:Wb. inversion Wa; subst.
        apply (proj1 IH eq_refl a wc2 b _ _ _ eq_refl Wb).
    + intros Z. assert (c = 0%nat).
      { specialize (Z [] wc cs [] 0%nat ost eq_refl eq_refl). unfold write1 in W. destruct (emit f wc ost) as [[? ?]|]; [inversion W; auto|].
        destruct Z as [Z|Z]; [congruence|]. rewrite Z in W. inversion W. reflexivity. }
      subst c. cbn. apply IH. intros a wc2 b out m o3 C Wa. subst cs.
      apply (Z (wc :: a) wc2 b (bs ++ out) m o3 eq_refl). cbn. rewrite W, Wa. reflexivity.
Qed.

(** * C11: reset *)
Theorem C11_flush_resets_partial : forall cd outb outleft r n,
  reachable cd -> (outleft <= length outb)%nat -> (1 <= outleft)%nat \/ pending cd = [] ->
  ~ In (iindex cd) bom_sources ->
  reiconv_iconv cd None (Some outb) outleft = Ok r -> r_ret r = Num n ->
  exists flags, reiconv_open_from_index true (iindex cd) (oindex cd) flags = Ok (inl (r_cd r)).
Proof.
  intros cd outb outleft r n H R P B E X.
  destruct (flush_meets_spec cd outb outleft H R P) as (r' & E' & S & RC). rewrite E in E'. inversion E'; subst r'.
  destruct S as (S1 & S2 & S3 & S4 & S5 & S6). rewrite X in S6. destruct S6 as (out & o1 & A1 & A2 & A3 & A4).
  destruct (reachable_opened cd H) as (from & to & flags & cd0 & C1 & C2 & C3 & C4).
  destruct (good_open _ _ _ _ C1 C2 C3) as (_ & G1 & G2 & G3 & G4).
  exists flags. assert (EQ : r_cd r = cd0).
  { pose proof (same_desc_trans _ _ _ C4 S5) as D. apply same_at in D. rewrite D, A3, A4.
    rewrite (not_bom_byteorder cd H B). rewrite <- G1, <- G2. destruct cd0; reflexivity. }
  rewrite EQ. destruct C4 as (D1 & D2 & D3 & D4 & D5). rewrite D1, D3, G3, G4. exact C3.
Qed.
Theorem C11_null_resets_partial : forall cd outleft r,
  reachable cd -> ~ In (iindex cd) bom_sources -> reiconv_iconv cd None None outleft = Ok r ->
  r_ret r = Num 0 /\ exists flags, reiconv_open_from_index true (iindex cd) (oindex cd) flags = Ok (inl (r_cd r)).
Proof.
  intros cd outleft r H B E. cbn in E. inversion E; subst. cbn. split; [reflexivity|].
  destruct (reachable_opened cd H) as (from & to & flags & cd0 & C1 & C2 & C3 & C4).
  destruct (good_open _ _ _ _ C1 C2 C3) as (_ & G1 & G2 & G3 & G4). exists flags.
  assert (EQ : loop_reset_null cd = cd0).
  { apply same_at in C4. rewrite C4. unfold loop_reset_null, at_, set_ost, set_ist, set_i; cbn.
    rewrite (not_bom_byteorder cd H B). destruct cd0; cbn in *. unfold cd_i in G1. cbn in G1. inversion G1; subst. reflexivity. }
  rewrite EQ. destruct C4 as (D1 & D2 & D3 & D4 & D5). rewrite D1, D3, G3, G4. exact C3.
Qed.
(** For every source encoding the shift states are the initial ones; only a detected byte order remains. *)
Theorem C11_flush_initial_states : forall cd outb outleft r n,
  reachable cd -> (outleft <= length outb)%nat -> (1 <= outleft)%nat \/ pending cd = [] ->
  reiconv_iconv cd None (Some outb) outleft = Ok r -> r_ret r = Num n ->
  istate (r_cd r) = 0 /\ ostate (r_cd r) = 0 /\ ibyteorder (r_cd r) = ibyteorder cd /\ same_desc cd (r_cd r).
Proof.
  intros cd outb outleft r n H R P E X.
  destruct (flush_meets_spec cd outb outleft H R P) as (r' & E' & S & RC). rewrite E in E'. inversion E'; subst r'.
  destruct S as (S1 & S2 & S3 & S4 & S5 & S6). rewrite X in S6. destruct S6 as (out & o1 & A1 & A2 & A3 & A4).
  pose proof (f_equal fst A3) as A5. pose proof (f_equal snd A3) as A6. cbn in A5, A6. auto.
Qed.

(** * C13: a text, then a flush *)
Theorem C13_text_and_flush : forall cd s outb outleft r n outb2 outleft2 r2 m,
  reachable cd -> input s -> (outleft <= length outb)%nat -> reiconv_iconv cd (Some s) (Some outb) outleft = Ok r -> r_ret r = Num n ->
  (1 <= outleft2 <= length outb2)%nat -> reiconv_iconv (r_cd r) None (Some outb2) outleft2 = Ok r2 -> r_ret r2 = Num m ->
  exists cs i out o, rd cd s cs AtEnd [] i /\
    wr cd (cs ++ held (ifuncs cd) (fst i)) = (out, (n + m)%nat, o, []) /\
    produced r ++ produced r2 = out ++ closing (ofuncs cd) o /\ ostate (r_cd r2) = 0.
Proof.
  intros cd s outb outleft r n outb2 outleft2 r2 m H I R E X R2 E2 X2.
  destruct (iconv_meets_spec cd s outb outleft H I R) as (r' & E' & S & RC). rewrite E in E'. inversion E'; subst r'.
  destruct S as (S1 & S2 & S3 & S4 & SD & cs1 & cs2 & st & rest & i & n' & S6 & S7 & S8). rewrite X in S8.
  destruct S8 as (-> & -> & -> & A & B). rewrite app_nil_r in S6. pose proof (rd_end _ _ _ _ _ S6). subst rest.
  destruct (flush_meets_spec (r_cd r) outb2 outleft2 RC) as (r' & E3 & T & _); [lia|left; lia|]. rewrite E2 in E3. inversion E3; subst r'.
  destruct T as (_ & _ & _ & _ & _ & T). rewrite X2 in T. destruct T as (out2 & o1 & T1 & T2 & T3 & T4).
  pose proof SD as (D1 & D2 & D3 & D4 & D5).
  assert (PE : pending (r_cd r) = held (ifuncs cd) (fst i)). { unfold pending. rewrite D2, <- B. reflexivity. }
  rewrite PE in T1. rewrite (wr_same cd (r_cd r)) in T1 by exact SD.
  exists cs1, i, (produced r ++ out2), o1. split; [exact S6|]. split.
  { rewrite (wr_app _ _ _ _ _ _ S7). rewrite T1. reflexivity. }
  split; [|exact T4]. rewrite T2, D4. now rewrite app_assoc.
Qed.

(** * C14: flushing is memory safe as long as a free byte remains or no character is held back *)
Theorem C14_flush_memory_safe_partial : forall cd outb outleft,
  reachable cd -> (outleft <= length outb)%nat -> (1 <= outleft)%nat \/ pending cd = [] ->
  exists r, reiconv_iconv cd None (Some outb) outleft = Ok r /\
    length (r_out r) = length outb /\ skipn outleft (r_out r) = skipn outleft outb /\ (r_pos r + r_left r)%nat = outleft.
Proof.
  intros cd outb outleft H R P. destruct (flush_meets_spec cd outb outleft H R P) as (r & E & S & _).
  exists r. destruct S as (S1 & S2 & S3 & _). auto.
Qed.

(** * C15: flushing again after E2BIG *)
Inductive reflush : conv -> list Z -> nat -> Prop :=
| rf_end cd outb outleft r n :
    (outleft <= length outb)%nat -> (1 <= outleft)%nat \/ pending cd = [] -> reiconv_iconv cd None (Some outb) outleft = Ok r ->
    r_ret r = Num n -> reflush cd (produced r) n
| rf_more cd outb outleft r out n :
    (outleft <= length outb)%nat -> (1 <= outleft)%nat \/ pending cd = [] -> reiconv_iconv cd None (Some outb) outleft = Ok r ->
    r_ret r = Err E2BIG -> reflush (r_cd r) out n -> reflush cd (produced r ++ out) n.
Theorem C15_flush_again : forall cd out n, reflush cd out n -> reachable cd ->
  exists out0 o m, wr cd (pending cd) = (out0, m, o, []) /\ out = out0 ++ closing (ofuncs cd) o.
Proof.
  intros cd out n H. induction H as [cd outb outleft r n R P E X|cd outb outleft r out n R P E X H IH]; intros RC;
  destruct (flush_meets_spec cd outb outleft RC R P) as (r' & E' & S & RC'); rewrite E in E'; inversion E'; subst r';
  destruct S as (S1 & S2 & S3 & S4 & S5 & S6); rewrite X in S6.
  - destruct S6 as (out0 & o1 & A1 & A2 & A3 & A4). eauto 10.
  - destruct S6 as (h1 & n1 & A1 & A2 & A3 & A4 & A5 & _). destruct (IH RC') as (out0 & o & m & B1 & B2).
    rewrite (wr_same cd (r_cd r)) in B1 by exact S5. exists (produced r ++ out0), o, (n1 + m)%nat. rewrite A2. split.
    + rewrite (wr_app _ _ _ _ _ _ A1), B1. reflexivity.
    + rewrite B2. destruct S5 as (D1 & D2 & D3 & D4 & D5). rewrite D4. now rewrite app_assoc.
Qed.
(** 32 free bytes are enough for every flush. *)
Theorem C15_flush_room : forall cd outb outleft r,
  reachable cd -> (32 <= outleft <= length outb)%nat -> reiconv_iconv cd None (Some outb) outleft = Ok r -> r_ret r <> Err E2BIG.
Proof.
  intros cd outb outleft r RC R E X. destruct (flush_meets_spec cd outb outleft RC) as (r' & E' & S & RC'); [lia|lia|].
  rewrite E in E'; inversion E'; subst r'. destruct S as (S1 & S2 & S3 & S4 & S5 & S6); rewrite X in S6.
  destruct S6 as (h1 & n1 & A1 & A2 & A3 & A4 & A5 & _).
  assert (F : Forall ucs4 h1). { pose proof (pending_ucs4 cd RC) as F. rewrite A2 in F. now apply Forall_app in F. }
  destruct (wr_bounds _ _ _ _ _ _ RC F A1) as (_ & L & _).
  assert (L1 : (length h1 <= 1)%nat).
  { assert (length (pending cd) <= 1)%nat. { unfold pending, held. destruct (f_flush (ifuncs cd)); [|cbn; lia].
      destruct (r0 (istate cd)) as [[[b [w|]] i]| | |]; cbn; try lia. destruct (b =? 0); cbn; lia. }
    rewrite A2, app_length in H. lia. }
  unfold produced in L. rewrite firstn_length, S1 in L. unfold MAXNEED in *. lia.
Qed.

(** * C43: a failed attempt to write leaves the states alone *)
Theorem C43_failed_write_keeps_state : forall cd s outb outleft r,
  reachable cd -> input s -> (outleft <= length outb)%nat -> reiconv_iconv cd (Some s) (Some outb) outleft = Ok r ->
  r_ret r = Err E2BIG \/ r_ret r = Err EILSEQ ->
  exists done rest st r0 i n,
    rd cd s (done ++ rest) st r0 i /\
    wr cd done = (produced r, n, ostate (r_cd r), []) /\ rd (r_cd r) (r_in r) rest st r0 i.
Proof.
  intros cd s outb outleft r H I R E X. destruct (iconv_meets_spec cd s outb outleft H I R) as (r' & E' & S & _).
  rewrite E in E'. inversion E'; subst r'. destruct (spec_mid _ _ _ _ _ S) as (cs1 & cs2 & st & rest & i & n & A & B & C).
  exists cs1, cs2, st, rest, i, n. auto.
Qed.

(** * Concrete cases *)
(** "a" HIRAGANA A "b" in UTF-8. *)
Definition text1 : list Z := [0x61; 0xe3; 0x81; 0x82; 0x62].

(** C01, C02, C03 *)
Example C01_case : reachable u8_jp /\ input text1 /\ seen (call u8_jp text1 20) = (Num 0, [97; 27; 36; 66; 36; 34; 27; 40; 66; 98], []).
Proof. split; [exact r_u8_jp|]. split; [inp|run]. Qed.
Example C02_case : seen (call u8_jp text1 6) = (Err E2BIG, [97; 27; 36; 66; 36; 34], [98]).
Proof. run. Qed.
(** C01 fails for GB18030:2005 as target: U+E816 needs four bytes, but only two free bytes are checked for. *)
Theorem C01_refuted : exists cd s outb outleft,
  reiconv_open_from_index true ei_utf8 ei_gb18030_2005 0 = Ok (inl cd) /\ input s /\ (outleft <= length outb)%nat /\
  reiconv_iconv cd (Some s) (Some outb) outleft = UB.
Proof.
  exists (opened ei_utf8 ei_gb18030_2005 0), [0xee; 0xa0; 0x96], [0; 0], 2%nat.
  split; [apply open_ok; vm_compute; split; congruence|]. split; [inp|]. split; [cbn; lia|run].
Qed.
(** With memory behind the two free bytes, these are overwritten and the process aborts. *)
Theorem C01_refuted_abort : exists cd s outb outleft,
  reiconv_open_from_index true ei_utf8 ei_gb18030_2005 0 = Ok (inl cd) /\ input s /\ (outleft <= length outb)%nat /\
  reiconv_iconv cd (Some s) (Some outb) outleft = Abort.
Proof.
  exists (opened ei_utf8 ei_gb18030_2005 0), [0xee; 0xa0; 0x96], [0; 0; 0; 0], 2%nat.
  split; [apply open_ok; vm_compute; split; congruence|]. split; [inp|]. split; [cbn; lia|run].
Qed.

(** C04, C05: text1 in two pieces cut inside the character, with a small first buffer. *)
Example C04_case : exists out rest cd', session u8_jp [0x61; 0xe3] [[0x81; 0x82; 0x62]] out (Num 0) rest cd' /\
  out = [97; 27; 36; 66; 36; 34; 27; 40; 66; 98] /\ rest = [].
Proof.
  pose (r1 := call u8_jp [0x61; 0xe3] 7). pose (r2 := call (r_cd r1) (r_in r1 ++ [0x81; 0x82; 0x62]) 5). pose (r3 := call (r_cd r2) (r_in r2) 9).
  assert (H1 : reachable (r_cd r1)) by (apply call_reachable; [exact r_u8_jp|inp]).
  assert (I2 : input (r_in r1 ++ [0x81; 0x82; 0x62])) by inp.
  assert (H2 : reachable (r_cd r2)) by (apply call_reachable; [exact H1|exact I2]).
  assert (I3 : input (r_in r2)) by inp.
  assert (K3 : kind (r_ret r3) = Num 0) by run.
  exists (produced r1 ++ produced r2 ++ produced r3), (r_in r3), (r_cd r3). split; [|split; run].
  refine (ses_next u8_jp [0x61; 0xe3] [0x81; 0x82; 0x62] [] (repeat 0 7) 7 r1 _ _ _ _ (room_ok 7) (call_ok _ _ _ r_u8_jp _) _ _ _); [inp|vm_compute; discriminate|vm_compute; discriminate|].
  refine (ses_more (r_cd r1) _ [] (repeat 0 5) 5 r2 _ _ _ _ (room_ok 5) (call_ok _ _ _ H1 I2) _ _); [run|].
  rewrite <- K3.
  refine (ses_end (r_cd r2) (r_in r2) (repeat 0 9) 9 r3 (room_ok 9) (call_ok _ _ _ H2 I3) _ _); vm_compute; discriminate.
Qed.
Example C05_case : exists out rest cd', refill u8_jp text1 out (Num 0) rest cd' /\ out = [97; 27; 36; 66; 36; 34; 27; 40; 66; 98].
Proof.
  pose (r1 := call u8_jp text1 7). pose (r2 := call (r_cd r1) (r_in r1) 5).
  assert (H1 : reachable (r_cd r1)) by (apply call_reachable; [exact r_u8_jp|inp]).
  assert (I2 : input (r_in r1)) by inp.
  assert (K2 : kind (r_ret r2) = Num 0) by run.
  exists (produced r1 ++ produced r2), (r_in r2), (r_cd r2). split; [|run].
  refine (ref_more u8_jp text1 (repeat 0 7) 7 r1 _ _ _ _ (room_ok 7) (call_ok _ _ _ r_u8_jp _) _ _); [inp|run|].
  rewrite <- K2. refine (ref_end _ _ (repeat 0 5) 5 r2 (room_ok 5) (call_ok _ _ _ H1 I2) _). vm_compute; discriminate.
Qed.
(** C06: three bytes are left but "b" needs the escape sequence to ASCII, four bytes. *)
Example C06_case : seen (call u8_jp text1 9) = (Err E2BIG, [97; 27; 36; 66; 36; 34], [98]) /\ r_left (call u8_jp text1 9) = 3%nat.
Proof. split; run. Qed.
(** C07 *)
Example C07_case : seen (call u8_jp [0x61; 0xe3; 0x81] 20) = (Err EINVAL, [97], [0xe3; 0x81]).
Proof. run. Qed.
(** C08: an invalid byte, and a character that ISO-8859-1 lacks. *)
Example C08_case : seen (call u8_latin1 [0x61; 0xff; 0x62] 20) = (Err EILSEQ, [97], [0xff; 0x62]) /\
  seen (call u8_latin1 (0xc3 :: 0xa9 :: text1) 20) = (Err EILSEQ, [233; 97], [0xe3; 0x81; 0x82; 0x62]).
Proof. split; run. Qed.
(** C09, C10: both dropped, one character lost. *)
Example C09_case : skipping u8_latin1_ignore = true /\
  seen (call u8_latin1_ignore (0xff :: 0xc3 :: 0xa9 :: text1) 20) = (Num 1, [233; 97; 98], []).
Proof. split; run. Qed.
(** U+FFFD is written instead, and counted, where the target has it: a lone surrogate in UCS-4 to UTF-8. *)
Example C10_case : reachable (opened ei_ucs4be ei_utf8 0) /\
  seen (call (opened ei_ucs4be ei_utf8 0) [0; 0; 0xd8; 0; 0; 0; 0; 0x41] 20) = (Num 1, [0xef; 0xbf; 0xbd; 0x41], []).
Proof. split; [opn|run]. Qed.
(** C11, C13, C15: after HIRAGANA A the encoder is in two-byte mode; a flush returns to ASCII. *)
Example C11_case : let cd := r_cd (call u8_jp [0xe3; 0x81; 0x82] 20) in
  reachable cd /\ ~ In (iindex cd) bom_sources /\ ostate cd <> 0 /\ seen (flush cd 20) = (Num 0, [27; 40; 66], []) /\
  seen (flush cd 2) = (Err E2BIG, [], []).
Proof.
  split; [apply call_reachable; [exact r_u8_jp|inp]|]. split; [apply inb_spec; run|]. split; [vm_compute; discriminate|]. split; run.
Qed.
(** C13, C14: CP1255 holds back the letter ALEF until the flush. *)
Example C13_case : let cd := r_cd (call cp1255_u8 [0xe0] 20) in
  reachable cd /\ pending cd = [0x5d0] /\ seen (call cp1255_u8 [0xe0] 20) = (Num 0, [], []) /\ seen (flush cd 2) = (Num 0, [0xd7; 0x90], []).
Proof. split; [apply call_reachable; [exact r_cp1255_u8|inp]|]. split; [run|]. split; run. Qed.
(** C15: the flush may have to be repeated. *)
Example C15_case : let cd := r_cd (call cp1255_u8 [0xe0] 20) in exists out n, reflush cd out n /\ out = [0xd7; 0x90].
Proof.
  pose (cd := r_cd (call cp1255_u8 [0xe0] 20)). pose (r1 := flush cd 1). pose (r2 := flush (r_cd r1) 2).
  assert (H : reachable cd) by (apply call_reachable; [exact r_cp1255_u8|inp]).
  assert (H1 : reachable (r_cd r1)) by (apply flush_reachable; [exact H|lia]).
  assert (L1 : (1 <= 1)%nat) by lia. assert (L2 : (1 <= 2)%nat) by lia.
  exists (produced r1 ++ produced r2), 0%nat. split; [|run].
  refine (rf_more cd (repeat 0 1) 1 r1 _ _ (room_ok 1) (or_introl L1) (flush_ok _ _ H L1) _ _); [run|].
  refine (rf_end (r_cd r1) (repeat 0 2) 2 r2 _ (room_ok 2) (or_introl L2) (flush_ok _ _ H1 L2) _). run.
Qed.
(** C43 *)
Example C43_case : let r := call u8_jp text1 4 in seen r = (Err E2BIG, [97], [0xe3; 0x81; 0x82; 0x62]) /\ ostate (r_cd r) = 0.
Proof. split; run. Qed.

(** * What the code does not guarantee *)
(** C11, C12: a byte order found in one text survives the reset and changes how the next text is read. *)
Theorem C12_refuted : exists cd s room t,
  reachable cd /\ input s /\ input t /\ cd = opened ei_utf16 ei_utf8 0 /\ r_ret (call cd s room) = Num 0 /\
  r_ret (flush (r_cd (call cd s room)) room) = Num 0 /\
  produced (call (r_cd (flush (r_cd (call cd s room)) room)) t room) <> produced (call cd t room).
Proof.
  exists (opened ei_utf16 ei_utf8 0), [0xff; 0xfe; 0x61; 0], 20%nat, [0; 0x61].
  split; [opn|]. split; [inp|]. split; [inp|]. split; [reflexivity|]. split; [run|]. split; [run|]. vm_compute. discriminate.
Qed.
(** C14: flushing a held character with no space left writes beyond the buffer ... *)
Theorem C14_refuted : exists cd, reachable cd /\ reiconv_iconv cd None (Some []) 0 = UB.
Proof.
  exists (r_cd (call cp1255_iso8 [0xe0] 20)). split; [apply call_reachable; [exact r_cp1255_iso8|inp]|run].
Qed.
(** ... and aborts when there is memory behind it. *)
Theorem C14_refuted_abort : exists cd outb, reachable cd /\ reiconv_iconv cd None (Some outb) 0 = Abort.
Proof.
  exists (r_cd (call cp1255_iso8 [0xe0] 20)), [7]. split; [apply call_reachable; [exact r_cp1255_iso8|inp]|run].
Qed.
