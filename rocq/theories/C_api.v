(** Theorems about reiconv_result_size, reiconv_convert_static_size and reiconv_convert: C03, C16-C22. *)
From Coq Require Import ZArith List Bool Lia.
From Verif Require Import Base Indexes Loop Contract LoopLib LoopProps Spec SpecProps Encodings Api AllOk Public Demo C_iconv.
Import ListNotations.
Open Scope Z_scope.

(** [converted cd s out]: s is a complete text in the source encoding, and out is that text in the target
    encoding, ended by what returns it to the initial shift state. *)
Definition converted (cd : conv) (s out : list Z) : Prop :=
  exists cs i bs n o, rd cd s cs AtEnd [] i /\ wr cd (cs ++ held (ifuncs cd) (fst i)) = (bs, n, o, []) /\
    out = bs ++ closing (ofuncs cd) o.
Lemma converted_det : forall cd s out out', converted cd s out -> converted cd s out' -> out = out'.
Proof.
  intros cd s out out' (cs & i & bs & n & o & A & B & ->) (cs' & i' & bs' & n' & o' & A' & B' & ->).
  destruct (rd_det _ _ _ _ _ _ _ _ _ _ A A') as (<- & _ & _ & <-). rewrite B in B'. now inversion B'.
Qed.

Lemma prod_len : forall cd s outb outleft r, iconv_spec cd s outb outleft r -> (outleft <= length outb)%nat -> length (produced r) = r_pos r.
Proof. intros cd s outb outleft r (S1 & _ & S3 & _) R. unfold produced. rewrite firstn_length, S1. lia. Qed.
Lemma input_skip : forall k s, input s -> input (skipn k s).
Proof. intros k s I. rewrite <- (app_nil_r (skipn k s)). apply input_tail. now rewrite app_nil_r. Qed.

Lemma writes_all_bad : forall f skip cs ost out n o wc bad, writes_all f skip cs ost = (out, n, o, wc :: bad) ->
  write1 f skip wc o = None /\ forall t, writes_all f skip (cs ++ t) ost = (out, n, o, wc :: bad ++ t).
Proof.
  induction cs as [|c cs IH]; cbn; intros ost out n o wc bad H; [discriminate|].
  destruct (write1 f skip c ost) as [[[bs ost'] k]|] eqn:W.
  - destruct (writes_all f skip cs ost') as [[[out2 n2] o2] b2] eqn:E. inversion H; subst.
    destruct (IH _ _ _ _ _ _ E) as (A & B). split; [exact A|]. intros t. now rewrite B.
  - inversion H; subst. auto.
Qed.

(** What the loop of reiconv_result_size computes. *)
Lemma size_loop_spec : forall fuel cd inp tmp count cs st rest i, reachable cd -> input inp -> length tmp = TEMP_BUFFER_SIZE ->
  rd cd inp cs st rest i -> (length cs < fuel)%nat ->
  exists x, size_loop fuel cd inp tmp count = Ok x /\
  match x with
  | inl (c, tmp', cd') => st = AtEnd /\ rest = [] /\ reachable cd' /\ same_desc cd cd' /\ cd_i cd' = i /\ length tmp' = TEMP_BUFFER_SIZE /\
      exists out m, wr cd cs = (out, m, ostate cd', []) /\ c = (count + length out)%nat
  | inr z => s_ret z = Err EILSEQ /\ reachable (s_cd z) /\
      (st <> AtEnd \/ exists out m o wc bad, wr cd cs = (out, m, o, wc :: bad))
  end.
Proof.
  induction fuel as [|fuel IH]; intros cd inp tmp count cs st rest i H I T R F; [lia|].
  destruct inp as [|b inp].
  { cbn. exists (inl (count, tmp, cd)). split; [reflexivity|].
    assert (R0 : rd cd [] [] AtEnd [] (cd_i cd)) by constructor.
    destruct (rd_det _ _ _ _ _ _ _ _ _ _ R R0) as (-> & -> & -> & ->).
    split; [reflexivity|]. split; [reflexivity|]. split; [exact H|]. split; [unfold same_desc; auto|]. split; [reflexivity|]. split; [exact T|].
    exists [], 0%nat. split; [reflexivity|cbn; lia]. }
  set (s := b :: inp) in *. change (size_loop (S fuel) cd s tmp count) with
   (bind (reiconv_iconv cd (Some s) (Some tmp) TEMP_BUFFER_SIZE) (fun r =>
      match r_ret r with
      | Err EINVAL => Ok (inr (mkSres (Err EILSEQ) (r_cd r)))
      | Err EILSEQ => Ok (inr (mkSres (Err EILSEQ) (r_cd r)))
      | Err ENOMEM => Ok (inr (mkSres (Err ENOMEM) (r_cd r)))
      | _ => size_loop fuel (r_cd r) (r_in r) (r_out r) (count + r_pos r)
      end)).
  destruct (iconv_meets_spec cd s tmp TEMP_BUFFER_SIZE H I) as (r & E & S & RC); [lia|]. rewrite E. unfold bind at 1.
  pose proof (prod_len _ _ _ _ _ S) as PL. rewrite T in PL. specialize (PL (le_n _)).
  pose proof S as (S1 & S2 & S3 & (k & K & S4) & SD & cs1 & cs2 & st' & rest' & i' & n & S6 & S7 & S8).
  destruct (rd_det _ _ _ _ _ _ _ _ _ _ R S6) as (-> & <- & <- & <-).
  assert (I2 : input (r_in r)) by (rewrite S4; now apply input_skip).
  destruct (r_ret r) as [m|[]] eqn:X.
  - destruct S8 as (-> & -> & -> & A & B). rewrite app_nil_r in *. rewrite A.
    pose proof (rd_end _ _ _ _ _ R). subst rest.
    exists (inl ((count + r_pos r)%nat, r_out r, r_cd r)). split; [destruct fuel; reflexivity|].
    split; [reflexivity|]. split; [reflexivity|]. split; [exact RC|]. split; [exact SD|]. split; [exact B|]. split; [congruence|].
    exists (produced r), n. split; [exact S7|]. now rewrite PL.
  - destruct S8 as (wc & cs & -> & (RR & _) & L & _).
    assert (N : cs1 <> []).
    { intros ->. unfold wr in S7. cbn in S7. inversion S7 as [[P0 P1 P2]]. rewrite <- P0 in PL. cbn in PL.
      unfold MAXNEED, TEMP_BUFFER_SIZE in *. lia. }
    destruct (IH (r_cd r) (r_in r) (r_out r) (count + r_pos r)%nat (wc :: cs) st rest i) as (x & EX & SX); auto.
    { congruence. } { rewrite app_length in F. destruct cs1; [congruence|cbn in *; lia]. }
    exists x. split; [exact EX|]. destruct x as [[[c tmp'] cd']|z].
    + destruct SX as (B1 & B2 & B3 & B4 & B5 & B6 & out & m & B7 & B8). repeat (split; [assumption|]).
      split; [eapply same_desc_trans; eauto|]. repeat (split; [assumption|]).
      rewrite (wr_same cd (r_cd r)) in B7 by exact SD.
      exists (produced r ++ out), (n + m)%nat. split; [rewrite (wr_app _ _ _ _ _ _ S7), B7; reflexivity|]. rewrite app_length, PL. lia.
    + destruct SX as (B1 & B2 & B3). split; [exact B1|]. split; [exact B2|]. destruct B3 as [B3|(out & m & o & w & bad & B3)]; [now left|right].
      rewrite (wr_same cd (r_cd r)) in B3 by exact SD.
      exists (produced r ++ out), (n + m)%nat, o, w, bad. rewrite (wr_app _ _ _ _ _ _ S7), B3. reflexivity.
  - exists (inr (mkSres (Err EILSEQ) (r_cd r))). split; [reflexivity|]. cbn. split; [reflexivity|]. split; [exact RC|].
    destruct S8 as (D & [(-> & -> & _)|(wc & cs & -> & W & RR)]); [left; discriminate|right].
    exists (produced r), n, (ostate (r_cd r)), wc, cs. now apply wr_bad.
  - exists (inr (mkSres (Err EILSEQ) (r_cd r))). split; [reflexivity|]. cbn. split; [reflexivity|]. split; [exact RC|].
    destruct S8 as (-> & -> & _). left; discriminate.
  - contradiction.
Qed.

(** Only the states differ from a descriptor in its initial state. *)
Definition initial (cd cd' : conv) : Prop := same_desc cd cd' /\ istate cd' = 0 /\ ostate cd' = 0.

(** Everything about reiconv_result_size. *)
Theorem result_size_spec : forall cd s tmp, reachable cd -> input s -> length tmp = TEMP_BUFFER_SIZE ->
  exists z, reiconv_result_size cd s tmp = Ok z /\ reachable (s_cd z) /\
  match s_ret z with
  | Num n => (exists out, converted cd s out /\ n = length out) /\ initial cd (s_cd z) /\ exists cs i, rd cd s cs AtEnd [] i /\ ibyteorder (s_cd z) = snd i
  | Err e => e = EILSEQ /\ forall out, ~ converted cd s out
  end.
Proof.
  intros cd s tmp H I T. destruct (rd_total cd s H I) as (cs & st & rest & i & R & U & V & _).
  unfold reiconv_result_size.
  destruct (size_loop_spec (2 * length s + 2) cd s tmp 0 cs st rest i H I T R) as (x & E & X); [lia|]. rewrite E. unfold bind at 1.
  destruct x as [[[c tmp'] cd']|z].
  - destruct X as (-> & -> & X1 & X2 & X3 & X4 & out & m & X5 & X6). cbn in X6. subst c.
    destruct (flush_meets_spec cd' tmp' TEMP_BUFFER_SIZE X1) as (r & E2 & S & RC); [lia|left; unfold TEMP_BUFFER_SIZE; lia|].
    rewrite E2. unfold bind at 1. cbn [reiconv_iconv bind r_cd].
    pose proof X2 as (D1 & D2 & D3 & D4 & D5).
    assert (PE : pending cd' = held (ifuncs cd) (fst i)). { unfold pending. rewrite D2, <- X3. reflexivity. }
    assert (RC2 : reachable (loop_reset_null (r_cd r))).
    { refine (reach_reset (r_cd r) 0%nat (mkCres (Num 0) [] [] 0 0 (loop_reset_null (r_cd r))) RC _). reflexivity. }
    pose proof (flush_meets_spec cd' tmp' TEMP_BUFFER_SIZE) as FM.
    destruct S as (S1 & S2 & S3 & S4 & S5 & S6).
    destruct (r_ret r) as [k|[]] eqn:RR.
    + exists (mkSres (Num (length out + r_pos r)) (loop_reset_null (r_cd r))). split; [reflexivity|]. cbn [s_ret s_cd].
      split; [exact RC2|]. destruct S6 as (out2 & o1 & A1 & A2 & A3 & A4). rewrite PE in A1. rewrite (wr_same cd cd') in A1 by exact X2.
      split; [|split].
      * exists ((out ++ out2) ++ closing (ofuncs cd) o1). split.
        { exists cs, i, (out ++ out2), (m + k)%nat, o1. split; [exact R|]. split; [|reflexivity].
          rewrite (wr_app _ _ _ _ _ _ X5), A1. reflexivity. }
        assert (PL : length (produced r) = r_pos r). { unfold produced. rewrite firstn_length, S1, X4. lia. }
        rewrite <- PL, A2, D4, !app_length. lia.
      * split; [|split; reflexivity]. eapply same_desc_trans; [exact X2|]. eapply same_desc_trans; [exact S5|]. unfold same_desc. repeat split.
      * exists cs, i. split; [exact R|]. cbn. pose proof (f_equal snd A3) as A5. cbn in A5. rewrite A5. rewrite <- X3. reflexivity.
    + exfalso. eapply (C15_flush_room cd' tmp' TEMP_BUFFER_SIZE r X1); eauto. rewrite X4. unfold TEMP_BUFFER_SIZE. lia.
    + exists (mkSres (Err EILSEQ) (loop_reset_null (r_cd r))). split; [reflexivity|]. cbn [s_ret s_cd]. split; [exact RC2|].
      split; [reflexivity|]. destruct S6 as (Y1 & Y2 & Y3 & wc & Y4 & Y5).
      intros out' (cs' & i' & bs & n & o & Z1 & Z2 & _). destruct (rd_det _ _ _ _ _ _ _ _ _ _ R Z1) as (<- & _ & _ & <-).
      rewrite (wr_app _ _ _ _ _ _ X5), <- PE, Y4 in Z2. cbn in Z2.
      replace (write1 (ofuncs cd) (skipping cd) wc (ostate cd')) with (write1 (ofuncs cd') (skipping cd') wc (ostate cd')) in Z2
        by (unfold skipping; now rewrite D4, D5).
      rewrite Y5 in Z2. discriminate.
    + contradiction.
    + contradiction.
  - exists z. split; [reflexivity|]. destruct X as (X1 & X2 & X3). split; [exact X2|]. rewrite X1. split; [reflexivity|].
    intros out (cs' & i' & bs & n & o & Z1 & Z2 & _). destruct (rd_det _ _ _ _ _ _ _ _ _ _ R Z1) as (<- & -> & _ & <-).
    destruct X3 as [X3|(out' & m & o' & wc & bad & X3)]; [congruence|].
    unfold wr in *. destruct (writes_all_bad _ _ _ _ _ _ _ _ _ X3) as (_ & X4). rewrite X4 in Z2. discriminate.
Qed.

(** ** reiconv_convert_static_size *)
(** The result of a call whose flush step has a free byte or nothing held back. *)
Definition static_res (cd : conv) (s outb : list Z) (len : nat) (r : stres) : Prop :=
  reachable (st_cd r) /\ exists outb', st_out r = Some outb' /\ length outb' = length outb /\ skipn len outb' = skipn len outb /\
  match st_ret r with
  | Num n => n = 0%nat /\ initial cd (st_cd r) /\ exists cs st rest i bs m o,
      rd cd s cs st rest i /\ st <> Invalid /\ wr cd (cs ++ held (ifuncs cd) (fst i)) = (bs, m, o, []) /\
      (length (bs ++ closing (ofuncs cd) o) <= len)%nat /\
      firstn (length (bs ++ closing (ofuncs cd) o)) outb' = bs ++ closing (ofuncs cd) o
  | Err EILSEQ => forall out, ~ converted cd s out
  | Err E2BIG => forall out, converted cd s out -> (len < length out + 16)%nat
  | Err _ => False
  end.

Lemma static_flush : forall cd cd' s outb outb1 len pos left cs st rest i out1 n, reachable cd' -> same_desc cd cd' ->
  rd cd s cs st rest i -> st <> Invalid -> wr cd cs = (out1, n, ostate cd', []) -> cd_i cd' = i ->
  (len <= length outb)%nat -> length outb1 = length outb -> skipn len outb1 = skipn len outb ->
  (pos + left)%nat = len -> firstn pos outb1 = out1 -> length out1 = pos ->
  held (ifuncs cd) (fst i) = [] \/ (1 <= left)%nat ->
  exists r0, reiconv_iconv cd' None (Some (skipn pos outb1)) left = Ok r0 /\
    static_res cd s outb len (match r_ret r0 with
      | Err e => mkStres (Err e) (put_back (Some outb1) pos (r_out r0)) (r_cd r0)
      | Num _ => mkStres (Num 0) (put_back (Some outb1) pos (r_out r0)) (r_cd r0) end).
Proof.
  intros cd cd' s outb outb1 len pos left cs st rest i out1 n H SD R NI W CI L L1 K1 PLEN FO LO ROOM.
  pose proof SD as (D1 & D2 & D3 & D4 & D5).
  assert (PE : pending cd' = held (ifuncs cd) (fst i)). { unfold pending. rewrite D2, <- CI. reflexivity. }
  destruct (flush_meets_spec cd' (skipn pos outb1) left H) as (r0 & E & S & RC).
  { rewrite skipn_length. lia. } { rewrite PE. tauto. }
  exists r0. split; [exact E|]. destruct S as (S1 & S2 & S3 & S4 & S5 & S6). rewrite skipn_length in S1.
  assert (LF : length (firstn pos outb1) = pos) by (rewrite firstn_length; lia).
  assert (M1 : length (firstn pos outb1 ++ r_out r0) = length outb) by (rewrite app_length; lia).
  assert (M2 : skipn len (firstn pos outb1 ++ r_out r0) = skipn len outb).
  { rewrite skipn_app, LF. rewrite skipn_all2 by lia. cbn. replace (len - pos)%nat with left by lia. rewrite S2.
    rewrite skipn_skipn, <- K1. f_equal. lia. }
  unfold put_back. destruct (r_ret r0) as [k|[]] eqn:RR; (split; [exact RC|]); cbn [st_out st_ret st_cd];
    exists (firstn pos outb1 ++ r_out r0); (split; [reflexivity|]); (split; [exact M1|]); (split; [exact M2|]).
  - destruct S6 as (out2 & o1 & A1 & A2 & A3 & A4). split; [reflexivity|]. split.
    { split; [eapply same_desc_trans; eauto|]. split; [|exact A4]. pose proof (f_equal fst A3) as A5. exact A5. }
    rewrite PE in A1. rewrite (wr_same cd cd') in A1 by exact SD. rewrite D4 in A2.
    exists cs, st, rest, i, (out1 ++ out2), (n + k)%nat, o1. split; [exact R|]. split; [exact NI|].
    split; [rewrite (wr_app _ _ _ _ _ _ W), A1; reflexivity|].
    rewrite <- app_assoc, <- A2. unfold produced. rewrite app_length, firstn_length.
    assert (P : (r_pos r0 <= length (r_out r0))%nat) by lia. split; [lia|].
    rewrite FO. rewrite firstn_app. rewrite firstn_all2 by lia. f_equal.
    replace (length out1 + Nat.min (r_pos r0) (length (r_out r0)) - length out1)%nat with (r_pos r0) by lia. reflexivity.
  - destruct S6 as (h1 & n1 & A1 & A2 & A3 & A4 & A5 & _).
    intros out (cs' & i' & bs & m & o & Z1 & Z2 & ->). destruct (rd_det _ _ _ _ _ _ _ _ _ _ R Z1) as (<- & -> & _ & <-).
    rewrite <- PE, A2 in Z2. rewrite (wr_app _ _ _ _ _ _ W) in Z2. rewrite (wr_same cd cd') in A1 by exact SD.
    rewrite (writes_all_app _ _ h1 (pending (r_cd r0)) (ostate cd') _ _ _ A1) in Z2.
    destruct (writes_all (ofuncs cd) (skipping cd) (pending (r_cd r0)) (ostate (r_cd r0))) as [[[o2 n2] q2] b2]. inversion Z2; subst.
    assert (PL : length (produced r0) = r_pos r0). { unfold produced. rewrite firstn_length, S1. lia. }
    rewrite !app_length, PL. rewrite LF. unfold MAXNEED in A4. lia.
  - destruct S6 as (Y1 & Y2 & Y3 & wc & Y4 & Y5).
    intros out (cs' & i' & bs & m & o & Z1 & Z2 & _). destruct (rd_det _ _ _ _ _ _ _ _ _ _ R Z1) as (<- & -> & _ & <-).
    rewrite (wr_app _ _ _ _ _ _ W), <- PE, Y4 in Z2. cbn in Z2.
    replace (write1 (ofuncs cd) (skipping cd) wc (ostate cd')) with (write1 (ofuncs cd') (skipping cd') wc (ostate cd')) in Z2
      by (unfold skipping; now rewrite D4, D5).
    rewrite Y5 in Z2. discriminate.
  - contradiction.
  - contradiction.
Qed.

Theorem static_size_spec : forall cd s outb len, reachable cd -> input s -> (len <= length outb)%nat ->
  (forall cs st rest i out n o, rd cd s cs st rest i -> wr cd cs = (out, n, o, []) ->
     held (ifuncs cd) (fst i) = [] \/ (length out < len)%nat) ->
  exists r, reiconv_convert_static_size cd s (Some outb) len = Ok r /\ static_res cd s outb len r.
Proof.
  intros cd s outb len H I L ROOM. unfold reiconv_convert_static_size. destruct s as [|b s0].
  - cbn [length static_loop]. unfold bind at 1. cbn [at_pos].
    assert (R0 : rd cd [] [] AtEnd [] (cd_i cd)) by constructor.
    destruct (static_flush cd cd [] outb outb len 0 len [] AtEnd [] (cd_i cd) [] 0 H) as (r0 & E & S); auto.
    { unfold same_desc; auto. } { discriminate. }
    { destruct (ROOM _ _ _ _ _ _ _ R0 eq_refl) as [X|X]; [now left|right]. cbn in X. lia. }
    cbn [skipn]. cbn [skipn] in E. rewrite E. unfold bind. eexists. split; [|exact S]. destruct (r_ret r0); reflexivity.
  - set (s := b :: s0) in *. change (length s) with (S (length s0)).
    change (static_loop (S (length s0)) cd s (Some outb) 0 len) with
     (bind (reiconv_iconv cd (Some s) (Some outb) len) (fun r =>
      let outp' := put_back (Some outb) 0 (r_out r) in
      match r_ret r with
      | Num _ => static_loop (length s0) (r_cd r) (r_in r) outp' (0 + r_pos r) (r_left r)
      | Err EINVAL => Ok (inl (outp', (0 + r_pos r)%nat, r_left r, r_cd r))
      | Err e => Ok (inr (mkStres (Err e) outp' (r_cd r)))
      end)).
    destruct (iconv_meets_spec cd s outb len H I L) as (r & E & S & RC). rewrite E. unfold bind at 2. cbn zeta.
    pose proof (prod_len _ _ _ _ _ S L) as PL.
    pose proof S as (S1 & S2 & S3 & (k & K & S4) & SD & cs1 & cs2 & st & rest & i & n & S6 & S7 & S8).
    cbn [put_back firstn app Nat.add].
    destruct (r_ret r) as [m|[]] eqn:X.
    + destruct S8 as (-> & -> & -> & A & B). rewrite app_nil_r in *. rewrite A.
      replace (static_loop (length s0) (r_cd r) [] (Some (r_out r)) (r_pos r) (r_left r)) with
        (@Ok (option (list Z) * nat * nat * conv + stres) (inl (Some (r_out r), r_pos r, r_left r, r_cd r))) by (destruct (length s0); reflexivity).
      unfold bind at 1. cbn [at_pos].
      destruct (static_flush cd (r_cd r) s outb (r_out r) len (r_pos r) (r_left r) cs1 AtEnd rest i (produced r) n RC SD S6) as (r0 & E0 & S0); auto.
      { discriminate. } { destruct (ROOM _ _ _ _ _ _ _ S6 S7) as [Y|Y]; [now left|right; lia]. }
      rewrite E0. unfold bind. eexists. split; [|exact S0]. destruct (r_ret r0); reflexivity.
    + unfold bind. eexists. split; [reflexivity|]. split; [exact RC|]. exists (r_out r). cbn [st_out st_ret]. split; [reflexivity|].
      split; [exact S1|]. split; [exact S2|].
      destruct S8 as (wc & cs & -> & RR & LL & _).
      intros out (cs' & i' & bs & m & o & Z1 & Z2 & ->). destruct (rd_det _ _ _ _ _ _ _ _ _ _ S6 Z1) as (<- & -> & _ & <-).
      rewrite <- app_assoc in Z2. rewrite (wr_app _ _ _ _ _ _ S7) in Z2.
      destruct (writes_all (ofuncs cd) (skipping cd) ((wc :: cs) ++ held (ifuncs cd) (fst i)) (ostate (r_cd r))) as [[[o2 n2] q2] b2].
      inversion Z2; subst. rewrite !app_length, PL. unfold MAXNEED in LL. lia.
    + unfold bind. eexists. split; [reflexivity|]. split; [exact RC|]. exists (r_out r). cbn [st_out st_ret]. split; [reflexivity|].
      split; [exact S1|]. split; [exact S2|].
      intros out (cs' & i' & bs & m & o & Z1 & Z2 & _). destruct (rd_det _ _ _ _ _ _ _ _ _ _ S6 Z1) as (<- & -> & _ & <-).
      destruct S8 as (D & [(_ & Y & _)|(wc & cs & -> & W & RR)]); [discriminate|].
      rewrite <- app_assoc in Z2. rewrite (wr_app _ _ _ _ _ _ S7) in Z2. cbn in Z2. rewrite W in Z2. discriminate.
    + destruct S8 as (-> & -> & A & B & C & D). rewrite app_nil_r in *. unfold bind at 1. cbn [at_pos].
      destruct (static_flush cd (r_cd r) s outb (r_out r) len (r_pos r) (r_left r) cs1 Truncated rest i (produced r) n RC SD S6) as (r0 & E0 & S0); auto.
      { discriminate. } { destruct (ROOM _ _ _ _ _ _ _ S6 S7) as [Y|Y]; [now left|right; lia]. }
      rewrite E0. unfold bind. eexists. split; [|exact S0]. destruct (r_ret r0); reflexivity.
    + contradiction.
Qed.

(** * C03: these functions return *)
Theorem C03_result_size_terminates : forall cd s tmp, reachable cd -> input s -> length tmp = TEMP_BUFFER_SIZE ->
  exists z, reiconv_result_size cd s tmp = Ok z.
Proof. intros cd s tmp H I T. destruct (result_size_spec cd s tmp H I T) as (z & E & _). eauto. Qed.
Theorem C03_static_size_terminates : forall cd s outb len, reachable cd -> input s -> (len <= length outb)%nat ->
  (forall cs st rest i out n o, rd cd s cs st rest i -> wr cd cs = (out, n, o, []) ->
     held (ifuncs cd) (fst i) = [] \/ (length out < len)%nat) ->
  exists r, reiconv_convert_static_size cd s (Some outb) len = Ok r.
Proof. intros cd s outb len H I L R. destruct (static_size_spec cd s outb len H I L R) as (r & E & _). eauto. Qed.

(** * C16: the size is exact *)
Theorem C16_result_size_exact : forall cd s tmp z n, reachable cd -> input s -> length tmp = TEMP_BUFFER_SIZE ->
  reiconv_result_size cd s tmp = Ok z -> s_ret z = Num n -> exists out, converted cd s out /\ n = length out.
Proof.
  intros cd s tmp z n H I T E X. destruct (result_size_spec cd s tmp H I T) as (z' & E' & _ & S).
  rewrite E in E'. inversion E'; subst z'. rewrite X in S. apply S.
Qed.
(** It succeeds for every text that can be converted. *)
Theorem C16_result_size_succeeds : forall cd s tmp out, reachable cd -> input s -> length tmp = TEMP_BUFFER_SIZE ->
  converted cd s out -> exists z, reiconv_result_size cd s tmp = Ok z /\ s_ret z = Num (length out).
Proof.
  intros cd s tmp out H I T C. destruct (result_size_spec cd s tmp H I T) as (z & E & _ & S). exists z. split; [exact E|].
  destruct (s_ret z) as [n|e].
  - destruct S as ((out' & C' & ->) & _). now rewrite (converted_det _ _ _ _ C C').
  - destruct S as (_ & S). contradiction (S out C).
Qed.
(** converted is what a conversion call followed by a flush produces. *)
Theorem C16_converted_is_output : forall cd s outb outleft r n outb2 outleft2 r2 m,
  reachable cd -> input s -> (outleft <= length outb)%nat -> reiconv_iconv cd (Some s) (Some outb) outleft = Ok r -> r_ret r = Num n ->
  (1 <= outleft2 <= length outb2)%nat -> reiconv_iconv (r_cd r) None (Some outb2) outleft2 = Ok r2 -> r_ret r2 = Num m ->
  converted cd s (produced r ++ produced r2).
Proof.
  intros cd s outb outleft r n outb2 outleft2 r2 m H I R E X R2 E2 X2.
  destruct (C13_text_and_flush cd s outb outleft r n outb2 outleft2 r2 m H I R E X R2 E2 X2) as (cs & i & out & o & A & B & C & _).
  exists cs, i, out, (n + m)%nat, o. auto.
Qed.

(** * C17: the descriptor after reiconv_result_size *)
Theorem C17_result_size_resets_partial : forall cd s tmp z n, reachable cd -> input s -> length tmp = TEMP_BUFFER_SIZE ->
  reiconv_result_size cd s tmp = Ok z -> s_ret z = Num n -> initial cd (s_cd z).
Proof.
  intros cd s tmp z n H I T E X. destruct (result_size_spec cd s tmp H I T) as (z' & E' & _ & S).
  rewrite E in E'. inversion E'; subst z'. rewrite X in S. apply S.
Qed.
(** After a failure it need not be: here the input ends inside a two-byte character of ISO-2022-JP. *)
Definition jp_cut : list Z := [0x1b; 0x24; 0x42; 0x24].
Theorem C17_refuted : exists cd s tmp z, reachable cd /\ input s /\ length tmp = TEMP_BUFFER_SIZE /\
  reiconv_result_size cd s tmp = Ok z /\ s_ret z = Err EILSEQ /\ istate (s_cd z) <> 0.
Proof.
  destruct (result_size_spec jp_u8 jp_cut (repeat 0 TEMP_BUFFER_SIZE)) as (z & E & _); [exact r_jp_u8|inp|apply repeat_length|].
  exists jp_u8, jp_cut, (repeat 0 TEMP_BUFFER_SIZE), z. split; [exact r_jp_u8|]. split; [inp|]. split; [apply repeat_length|]. split; [exact E|].
  assert (X : match reiconv_result_size jp_u8 jp_cut (repeat 0 TEMP_BUFFER_SIZE) with Ok z => (s_ret z, negb (istate (s_cd z) =? 0)) | _ => (Num 0, false) end = (Err EILSEQ, true)) by run.
  rewrite E in X. inversion X. split; [reflexivity|]. intros Z. rewrite Z in *. discriminate.
Qed.
(** A later text is then read wrongly: the two letters are taken for a kanji. *)
Theorem C17_refuted_next_text : exists cd s tmp z t, reachable cd /\ input s /\ reiconv_result_size cd s tmp = Ok z /\ s_ret z = Err EILSEQ /\
  input t /\ produced (call (s_cd z) t 20) <> produced (call cd t 20).
Proof.
  destruct (result_size_spec jp_u8 jp_cut (repeat 0 TEMP_BUFFER_SIZE)) as (z & E & _); [exact r_jp_u8|inp|apply repeat_length|].
  exists jp_u8, jp_cut, (repeat 0 TEMP_BUFFER_SIZE), z, [0x24; 0x22]. split; [exact r_jp_u8|]. split; [inp|]. split; [exact E|].
  assert (X : match reiconv_result_size jp_u8 jp_cut (repeat 0 TEMP_BUFFER_SIZE) with Ok z => (s_ret z, produced (call (s_cd z) [0x24; 0x22] 20)) | _ => (Num 0, []) end = (Err EILSEQ, [0xe3; 0x81; 0x82])) by run.
  rewrite E in X. inversion X as [[X1 X2]]. split; [reflexivity|]. split; [inp|]. rewrite X2. vm_compute. discriminate.
Qed.

(** * C18, C19: a buffer of a given size *)
(** The condition leaves out only the case that a character is held back when the buffer is exactly full. *)
Definition not_full (cd : conv) (s : list Z) (len : nat) : Prop :=
  forall cs st rest i out n o, rd cd s cs st rest i -> wr cd cs = (out, n, o, []) ->
     held (ifuncs cd) (fst i) = [] \/ (length out < len)%nat.
(** It holds for every source encoding that never holds a character back. *)
Lemma not_full_noflush : forall cd s len, f_flush (ifuncs cd) = None -> not_full cd s len.
Proof. intros cd s len F cs st rest i out n o _ _. left. unfold held. now rewrite F. Qed.

Theorem C18_static_size_writes_text_partial : forall cd s outb len r, reachable cd -> input s -> (len <= length outb)%nat ->
  not_full cd s len -> reiconv_convert_static_size cd s (Some outb) len = Ok r -> st_ret r = Num 0 ->
  exists outb', st_out r = Some outb' /\ length outb' = length outb /\ skipn len outb' = skipn len outb /\ initial cd (st_cd r) /\
  exists cs st rest i bs m o, rd cd s cs st rest i /\ st <> Invalid /\
    wr cd (cs ++ held (ifuncs cd) (fst i)) = (bs, m, o, []) /\
    firstn (length (bs ++ closing (ofuncs cd) o)) outb' = bs ++ closing (ofuncs cd) o.
Proof.
  intros cd s outb len r H I L NF E X. destruct (static_size_spec cd s outb len H I L NF) as (r' & E' & S).
  rewrite E in E'. inversion E'; subst r'. destruct S as (_ & outb' & S1 & S2 & S3 & S). rewrite X in S.
  destruct S as (_ & S4 & cs & st & rest & i & bs & m & o & A1 & A2 & A3 & A4 & A5).
  exists outb'. repeat (split; [assumption|]). exists cs, st, rest, i, bs, m, o. auto.
Qed.
(** For a complete text this is the whole converted text. *)
Theorem C18_static_size_complete_partial : forall cd s outb len r out, reachable cd -> input s -> (len <= length outb)%nat ->
  not_full cd s len -> converted cd s out ->
  reiconv_convert_static_size cd s (Some outb) len = Ok r -> st_ret r = Num 0 ->
  exists outb', st_out r = Some outb' /\ firstn (length out) outb' = out /\ skipn len outb' = skipn len outb.
Proof.
  intros cd s outb len r out H I L NF C E X.
  destruct (C18_static_size_writes_text_partial cd s outb len r H I L NF E X) as (outb' & A1 & A2 & A3 & A4 & cs & st & rest & i & bs & m & o & B1 & B2 & B3 & B4).
  exists outb'. split; [exact A1|]. split; [|exact A3]. destruct C as (cs' & i' & bs' & n' & o' & C1 & C2 & ->).
  destruct (rd_det _ _ _ _ _ _ _ _ _ _ B1 C1) as (-> & -> & -> & ->). rewrite C2 in B3. inversion B3; subst. exact B4.
Qed.
(** The rest inside the buffer need not be unchanged: a character that is left out may have been written in part. *)
Theorem C18_rest_refuted : exists cd s outb, reachable cd /\ input s /\ converted cd s [] /\
  match reiconv_convert_static_size cd s (Some outb) (length outb) with
  | Ok r => st_ret r = Num 0 /\ exists outb', st_out r = Some outb' /\ outb' <> outb
  | _ => False
  end.
Proof.
  exists (opened ei_ucs4be ei_utf7 REICONV_DISCARD_ILSEQ), [0; 0x11; 0; 0], [0; 0; 0].
  assert (R : reachable (opened ei_ucs4be ei_utf7 REICONV_DISCARD_ILSEQ)) by opn.
  split; [exact R|]. split; [inp|]. split.
  - destruct (C03_result_size_terminates _ [0; 0x11; 0; 0] (repeat 0 TEMP_BUFFER_SIZE) R) as (z & E); [inp|run|].
    assert (N : match reiconv_result_size (opened ei_ucs4be ei_utf7 REICONV_DISCARD_ILSEQ) [0; 0x11; 0; 0] (repeat 0 TEMP_BUFFER_SIZE) with
       | Ok z => s_ret z | _ => Err E2BIG end = Num 0) by run.
    rewrite E in N. destruct (C16_result_size_exact _ [0; 0x11; 0; 0] (repeat 0 TEMP_BUFFER_SIZE) z 0 R) as (out & C & L); [inp|run|exact E|exact N|].
    symmetry in L. apply length_zero_iff_nil in L. now subst out.
  - vm_compute. split; [reflexivity|]. eexists. split; [reflexivity|discriminate].
Qed.
(** With 16 bytes to spare every convertible text succeeds. *)
Theorem C18_static_size_succeeds : forall cd s outb len out, reachable cd -> input s -> (len <= length outb)%nat ->
  converted cd s out -> (length out + 16 <= len)%nat ->
  exists r, reiconv_convert_static_size cd s (Some outb) len = Ok r /\ st_ret r = Num 0.
Proof.
  intros cd s outb len out H I L C R.
  assert (NF : not_full cd s len).
  { intros cs st rest i out1 n o R1 W1. right. destruct C as (cs' & i' & bs & m & o' & C1 & C2 & ->).
    destruct (rd_det _ _ _ _ _ _ _ _ _ _ R1 C1) as (-> & -> & -> & ->). rewrite (wr_app _ _ _ _ _ _ W1) in C2.
    destruct (writes_all (ofuncs cd) (skipping cd) (held (ifuncs cd) (fst i')) o) as [[[o2 n2] q2] b2]. inversion C2; subst.
    rewrite !app_length in R. lia. }
  destruct (static_size_spec cd s outb len H I L NF) as (r & E & S). exists r. split; [exact E|].
  destruct S as (_ & outb' & S1 & S2 & S3 & S). destruct (st_ret r) as [n|[]].
  - destruct S as (-> & _). reflexivity.
  - specialize (S out C). lia.
  - contradiction (S out C).
  - contradiction.
  - contradiction.
Qed.

Theorem C19_too_small_is_reported_partial : forall cd s outb len out, reachable cd -> input s -> (len <= length outb)%nat ->
  not_full cd s len -> converted cd s out -> (len < length out)%nat ->
  exists r outb', reiconv_convert_static_size cd s (Some outb) len = Ok r /\ st_ret r = Err E2BIG /\
    st_out r = Some outb' /\ skipn len outb' = skipn len outb.
Proof.
  intros cd s outb len out H I L NF C R.
  destruct (static_size_spec cd s outb len H I L NF) as (r & E & S). exists r.
  destruct S as (_ & outb' & S1 & S2 & S3 & S). exists outb'. split; [exact E|]. split; [|auto]. destruct (st_ret r) as [n|[]]; auto.
  - exfalso. destruct S as (_ & _ & cs & st & rest & i & bs & m & o & A1 & A2 & A3 & A4 & A5). destruct C as (cs' & i' & bs' & n' & o' & C1 & C2 & ->).
    destruct (rd_det _ _ _ _ _ _ _ _ _ _ A1 C1) as (-> & -> & -> & ->). rewrite C2 in A3. inversion A3; subst. lia.
  - contradiction (S out C).
  - contradiction.
  - contradiction.
Qed.
(** Without that condition: one Hebrew letter into a buffer of 0 bytes. *)
Theorem C19_refuted : exists cd s, reachable cd /\ input s /\ reiconv_convert_static_size cd s (Some []) 0 = UB.
Proof. exists cp1255_iso8, [0xe0]. split; [exact r_cp1255_iso8|]. split; [inp|run]. Qed.

(** * C20: a truncated last character is not reported *)
Theorem C20_refuted : exists cd s outb, reachable cd /\ input s /\
  (exists cs rest i, rd cd s cs Truncated rest i) /\
  match reiconv_convert_static_size cd s (Some outb) (length outb) with
  | Ok r => st_ret r = Num 0 /\ st_out r = Some [0x61; 0; 0]
  | _ => False
  end.
Proof.
  exists u8_latin1, [0x61; 0xc3], [0; 0; 0]. split; [exact r_u8_latin1|]. split; [inp|]. split; [|vm_compute; auto].
  destruct (C07_EINVAL_incomplete_tail u8_latin1 [0x61; 0xc3] (repeat 0 9) 9 (call u8_latin1 [0x61; 0xc3] 9)) as (_ & _ & cs & i & n & A & _).
  { exact r_u8_latin1. } { inp. } { apply room_ok. } { apply call_ok; [exact r_u8_latin1|inp]. } { run. }
  eauto.
Qed.
(** What holds: a text without Invalid sequences whose tail is cut off converts like the text before the tail. *)
Theorem C20_truncated_tail_is_dropped : forall cd s outb len r cs rest i, reachable cd -> input s -> (len <= length outb)%nat ->
  not_full cd s len -> rd cd s cs Truncated rest i ->
  reiconv_convert_static_size cd s (Some outb) len = Ok r -> st_ret r = Num 0 ->
  exists outb' bs m o, st_out r = Some outb' /\ wr cd (cs ++ held (ifuncs cd) (fst i)) = (bs, m, o, []) /\
    firstn (length (bs ++ closing (ofuncs cd) o)) outb' = bs ++ closing (ofuncs cd) o.
Proof.
  intros cd s outb len r cs rest i H I L NF R E X.
  destruct (C18_static_size_writes_text_partial cd s outb len r H I L NF E X) as (outb' & A1 & A2 & A3 & A4 & cs' & st & rest' & i' & bs & m & o & B1 & B2 & B3 & B4).
  destruct (rd_det _ _ _ _ _ _ _ _ _ _ R B1) as (<- & _ & _ & <-). exists outb', bs, m, o. auto.
Qed.

(** * C21: reiconv_convert *)
(** Every character of the text is representable, and at each of them something remains to be written. *)
Fixpoint plain (f : funcs) (cs : list Z) (ost : Z) : Prop :=
  match cs with
  | [] => True
  | wc :: cs' => exists bs ost', emit f wc ost = Some (bs, ost') /\ plain f cs' ost' /\
     let '(out, _, o, _) := writes_all f false cs' ost' in bs ++ out ++ closing f o <> []
  end.
Lemma plain_mid : forall f skip a wc b ost out n o, plain f (a ++ wc :: b) ost -> writes_all f skip a ost = (out, n, o, []) ->
  exists bs ost' , emit f wc o = Some (bs, ost') /\
    let '(out2, _, o2, _) := writes_all f skip b ost' in bs ++ out2 ++ closing f o2 <> [].
Proof.
  assert (PL : forall f skip cs ost, plain f cs ost -> writes_all f skip cs ost = writes_all f false cs ost).
  { induction cs as [|wc cs IH]; cbn; intros ost P; [reflexivity|]. destruct P as (bs & ost' & E & P & _). unfold write1. rewrite E, (IH ost' P). reflexivity. }
  intros f skip. induction a as [|c a IH]; cbn; intros wc b ost out n o P W.
  - inversion W; subst. destruct P as (bs & ost' & E & P & N). exists bs, ost'. split; [exact E|]. rewrite (PL _ _ _ _ P). exact N.
  - destruct P as (bs & ost' & E & P & N). unfold write1 in W. rewrite E in W.
    destruct (writes_all f skip a ost') as [[[out2 n2] o2] b2] eqn:W2. inversion W; subst. eapply IH; eauto.
Qed.

Lemma plain_skip : forall f skip cs ost, plain f cs ost -> writes_all f skip cs ost = writes_all f false cs ost.
Proof.
  induction cs as [|wc cs IH]; cbn; intros ost P; [reflexivity|]. destruct P as (bs & ost' & E & P & _). unfold write1. rewrite E, (IH ost' P). reflexivity.
Qed.
Lemma held_one : forall f i, held f i = [] \/ exists wc, held f i = [wc].
Proof.
  intros f i. unfold held. destruct (f_flush f); [|now left]. destruct (r i) as [[[b [w|]] q]| | |]; auto. destruct (b =? 0); eauto.
Qed.
(** A plain text fits into a buffer of exactly its size. *)
Lemma static_plain : forall cd s outb len cs i bs m o, reachable cd -> input s -> (len <= length outb)%nat ->
  rd cd s cs AtEnd [] i -> wr cd (cs ++ held (ifuncs cd) (fst i)) = (bs, m, o, []) ->
  plain (ofuncs cd) (cs ++ held (ifuncs cd) (fst i)) (ostate cd) -> (length (bs ++ closing (ofuncs cd) o) <= len)%nat ->
  exists r, reiconv_convert_static_size cd s (Some outb) len = Ok r /\ st_ret r = Num 0.
Proof.
  intros cd s outb len cs i bs m o H I L R W P LE.
  (* what is still to be written at a character *)
  assert (REM : forall a wc b out n q, cs ++ held (ifuncs cd) (fst i) = a ++ wc :: b -> wr cd a = (out, n, q, []) ->
     forall b1 q1, emit (ofuncs cd) wc q = Some (b1, q1) -> (Nat.max 1 (length b1) + length out <= len)%nat).
  { intros a wc b out n q EQ WA b1 q1 EM. rewrite EQ in P, W. destruct (plain_mid _ _ _ _ _ _ _ _ _ P WA) as (b2 & q2 & EM2 & NE).
    rewrite EM in EM2. inversion EM2; subst b2 q2. rewrite (wr_app _ _ _ _ _ _ WA) in W. cbn in W. unfold write1 in W. rewrite EM in W.
    destruct (writes_all (ofuncs cd) (skipping cd) b q1) as [[[o2 n2] q2] bd] eqn:WB. inversion W; subst.
    rewrite !app_length in LE. destruct (b1 ++ o2 ++ closing (ofuncs cd) o) eqn:Y; [contradiction|].
    apply (f_equal (@length Z)) in Y. rewrite !app_length in Y. cbn in Y. lia. }
  assert (ENC : forall a wc b out n q, cs ++ held (ifuncs cd) (fst i) = a ++ wc :: b -> wr cd a = (out, n, q, []) -> exists b1 q1, emit (ofuncs cd) wc q = Some (b1, q1)).
  { intros a wc b out n q EQ WA. rewrite EQ in P. destruct (plain_mid _ _ _ _ _ _ _ _ _ P WA) as (b2 & q2 & EM2 & _). eauto. }
  unfold reiconv_convert_static_size.
  assert (FL : forall cd' outb1 pos left out1 n, reachable cd' -> same_desc cd cd' -> wr cd cs = (out1, n, ostate cd', []) -> cd_i cd' = i ->
     length outb1 = length outb -> (pos + left)%nat = len -> length out1 = pos ->
     exists r0 k, reiconv_iconv cd' None (Some (skipn pos outb1)) left = Ok r0 /\ r_ret r0 = Num k).
  { intros cd' outb1 pos left out1 n RC SD W1 CI L1 PLEN LO. pose proof SD as (D1 & D2 & D3 & D4 & D5).
    assert (PE : pending cd' = held (ifuncs cd) (fst i)). { unfold pending. rewrite D2, <- CI. reflexivity. }
    assert (RM : pending cd' = [] \/ (1 <= left)%nat).
    { rewrite PE. destruct (held_one (ifuncs cd) (fst i)) as [HE|(wc & HE)]; [now left|right].
      rewrite HE in *. destruct (ENC cs wc [] out1 n _ eq_refl W1) as (b1 & q1 & EM). pose proof (REM cs wc [] out1 n _ eq_refl W1 _ _ EM). lia. }
    destruct (flush_meets_spec cd' (skipn pos outb1) left RC) as (r0 & E & S & _).
    { rewrite skipn_length. lia. } { tauto. }
    exists r0. destruct S as (S1 & S2 & S3 & S4 & S5 & S6). rewrite skipn_length in S1.
    assert (PL : length (produced r0) = r_pos r0). { unfold produced. rewrite firstn_length, S1. lia. }
    destruct (r_ret r0) as [k|[]] eqn:RR; [eauto|exfalso..].
    - destruct S6 as (h1 & n1 & A1 & A2 & A3 & A4 & A5 & A6). rewrite (wr_same cd cd') in A1 by exact SD. rewrite D4 in A5, A6.
      assert (A0 : wr cd (cs ++ h1) = (out1 ++ produced r0, (n + n1)%nat, ostate (r_cd r0), [])) by (rewrite (wr_app _ _ _ _ _ _ W1), A1; reflexivity).
      assert (HH : pending (r_cd r0) = [] \/ exists wc, pending (r_cd r0) = [wc]) by apply held_one.
      destruct HH as [HH|(wc & HH)].
      + specialize (A5 HH). rewrite HH, app_nil_r in A2. subst h1. rewrite PE, W in A0. inversion A0; subst.
        rewrite !app_length, PL in LE. lia.
      + rewrite PE, HH in A2. assert (EQ : cs ++ held (ifuncs cd) (fst i) = (cs ++ h1) ++ wc :: []) by (rewrite A2, app_assoc; reflexivity).
        destruct (ENC _ _ _ _ _ _ EQ A0) as (b1 & q1 & EM). pose proof (REM _ _ _ _ _ _ EQ A0 _ _ EM) as X. specialize (A6 wc b1 q1 HH EM).
        rewrite app_length, PL in X. lia.
    - destruct S6 as (Y1 & Y2 & Y3 & wc & Y4 & Y5). rewrite PE in Y4.
      assert (EQ : cs ++ held (ifuncs cd) (fst i) = cs ++ wc :: []) by (rewrite Y4; reflexivity).
      destruct (ENC _ _ _ _ _ _ EQ W1) as (b1 & q1 & EM). rewrite D4 in Y5. unfold write1 in Y5. rewrite EM in Y5. discriminate.
    - contradiction.
    - contradiction. }
  destruct s as [|b s0].
  - assert (R0 : rd cd [] [] AtEnd [] (cd_i cd)) by constructor.
    destruct (rd_det _ _ _ _ _ _ _ _ _ _ R R0) as (-> & _ & _ & ->).
    cbn [length static_loop]. unfold bind at 1. cbn [at_pos].
    destruct (FL cd outb 0%nat len [] 0%nat) as (r0 & k & E & X); auto. { unfold same_desc; auto. }
    rewrite E. unfold bind. rewrite X. eexists. split; reflexivity.
  - set (s := b :: s0) in *. change (length s) with (S (length s0)).
    change (static_loop (S (length s0)) cd s (Some outb) 0 len) with
     (bind (reiconv_iconv cd (Some s) (Some outb) len) (fun r =>
      let outp' := put_back (Some outb) 0 (r_out r) in
      match r_ret r with
      | Num _ => static_loop (length s0) (r_cd r) (r_in r) outp' (0 + r_pos r) (r_left r)
      | Err EINVAL => Ok (inl (outp', (0 + r_pos r)%nat, r_left r, r_cd r))
      | Err e => Ok (inr (mkStres (Err e) outp' (r_cd r)))
      end)).
    destruct (iconv_meets_spec cd s outb len H I L) as (r & E & S & RC). rewrite E. unfold bind at 2. cbn zeta.
    pose proof (prod_len _ _ _ _ _ S L) as PL.
    pose proof S as (S1 & S2 & S3 & (k & K & S4) & SD & cs1 & cs2 & st & rest & i' & n & S6 & S7 & S8).
    destruct (rd_det _ _ _ _ _ _ _ _ _ _ R S6) as (-> & <- & <- & <-).
    cbn [put_back firstn app Nat.add].
    destruct (r_ret r) as [q|[]] eqn:X.
    + destruct S8 as (-> & -> & _ & A & B). rewrite app_nil_r in *. rewrite A.
      replace (static_loop (length s0) (r_cd r) [] (Some (r_out r)) (r_pos r) (r_left r)) with
        (@Ok (option (list Z) * nat * nat * conv + stres) (inl (Some (r_out r), r_pos r, r_left r, r_cd r))) by (destruct (length s0); reflexivity).
      unfold bind at 1. cbn [at_pos].
      destruct (FL (r_cd r) (r_out r) (r_pos r) (r_left r) (produced r) n) as (r0 & k0 & E0 & X0); auto.
      rewrite E0. unfold bind. rewrite X0. eexists. split; reflexivity.
    + exfalso. destruct S8 as (wc & cs & -> & RR & LL & G).
      assert (EQ : (cs1 ++ wc :: cs) ++ held (ifuncs cd) (fst i) = cs1 ++ wc :: (cs ++ held (ifuncs cd) (fst i))) by (rewrite <- app_assoc; reflexivity).
      destruct (ENC _ _ _ _ _ _ EQ S7) as (b1 & q1 & EM). pose proof (REM _ _ _ _ _ _ EQ S7 _ _ EM). specialize (G _ _ EM). lia.
    + exfalso. destruct S8 as (D & [(_ & Y & _)|(wc & cs & -> & Wn & RR)]); [discriminate|].
      assert (EQ : (cs1 ++ wc :: cs) ++ held (ifuncs cd) (fst i) = cs1 ++ wc :: (cs ++ held (ifuncs cd) (fst i))) by (rewrite <- app_assoc; reflexivity).
      destruct (ENC _ _ _ _ _ _ EQ S7) as (b1 & q1 & EM). unfold write1 in Wn. rewrite EM in Wn. discriminate.
    + exfalso. destruct S8 as (_ & Y & _). discriminate.
    + contradiction.
Qed.

Theorem C21_convert_succeeds_partial : forall alloc cd s tmp block out blk,
  reachable cd -> input s -> length tmp = TEMP_BUFFER_SIZE -> istate cd = 0 -> ostate cd = 0 -> ~ In (iindex cd) bom_sources ->
  converted cd s out -> (forall cs i, rd cd s cs AtEnd [] i -> plain (ofuncs cd) (cs ++ held (ifuncs cd) (fst i)) 0) ->
  alloc (length out) = Some blk -> length blk = length out ->
  exists r, reiconv_convert alloc cd s tmp (PVar block) true = Ok r /\ c_ret r = Num 0 /\ c_len r = Some (length out) /\ c_ptr r = PVar (Some out).
Proof.
  intros alloc cd s tmp block out blk H I T I0 O0 NB C PLAIN AL BL. rewrite <- O0 in PLAIN.
  destruct (result_size_spec cd s tmp H I T) as (z & E & RC & S). unfold reiconv_convert. rewrite E. unfold bind at 1.
  destruct (s_ret z) as [n|e]; [|destruct S as (_ & S); contradiction (S out C)].
  destruct S as ((out' & C' & ->) & IZ & _). pose proof (converted_det _ _ _ _ C C'). subst out'. rewrite AL.
  assert (EQ : s_cd z = cd).
  { destruct IZ as (SD & I1 & I2). pose proof SD as SD'. apply same_at in SD. rewrite SD.
    unfold cd_i. rewrite I1, I2. rewrite (not_bom_byteorder (s_cd z) RC); [|destruct SD' as (Y & _); rewrite Y; exact NB].
    pose proof (not_bom_byteorder cd H NB) as B0. destruct cd; cbn in *; subst; reflexivity. }
  rewrite EQ. clear EQ. destruct C as (cs & i & bs & m & o & C1 & C2 & C3). pose proof (PLAIN cs i C1) as P.
  destruct (static_plain cd s blk (length out) cs i bs m o H I) as (r & E2 & X2); auto; [lia|rewrite C3; lia|].
  rewrite E2. unfold bind. rewrite X2. eexists. split; [reflexivity|]. cbn. repeat split.
  (* the block holds the text *)
  assert (NF : not_full cd s (length out)).
  { intros cs' st' rest' i' out1 n1 o1 R1 W1. destruct (rd_det _ _ _ _ _ _ _ _ _ _ R1 C1) as (-> & -> & -> & ->).
    destruct (held_one (ifuncs cd) (fst i)) as [HE|(wc & HE)]; [now left|right]. rewrite HE in *.
    destruct (plain_mid _ _ _ _ _ _ _ _ _ P W1) as (b1 & o2 & Y1 & Y2). cbn in Y2. rewrite (wr_app _ _ _ _ _ _ W1) in C2. cbn in C2.
    unfold write1 in C2. rewrite Y1 in C2. inversion C2; subst. rewrite <- app_assoc, app_length, app_nil_r.
    destruct (b1 ++ closing (ofuncs cd) o) eqn:Y; [contradiction|cbn; lia]. }
  destruct (static_size_spec cd s blk (length out) H I) as (r' & E3 & S3); [lia|exact NF|]. rewrite E2 in E3. inversion E3; subst r'.
  destruct S3 as (_ & outb' & S1 & S2 & S3 & S4). rewrite X2 in S4.
  destruct S4 as (_ & _ & cs' & st' & rest' & i' & bs' & m' & o' & A1 & A2 & A3 & A4 & A5).
  destruct (rd_det _ _ _ _ _ _ _ _ _ _ A1 C1) as (-> & -> & -> & ->). rewrite C2 in A3. inversion A3; subst bs' m' o'. rewrite <- C3 in *.
  rewrite S1. do 2 f_equal. rewrite <- A5 at 1. symmetry. apply firstn_all2. lia.
Qed.
(** The size computation succeeds, memory is available, and yet the conversion fails: "a", e-acute to ASCII
    with discarding.  The dropped last character is refused when the block is full. *)
Definition u8_ascii_ignore : conv := opened ei_utf8 ei_ascii REICONV_DISCARD_ILSEQ.
Theorem C21_refuted : exists alloc cd s tmp block, reachable cd /\ input s /\ length tmp = TEMP_BUFFER_SIZE /\
  (forall n, exists b, alloc n = Some b /\ length b = n) /\
  (exists z, reiconv_result_size cd s tmp = Ok z /\ s_ret z = Num 1) /\
  (exists r, reiconv_convert alloc cd s tmp (PVar block) true = Ok r /\ c_ret r = Err E2BIG).
Proof.
  exists (fun n => Some (repeat 0 n)), u8_ascii_ignore, [0x61; 0xc3; 0xa9], (repeat 0 TEMP_BUFFER_SIZE), None.
  assert (H : reachable u8_ascii_ignore) by opn.
  split; [exact H|]. split; [inp|]. split; [apply repeat_length|]. split; [intros n; exists (repeat 0 n); split; [reflexivity|apply repeat_length]|].
  split.
  - destruct (result_size_spec u8_ascii_ignore [0x61; 0xc3; 0xa9] (repeat 0 TEMP_BUFFER_SIZE) H) as (z & E & _); [inp|apply repeat_length|].
    exists z. split; [exact E|].
    assert (X : match reiconv_result_size u8_ascii_ignore [0x61; 0xc3; 0xa9] (repeat 0 TEMP_BUFFER_SIZE) with Ok z => s_ret z | _ => Err EINVAL end = Num 1) by run.
    now rewrite E in X.
  - destruct (reiconv_convert (fun n => Some (repeat 0 n)) u8_ascii_ignore [0x61; 0xc3; 0xa9] (repeat 0 TEMP_BUFFER_SIZE) (PVar None) true) as [r| | |] eqn:E;
    assert (X : match reiconv_convert (fun n => Some (repeat 0 n)) u8_ascii_ignore [0x61; 0xc3; 0xa9] (repeat 0 TEMP_BUFFER_SIZE) (PVar None) true with Ok r => c_ret r | _ => Err EINVAL end = Err E2BIG) by run;
    rewrite E in X; try discriminate. eauto.
Qed.

(** * C03: reiconv_convert returns *)
(** For every source that never holds a character back; C21_convert_succeeds_partial covers the others. *)
Theorem C03_convert_terminates : forall alloc cd s tmp ptr lenp, reachable cd -> input s -> length tmp = TEMP_BUFFER_SIZE ->
  (forall n, exists b, alloc n = Some b /\ length b = n) -> f_flush (ifuncs cd) = None ->
  exists r, reiconv_convert alloc cd s tmp ptr lenp = Ok r.
Proof.
  intros alloc cd s tmp ptr lenp H I T A F. destruct (result_size_spec cd s tmp H I T) as (z & E & RZ & S).
  unfold reiconv_convert. rewrite E. unfold bind at 1. destruct (s_ret z) as [n|e]; [|eauto]. cbn zeta. destruct ptr as [|block]; [eauto|].
  destruct (A n) as (b & Ab & Lb). rewrite Ab. destruct S as (_ & ((D1 & D2 & _) & _) & _).
  destruct (static_size_spec (s_cd z) s b n RZ I) as (r & E2 & _); [lia|apply not_full_noflush; now rewrite D2|].
  rewrite E2. unfold bind. destruct (st_ret r); eauto.
Qed.

(** * C22: failures of reiconv_convert leave no dangling pointer *)
Theorem C22_failure_leaves_no_dangling_pointer : forall alloc cd s tmp ptr lenp r e,
  reiconv_convert alloc cd s tmp ptr lenp = Ok r -> c_ret r = Err e ->
  c_ptr r = ptr \/ c_ptr r = PVar None.
Proof.
  intros alloc cd s tmp ptr lenp r e E X. unfold reiconv_convert in E.
  destruct (reiconv_result_size cd s tmp) as [z| | |]; try discriminate. cbn in E.
  destruct (s_ret z) as [n|e']; [|inversion E; subst; auto].
  destruct ptr as [|block]; [inversion E; subst; auto|].
  destruct (reiconv_convert_static_size (s_cd z) s (alloc n) n) as [q| | |]; try discriminate. cbn in E.
  destruct (st_ret q); inversion E; subst; cbn in *; [discriminate|auto].
Qed.
(** It fails, with EILSEQ and the caller's variables untouched, exactly when the text cannot be converted. *)
Theorem C22_bad_text : forall alloc cd s tmp ptr lenp, reachable cd -> input s -> length tmp = TEMP_BUFFER_SIZE ->
  (forall out, ~ converted cd s out) ->
  exists r, reiconv_convert alloc cd s tmp ptr lenp = Ok r /\ c_ret r = Err EILSEQ /\ c_ptr r = ptr /\ c_len r = None.
Proof.
  intros alloc cd s tmp ptr lenp H I T N. destruct (result_size_spec cd s tmp H I T) as (z & E & _ & S). unfold reiconv_convert. rewrite E.
  unfold bind at 1. destruct (s_ret z) as [n|e]; [destruct S as ((out & C & _) & _); contradiction (N out C)|].
  destruct S as (-> & _). eexists. split; [reflexivity|]. auto.
Qed.
(** Without a place for the pointer the size is stored and the call fails with EINVAL. *)
Theorem C22_no_place_for_the_result : forall alloc cd s tmp lenp out, reachable cd -> input s -> length tmp = TEMP_BUFFER_SIZE ->
  converted cd s out ->
  exists r, reiconv_convert alloc cd s tmp PNull lenp = Ok r /\ c_ret r = Err EINVAL /\ c_ptr r = PNull /\
    c_len r = (if lenp then Some (length out) else None).
Proof.
  intros alloc cd s tmp lenp out H I T C. destruct (C16_result_size_succeeds cd s tmp out H I T C) as (z & E & N).
  unfold reiconv_convert. rewrite E. unfold bind. rewrite N. eexists. split; [reflexivity|]. auto.
Qed.
Example C22_case : match reiconv_convert (fun n => Some (repeat 0 n)) u8_latin1 [0x61; 0xc3; 0xa9] (repeat 0 TEMP_BUFFER_SIZE) PNull true with
  | Ok r => (c_ret r, c_len r) | _ => (Num 7, None) end = (Err EINVAL, Some 2%nat).
Proof. vm_compute. reflexivity. Qed.
(** The result of malloc is not checked: without memory the conversion writes through a null pointer. *)
Theorem C22_no_memory_refuted : exists alloc cd s tmp, reachable cd /\ input s /\ length tmp = TEMP_BUFFER_SIZE /\
  (forall n, alloc n = None) /\ reiconv_convert alloc cd s tmp (PVar None) true = UB.
Proof.
  exists (fun _ => None), u8_latin1, [0x61], (repeat 0 TEMP_BUFFER_SIZE). split; [exact r_u8_latin1|]. split; [inp|]. split; [apply repeat_length|].
  split; [reflexivity|run].
Qed.
