(** Properties C40-C42: how conversions combine. *)
From Coq Require Import ZArith List Bool Lia.
From Verif Require Import Base Indexes Loop Contract LoopLib LoopProps Spec SpecProps Encodings Api AllOk Public Demo UniSpec UniProps C_iconv C_api C_uni Whole.
Import ListNotations.
Open Scope Z_scope.

Lemma opened_index : forall i j fl, 0 <= i < 198 -> 0 <= j < 198 -> iindex (opened i j fl) = i /\ oindex (opened i j fl) = j /\
  nth_error all_encodings (Z.to_nat i) = Some (ifuncs (opened i j fl)) /\ nth_error all_encodings (Z.to_nat j) = Some (ofuncs (opened i j fl)) /\
  cd_i (opened i j fl) = (0, 0) /\ ostate (opened i j fl) = 0 /\ discard_ilseq (opened i j fl) = Z.land fl REICONV_DISCARD_ILSEQ.
Proof.
  intros i j fl Hi Hj. pose proof (open_ok i j fl Hi Hj) as O. generalize dependent (opened i j fl). intros cd O. unfold reiconv_open_from_index, encoding_at in O.
  destruct (Z.ltb_spec i 0); [lia|]. destruct (Z.ltb_spec j 0); [lia|].
  destruct (nth_error all_encodings (Z.to_nat i)) as [a|] eqn:A; [|discriminate].
  destruct (nth_error all_encodings (Z.to_nat j)) as [b|] eqn:B; [|discriminate].
  inversion O. subst cd. cbn. auto 10.
Qed.

(** * C40: UTF-8 as pivot *)
Lemma utf8_tags : forall c, ucs4 c -> tag c = true -> exists bs, utf8_form c = Some bs.
Proof.
  intros c U T. unfold tag in T. apply andb_prop in T. destruct T as (A & B). unfold utf8_form.
  assert (S : scalar c = true) by (unfold scalar; lia). rewrite S. eauto.
Qed.
Lemma utf8_lossless : forall f skip cs o out o', implements f utf8_form -> Forall ucs4 cs -> writes_all f skip cs o = (out, 0%nat, o', []) ->
  text utf8_form cs = Some out /\ o' = o.
Proof.
  intros f skip cs o out o' M. revert out. induction cs as [|c cs IH]; cbn; intros out U W; [inversion W; auto|].
  inversion U; subst. unfold write1 in W. rewrite (im_enc _ _ M c o) in W by assumption.
  destruct (utf8_form c) as [a|] eqn:E.
  - destruct (writes_all f skip cs o) as [[[b n] oo] bad]. inversion W; subst. destruct (IH b) as (-> & ->); auto.
  - destruct (tag c) eqn:T; [destruct (utf8_tags c) as (bs & X); auto; congruence|].
    destruct skip; [|destruct (emit f 0xfffd o) as [[x y]|]; [|discriminate]];
      [destruct (writes_all f true cs o) as [[[? ?] ?] ?]|destruct (writes_all f false cs y) as [[[? ?] ?] ?]]; inversion W.
Qed.
Lemma utf8_funcs : forall f, nth_error all_encodings (Z.to_nat ei_utf8) = Some f -> f = enc_utf8.
Proof. intros f H. assert (X : nth_error all_encodings (Z.to_nat ei_utf8) = Some enc_utf8) by reflexivity. rewrite X in H. congruence. Qed.
(** A descriptor ab from A to B, a8 from A to UTF-8 and b8 from UTF-8 to B, in corresponding states. *)
Theorem C40_pivot_in_any_state : forall ab a8 ub s u out n, reachable ab -> reachable a8 -> reachable ub ->
  iindex a8 = iindex ab -> cd_i a8 = cd_i ab -> oindex a8 = ei_utf8 ->
  iindex ub = ei_utf8 -> oindex ub = oindex ab -> ostate ub = ostate ab ->
  skipping a8 = skipping ab -> skipping ub = skipping ab ->
  input s -> input u -> whole a8 s u 0 ->
  (whole ab s out n <-> whole ub u out n).
Proof.
  intros ab a8 ub s u out n H1 H2 H3 X1 X2 X3 X4 X5 X6 X7 X8 I1 I2 W8.
  destruct (source_funcs ab H1) as (F1 & F2). destruct (source_funcs a8 H2) as (F3 & F4). destruct (source_funcs ub H3) as (F5 & F6).
  rewrite X1, F1 in F3. rewrite X5, F2 in F6. inversion F3 as [E1]. inversion F6 as [E2]. clear F3 F6.
  rewrite X3 in F4. apply utf8_funcs in F4. rewrite X4 in F5. apply utf8_funcs in F5.
  rewrite !whole_iff by assumption. rewrite whole_iff in W8 by assumption. destruct W8 as (cs & i & bs & o & R & W & Eu).
  assert (C : closing (ofuncs a8) o = []) by now rewrite F4. rewrite C, app_nil_r in Eu. subst bs.
  assert (R' : rd ab s cs AtEnd [] i).
  { unfold rd, unit_of in *. rewrite E1, <- X1, <- X2, <- X7. exact R. }
  set (all := cs ++ held (ifuncs a8) (fst i)) in *.
  assert (U : Forall ucs4 all).
  { destruct (rd_total a8 s H2 I1) as (cs' & st' & r' & i' & T & U & _). destruct (rd_det _ _ _ _ _ _ _ _ _ _ R T) as (<- & _).
    apply Forall_app. split; [exact U|].
    pose proof (reachable_good a8 H2) as (inv & oinv & pend & A1 & A2 & A3 & A4 & A5 & A6).
    set (B := repeat 0 (enough (length s))).
    destruct (wr a8 cs) as [[[b1 n1] o1] bad] eqn:W1.
    assert (bad = []) as ->.
    { destruct bad as [|x bad]; [reflexivity|]. exfalso. destruct (writes_all_bad _ _ _ _ _ _ _ _ _ W1) as (_ & Q).
      unfold wr, all in W. rewrite Q in W. discriminate. }
    destruct (call_complete a8 s cs i b1 n1 o1 B (length B) H2 I1 R W1) as (r & E & X & P & _ & Ci & Co & SD & H'); [unfold B; rewrite repeat_length; lia|].
    pose proof SD as (D1 & D2 & D3 & D4 & D5). pose proof (pending_ucs4 _ H') as PU. unfold pending in PU. rewrite D2 in PU.
    replace (fst i) with (istate (r_cd r)); [exact PU|]. rewrite <- Ci. reflexivity. }
  assert (M8 : implements (ofuncs a8) utf8_form) by (rewrite F4; exact utf8_implements).
  destruct (utf8_lossless _ _ _ _ _ _ M8 U W) as (T & Eo).
  assert (Ru : rd ub u all AtEnd [] (cd_i ub)).
  { apply rd_text with utf8_form; auto. rewrite X4. cbn. auto. }
  assert (Wsame : wr ub all = wr ab all). { unfold wr. rewrite <- E2, X6, X8. reflexivity. }
  assert (Hd : held (ifuncs ub) (fst (cd_i ub)) = []) by now rewrite F5.
  split.
  - intros (cs' & i' & bs & o' & R1 & W1 & ->). destruct (rd_det _ _ _ _ _ _ _ _ _ _ R1 R') as (-> & _ & _ & ->).
    rewrite E1 in W1. fold all in W1. exists all, (cd_i ub), bs, o'. rewrite Hd, app_nil_r, Wsame. rewrite <- E2. auto.
  - intros (cs' & i' & bs & o' & R1 & W1 & ->). destruct (rd_det _ _ _ _ _ _ _ _ _ _ R1 Ru) as (-> & _ & _ & ->).
    rewrite Hd, app_nil_r, Wsame in W1. exists cs, i, bs, o'. rewrite E1. fold all. rewrite <- E2. auto.
Qed.
(** With freshly opened descriptors: if every character of s can be expressed in UTF-8, then going through UTF-8 makes no difference. *)
Theorem C40_utf8_pivot : forall a b flags s u out n, source a -> target b -> input s -> input u ->
  whole (opened a ei_utf8 flags) s u 0 ->
  (whole (opened a b flags) s out n <-> whole (opened ei_utf8 b flags) u out n).
Proof.
  intros a b flags s u out n Sa Tb I1 I2.
  assert (S8 : source ei_utf8) by (apply sourceb_ok; reflexivity). assert (T8 : target ei_utf8) by (apply targetb_ok; reflexivity).
  pose proof (proj1 Sa) as Ra. pose proof (proj1 Tb) as Rb. rewrite num_encodings in Ra, Rb. change (Z.of_nat 198) with 198 in *.
  assert (R8 : 0 <= ei_utf8 < 198) by (unfold ei_utf8; lia).
  assert (O : forall i j, source i -> target j -> reachable (opened i j flags)).
  { intros i j Hi Hj. eapply reach_open; [exact Hi|exact Hj|]. destruct Hi as (Hi & _), Hj as (Hj & _). rewrite num_encodings in Hi, Hj. apply open_ok; lia. }
  destruct (opened_index a b flags) as (A1 & A2 & A3 & A4 & A5 & A6 & A7); auto.
  destruct (opened_index a ei_utf8 flags) as (B1 & B2 & B3 & B4 & B5 & B6 & B7); auto.
  destruct (opened_index ei_utf8 b flags) as (C1 & C2 & C3 & C4 & C5 & C6 & C7); auto.
  apply C40_pivot_in_any_state; auto; unfold skipping; try congruence; now rewrite ?A7, ?B7, ?C7.
Qed.

(** * C41: concatenation *)
(** Encodings whose decoder keeps something between characters: a shift state, a byte order, or a character held back. *)
Definition stateful_sources : list Z :=
  [ei_ucs2; ei_ucs4; ei_utf16; ei_utf32; ei_utf7; ei_iso2022_jp; ei_iso2022_jp1; ei_iso2022_jp2; ei_iso2022_jpms; ei_iso2022_cn; ei_iso2022_cn_ext; ei_hz;
   ei_big5hkscs1999; ei_big5hkscs2001; ei_big5hkscs2004; ei_big5hkscs2008; ei_iso2022_kr; ei_cp1255; ei_cp1258; ei_tcvn;
   ei_euc_jisx0213; ei_shift_jisx0213; ei_iso2022_jp3].
(** Encodings whose encoder keeps something between characters. *)
Definition stateful_targets : list Z :=
  [ei_utf16; ei_utf32; ei_utf7; ei_iso2022_jp; ei_iso2022_jp1; ei_iso2022_jp2; ei_iso2022_jpms; ei_iso2022_cn; ei_iso2022_cn_ext; ei_hz;
   ei_big5hkscs1999; ei_big5hkscs2001; ei_big5hkscs2004; ei_big5hkscs2008; ei_iso2022_kr; ei_euc_jisx0213; ei_shift_jisx0213; ei_iso2022_jp3].
Lemma stateless_lists : Forall (fun x => (In (fst x) stateful_sources \/ exists g wc r, snd x = mkFuncs (mb0 g) None wc r) /\
    (In (fst x) stateful_targets \/ exists mb fl g, snd x = mkFuncs mb fl (wc0 g) None))
  (combine (map Z.of_nat (seq 0 198)) all_encodings).
Proof.
  change (map Z.of_nat (seq 0 198)) with ltac:(let x := eval vm_compute in (map Z.of_nat (seq 0 198)) in exact x).
  unfold all_encodings. cbn [combine].
  repeat (constructor; [cbn [fst snd]; split;
    [first [right; do 3 eexists; reflexivity | left; apply (proj1 (existsb_exists _ _) ltac:(vm_compute; reflexivity))
           | left; unfold stateful_sources; cbv; intuition lia]
    |first [right; do 3 eexists; reflexivity | left; unfold stateful_targets; cbv; intuition lia]]|]).
  constructor.
Qed.
Lemma nth_combine : forall k f, nth_error all_encodings k = Some f -> In (Z.of_nat k, f) (combine (map Z.of_nat (seq 0 198)) all_encodings).
Proof.
  assert (G : forall l a k (f : funcs), nth_error l k = Some f -> In (Z.of_nat (a + k), f) (combine (map Z.of_nat (seq a (length l))) l)).
  { induction l as [|x l IH]; intros a [|k] f H; cbn in H; try discriminate.
    - inversion H; subst. cbn. left. now rewrite Nat.add_0_r.
    - cbn. right. replace (a + S k)%nat with (S a + k)%nat by lia. now apply IH. }
  intros k f H. rewrite <- num_encodings. now apply (G all_encodings 0%nat k f).
Qed.
Lemma stateless_source : forall cd, reachable cd -> ~ In (iindex cd) stateful_sources -> exists g wc r, ifuncs cd = mkFuncs (mb0 g) None wc r.
Proof.
  intros cd H N. destruct (source_funcs cd H) as (E & _). apply nth_combine in E.
  pose proof (proj1 (Forall_forall _ _) stateless_lists _ E) as ([X|X] & _); [|exact X]. cbn [fst] in X.
  destruct (reachable_opened cd H) as (from & to & flags & cd0 & (S1 & _) & _ & O & (D1 & _)).
  exfalso. apply N. rewrite Z2Nat.id in X; [exact X|].
  unfold reiconv_open_from_index in O. destruct (encoding_at from); [|discriminate..]. destruct (encoding_at to); [|discriminate..]. inversion O; subst cd0. cbn in D1. rewrite D1. lia.
Qed.
Lemma stateless_target : forall cd, reachable cd -> ~ In (oindex cd) stateful_targets -> exists mb fl g, ofuncs cd = mkFuncs mb fl (wc0 g) None.
Proof.
  intros cd H N. destruct (source_funcs cd H) as (_ & E). apply nth_combine in E.
  pose proof (proj1 (Forall_forall _ _) stateless_lists _ E) as (_ & [X|X]); [|exact X]. cbn [fst] in X.
  destruct (reachable_opened cd H) as (from & to & flags & cd0 & _ & (S1 & _) & O & (_ & _ & D1 & _)).
  exfalso. apply N. rewrite Z2Nat.id in X; [exact X|].
  unfold reiconv_open_from_index in O. destruct (encoding_at from); [|discriminate..]. destruct (encoding_at to); [|discriminate..]. inversion O; subst cd0. cbn in D1. rewrite D1. lia.
Qed.
Lemma mb0_keeps : forall g wc r s i, match dec (mkFuncs (mb0 g) None wc r) s i with
  | Some (DChar _ _ i') | Some (DFew _ i') | Some (DIll _ i') => i' = i | None => True end.
Proof.
  intros g wc r s [a b]. unfold dec, mb0. cbn [f_mb fst snd]. destruct (g s (length s)) as [[x w]| | |]; cbn; try exact I.
  unfold dview. destruct w; repeat match goal with |- context [if ?b then _ else _] => destruct b end; auto.
Qed.
Lemma reads_stateless : forall g wc r u skip s i cs st rest i', reads (mkFuncs (mb0 g) None wc r) u skip s i cs st rest i' -> i' = i.
Proof.
  intros g wc r u skip s i cs st rest i' R. remember (mkFuncs (mb0 g) None wc r) as f. induction R; subst f; auto;
    pose proof (mb0_keeps g wc r s i) as K; match goal with E : dec _ _ _ = Some _ |- _ => rewrite E in K end; subst; auto.
Qed.
Lemma writes_stateless : forall mb fl g skip cs o out n o' bad, writes_all (mkFuncs mb fl (wc0 g) None) skip cs o = (out, n, o', bad) -> o' = o.
Proof.
  intros mb fl g skip cs. set (f := mkFuncs mb fl (wc0 g) None).
  assert (EM : forall c o bs o', emit f c o = Some (bs, o') -> o' = o).
  { intros c o bs o' E. unfold emit, f, wc0 in E. cbn [f_wc] in E. destruct (g c 16%nat) as [[x l]| | |]; cbn in E; try discriminate. destruct (x <? 0); inversion E; auto. }
  induction cs as [|c cs IH]; cbn; intros o out n o' bad W; [inversion W; auto|].
  destruct (write1 f skip c o) as [[[bs o1] k]|] eqn:E; [|inversion W; auto].
  assert (o1 = o). { unfold write1 in E. destruct (emit f c o) as [[x y]|] eqn:E1; [inversion E; subst; eauto|].
    destruct (tag c); [inversion E; auto|]. destruct skip; [inversion E; auto|]. destruct (emit f 65533 o) as [[x y]|] eqn:E2; inversion E; subst; eauto. }
  subst o1. destruct (writes_all f skip cs o) as [[[a b] c0] d] eqn:E1. inversion W; subst. eauto.
Qed.
(** Text followed by text: the outputs follow each other, and the losses add up.  The first text alone must be complete. *)
Theorem C41_concatenation : forall cd x y ox nx oy ny, reachable cd -> ~ In (iindex cd) stateful_sources -> ~ In (oindex cd) stateful_targets ->
  input (x ++ y) -> whole cd x ox nx -> (whole cd y oy ny <-> whole cd (x ++ y) (ox ++ oy) (nx + ny)).
Proof.
  intros cd x y ox nx oy ny H N1 N2 I Wx. destruct (input_app _ _ I) as (Ix & Iy).
  destruct (stateless_source cd H N1) as (g & wc & rs & Ef). destruct (stateless_target cd H N2) as (mb & fl & g' & Eo).
  rewrite whole_iff in Wx by assumption. destruct Wx as (cs & i & bs & o & R & W & ->).
  assert (Hd : forall i, held (ifuncs cd) i = []) by (intros; now rewrite Ef).
  assert (Cl : forall o, closing (ofuncs cd) o = []) by (intros; now rewrite Eo).
  rewrite Hd, app_nil_r in W. rewrite Cl, app_nil_r.
  assert (i = cd_i cd) as ->. { unfold rd in R. rewrite Ef in R. now apply reads_stateless in R. }
  assert (o = ostate cd) as ->. { unfold wr in W. rewrite Eo in W. now apply writes_stateless in W. }
  rewrite !whole_iff by assumption.
  pose proof (rd_app cd x y cs AtEnd [] _ H I R) as RA. cbn [app] in RA.
  split.
  - intros (cs2 & i2 & b2 & o2 & R2 & W2 & ->). rewrite Hd, app_nil_r in W2. rewrite Cl, app_nil_r.
    exists (cs ++ cs2), i2, (bs ++ b2), o2. split; [now apply RA|]. rewrite Hd, Cl, !app_nil_r. split; [|reflexivity].
    rewrite (wr_app _ _ _ _ _ _ W). unfold wr in W2. now rewrite W2.
  - intros (cs2 & i2 & b2 & o2 & R2 & W2 & E). rewrite Hd, app_nil_r in W2. rewrite Cl, app_nil_r in E.
    destruct (rd_total cd y H Iy) as (cy & sy & ry & iy & Ry & _). specialize (RA _ _ _ _ Ry).
    destruct (rd_det _ _ _ _ _ _ _ _ _ _ R2 RA) as (-> & <- & <- & <-).
    rewrite (wr_app _ _ _ _ _ _ W) in W2. destruct (writes_all (ofuncs cd) (skipping cd) cy (ostate cd)) as [[[b3 n3] o3] bad] eqn:W3.
    injection W2 as Q1 Q2 Q3 Q4. rewrite <- Q1 in E. apply app_inv_head in E. subst oy bad o3. assert (n3 = ny) by lia. subst n3.
    exists cy, i2, b3, o2. rewrite Hd, Cl, !app_nil_r. split; [exact Ry|]. split; [exact W3|reflexivity].
Qed.
(** * C42: ASCII *)
(** Encodings that read ASCII bytes as ASCII characters, with the bytes for which they do not. *)
Definition ascii_sources : list (Z * list Z) :=
  map (fun i => (i, [])) [
    ei_ascii; ei_utf8; ei_euc_jp; ei_cp932; ei_euc_cn; ei_ces_gbk; ei_cp936; ei_euc_tw; ei_ces_big5; ei_cp950; ei_big5hkscs1999;
    ei_big5hkscs2001; ei_big5hkscs2004; ei_big5hkscs2008; ei_euc_kr; ei_cp949; ei_dec_kanji; ei_dec_hanyu; ei_iso8859_1; ei_iso8859_2;
    ei_iso8859_3; ei_iso8859_4; ei_iso8859_5; ei_iso8859_6; ei_iso8859_7; ei_iso8859_8; ei_iso8859_9; ei_iso8859_10; ei_iso8859_11;
    ei_iso8859_13; ei_iso8859_14; ei_iso8859_15; ei_iso8859_16; ei_koi8_r; ei_koi8_u; ei_koi8_ru; ei_cp1250; ei_cp1251; ei_cp1252;
    ei_cp1253; ei_cp1254; ei_cp1255; ei_cp1256; ei_cp1257; ei_cp850; ei_cp862; ei_cp866; ei_cp1131; ei_mac_roman; ei_mac_centraleurope;
    ei_mac_iceland; ei_mac_croatian; ei_mac_romania; ei_mac_cyrillic; ei_mac_ukraine; ei_mac_greek; ei_mac_turkish; ei_mac_hebrew;
    ei_mac_arabic; ei_mac_thai; ei_hp_roman8; ei_nextstep; ei_armscii_8; ei_georgian_academy; ei_georgian_ps; ei_koi8_t; ei_pt154;
    ei_rk1048; ei_mulelao; ei_cp1133; ei_tis620; ei_cp874; ei_cp856; ei_cp922; ei_cp943; ei_cp1046; ei_cp1124; ei_cp1129; ei_cp1161;
    ei_cp1162; ei_cp1163; ei_cp437; ei_cp737; ei_cp775; ei_cp852; ei_cp853; ei_cp855; ei_cp857; ei_cp858; ei_cp860; ei_cp861; ei_cp863;
    ei_cp865; ei_cp869; ei_cp1125; ei_euc_jisx0213; ei_big5_2003; ei_atarist; ei_riscos1] ++ [
    (ei_c99, [0x5c]);
    (ei_java, [0x5c]);
    (ei_sjis, [0x5c; 0x7e]);
    (ei_iso2022_jp, [0x1b]);
    (ei_iso2022_jp1, [0x1b]);
    (ei_iso2022_jp2, [0x1b]);
    (ei_iso2022_jpms, [0x0e; 0x0f; 0x1b]);
    (ei_iso2022_cn, [0x0e; 0x0f; 0x1b]);
    (ei_iso2022_cn_ext, [0x0e; 0x0f; 0x1b]);
    (ei_hz, [0x7e]);
    (ei_johab, [0x5c]);
    (ei_iso2022_kr, [0x0e; 0x0f; 0x1b]);
    (ei_cp1258, [0x41; 0x42; 0x43; 0x44; 0x45; 0x47; 0x48; 0x49; 0x4b; 0x4c; 0x4d; 0x4e; 0x4f; 0x50; 0x52; 0x53; 0x54; 0x55; 0x56; 0x57; 0x59; 0x5a; 0x61; 0x62; 0x63; 0x64; 0x65; 0x67; 0x68; 0x69; 0x6b; 0x6c; 0x6d; 0x6e; 0x6f; 0x70; 0x72; 0x73; 0x74; 0x75; 0x76; 0x77; 0x79; 0x7a]);
    (ei_viscii, [0x02; 0x05; 0x06; 0x14; 0x19; 0x1e]);
    (ei_tcvn, [0x01; 0x02; 0x04; 0x05; 0x06; 0x11; 0x12; 0x13; 0x14; 0x15; 0x16; 0x17; 0x41; 0x42; 0x43; 0x44; 0x45; 0x47; 0x48; 0x49; 0x4b; 0x4c; 0x4d; 0x4e; 0x4f; 0x50; 0x52; 0x53; 0x54; 0x55; 0x56; 0x57; 0x59; 0x5a; 0x61; 0x62; 0x63; 0x64; 0x65; 0x67; 0x68; 0x69; 0x6b; 0x6c; 0x6d; 0x6e; 0x6f; 0x70; 0x72; 0x73; 0x74; 0x75; 0x76; 0x77; 0x79; 0x7a]);
    (ei_iso646_jp, [0x5c; 0x7e]);
    (ei_jisx0201, [0x5c; 0x7e]);
    (ei_iso646_cn, [0x24; 0x7e]);
    (ei_cp864, [0x25]);
    (ei_shift_jisx0213, [0x5c; 0x7e]);
    (ei_iso2022_jp3, [0x1b])].
(** Encodings that write ASCII characters as ASCII bytes, with the characters for which they do not. *)
Definition ascii_targets : list (Z * list Z) :=
  map (fun i => (i, [])) [
    ei_ascii; ei_utf8; ei_c99; ei_java; ei_euc_jp; ei_cp932; ei_iso2022_jp; ei_iso2022_jp1; ei_iso2022_jp2; ei_iso2022_jpms; ei_euc_cn;
    ei_ces_gbk; ei_cp936; ei_iso2022_cn; ei_hz; ei_euc_tw; ei_ces_big5; ei_cp950; ei_big5hkscs1999; ei_big5hkscs2001; ei_big5hkscs2004;
    ei_big5hkscs2008; ei_euc_kr; ei_cp949; ei_iso2022_kr; ei_dec_kanji; ei_dec_hanyu; ei_iso8859_1; ei_iso8859_2; ei_iso8859_3;
    ei_iso8859_4; ei_iso8859_5; ei_iso8859_6; ei_iso8859_7; ei_iso8859_8; ei_iso8859_9; ei_iso8859_10; ei_iso8859_11; ei_iso8859_13;
    ei_iso8859_14; ei_iso8859_15; ei_iso8859_16; ei_koi8_r; ei_koi8_u; ei_koi8_ru; ei_cp1250; ei_cp1251; ei_cp1252; ei_cp1253; ei_cp1254;
    ei_cp1255; ei_cp1256; ei_cp1257; ei_cp1258; ei_cp850; ei_cp862; ei_cp866; ei_cp1131; ei_mac_roman; ei_mac_centraleurope; ei_mac_iceland;
    ei_mac_croatian; ei_mac_romania; ei_mac_cyrillic; ei_mac_ukraine; ei_mac_greek; ei_mac_turkish; ei_mac_hebrew; ei_mac_arabic;
    ei_mac_thai; ei_hp_roman8; ei_nextstep; ei_georgian_academy; ei_georgian_ps; ei_koi8_t; ei_pt154; ei_rk1048; ei_mulelao; ei_cp1133;
    ei_tis620; ei_cp874; ei_cp856; ei_cp922; ei_cp943; ei_cp1046; ei_cp1124; ei_cp1129; ei_cp1161; ei_cp1162; ei_cp1163; ei_cp437; ei_cp737;
    ei_cp775; ei_cp852; ei_cp853; ei_cp855; ei_cp857; ei_cp858; ei_cp860; ei_cp861; ei_cp863; ei_cp865; ei_cp869; ei_cp1125;
    ei_euc_jisx0213; ei_big5_2003; ei_atarist; ei_riscos1] ++ [
    (ei_sjis, [0x5c; 0x7e]);
    (ei_johab, [0x5c]);
    (ei_armscii_8, [0x28; 0x29; 0x2c; 0x2d; 0x2e]);
    (ei_viscii, [0x02; 0x05; 0x06; 0x14; 0x19; 0x1e]);
    (ei_tcvn, [0x01; 0x02; 0x04; 0x05; 0x06; 0x11; 0x12; 0x13; 0x14; 0x15; 0x16; 0x17]);
    (ei_iso646_jp, [0x5c; 0x7e]);
    (ei_jisx0201, [0x5c; 0x7e]);
    (ei_iso646_cn, [0x24; 0x7e]);
    (ei_cp864, [0x25]);
    (ei_shift_jisx0213, [0x5c; 0x7e])].
Definition ascii (b : Z) : Prop := 0 <= b < 0x80.
Definition reads_ascii (f : funcs) (b : Z) : bool :=
  match dec f [b] (0, 0) with Some (DChar 1 c (0, 0)) => c =? b | _ => false end.
Definition writes_ascii (f : funcs) (b : Z) : bool :=
  match emit f b 0 with Some ([c], 0) => c =? b | _ => false end.
Definition ascii_check (p : funcs -> Z -> bool) (x : Z * list Z) : bool :=
  match nth_error all_encodings (Z.to_nat (fst x)) with
  | Some f => forallb (fun b => inb_ b (snd x) || p f b) (map Z.of_nat (seq 0 128))
  | None => false
  end.
Definition ends_clean (x : Z * list Z) : bool :=
  match nth_error all_encodings (Z.to_nat (fst x)) with
  | Some f => match held f 0 with [] => true | _ => false end
  | None => false
  end.
Definition closes_clean (x : Z * list Z) : bool :=
  match nth_error all_encodings (Z.to_nat (fst x)) with
  | Some f => match closing f 0 with [] => true | _ => false end
  | None => false
  end.
Lemma ascii_sources_ok : forallb (fun x => ascii_check reads_ascii x && ends_clean x) ascii_sources = true.
Proof. vm_compute. reflexivity. Qed.
Lemma ascii_targets_ok : forallb (fun x => ascii_check writes_ascii x && closes_clean x) ascii_targets = true.
Proof. vm_compute. reflexivity. Qed.
Lemma ascii_checked : forall p x f, ascii_check p x = true -> nth_error all_encodings (Z.to_nat (fst x)) = Some f ->
  forall b, ascii b -> ~ In b (snd x) -> p f b = true.
Proof.
  intros p x f H E b A N. unfold ascii_check in H. rewrite E in H. rewrite forallb_forall in H.
  assert (M : In b (map Z.of_nat (seq 0 128))). { apply in_map_iff. exists (Z.to_nat b). unfold ascii in A. split; [lia|]. apply in_seq. lia. }
  specialize (H b M). apply orb_true_iff in H. destruct H as [H|H]; [|exact H]. exfalso. apply N. unfold inb_ in H.
  apply existsb_exists in H. destruct H as (y & Y & Q). apply Z.eqb_eq in Q. now subst y.
Qed.
(** ASCII text, without the exceptional characters of the two encodings, comes out unchanged. *)
Theorem C42_ascii_preserved : forall a exa b exb flags s, In (a, exa) ascii_sources -> In (b, exb) ascii_targets ->
  source a -> target b -> Forall (fun c => ascii c /\ ~ In c exa /\ ~ In c exb) s -> Z.of_nat (length s) <= LIM ->
  whole (opened a b flags) s s 0.
Proof.
  intros a exa b exb flags s Ia Ib Sa Tb F L.
  pose proof (proj1 Sa) as Ra. pose proof (proj1 Tb) as Rb. rewrite num_encodings in Ra, Rb. change (Z.of_nat 198) with 198 in *.
  destruct (opened_index a b flags) as (A1 & A2 & A3 & A4 & A5 & A6 & _); auto.
  assert (H : reachable (opened a b flags)). { eapply reach_open; [exact Sa|exact Tb|]. apply open_ok; lia. }
  pose proof (proj1 (forallb_forall _ _) ascii_sources_ok _ Ia) as P. pose proof (proj1 (forallb_forall _ _) ascii_targets_ok _ Ib) as Q.
  apply andb_prop in P. destruct P as (P1 & P2). apply andb_prop in Q. destruct Q as (Q1 & Q2).
  pose proof (ascii_checked _ _ _ P1 A3) as P3. pose proof (ascii_checked _ _ _ Q1 A4) as Q3. cbn [snd] in P3, Q3.
  unfold ends_clean in P2. cbn [fst] in P2. rewrite A3 in P2. unfold closes_clean in Q2. cbn [fst] in Q2. rewrite A4 in Q2.
  assert (B : bytes s). { eapply Forall_impl; [|exact F]. intros c (C & _). unfold ascii, byte in *. lia. }
  apply whole_iff; [exact H|now split|].
  destruct (reachable_good _ H) as (inv & oinv & pend & D1 & D2 & D3 & D4 & D5 & D6).
  set (cd := opened a b flags) in *.
  exists s, (0, 0), s, 0. split; [|split].
  - unfold rd. rewrite A5. assert (IN : inv (0, 0)) by (eapply d_init; eauto). clear - F L B P3 D2 IN.
    induction s as [|c s IH]; [constructor|]. inversion F as [|? ? (C1 & C2 & _) F']; subst. inversion B; subst.
    apply reads_char with (k := 1%nat) (i1 := (0, 0)); [discriminate| |cbn [skipn]; apply IH; auto; cbn in L; lia].
    specialize (P3 c C1 C2). unfold reads_ascii in P3.
    destruct (dec (ifuncs cd) [c] (0, 0)) as [[k w i|k i|k i]|] eqn:E; try discriminate.
    destruct k as [|[|k]]; try discriminate. destruct i as [[| |] [| |]]; try discriminate. apply Z.eqb_eq in P3. subst w.
    apply (s_char _ _ D2 [c] s); auto; [constructor; [assumption|constructor]|discriminate].
  - cbn [fst]. destruct (held (ifuncs cd) 0); [|discriminate]. rewrite app_nil_r. unfold wr. rewrite A6. clear - F Q3.
    induction s as [|c s IH]; [reflexivity|]. inversion F as [|? ? (C1 & _ & C3) F']; subst. cbn [writes_all].
    specialize (Q3 c C1 C3). unfold writes_ascii in Q3. unfold write1.
    destruct (emit (ofuncs cd) c 0) as [[[|x [|y l]] [| |]]|]; try discriminate. apply Z.eqb_eq in Q3. subst x. rewrite IH; auto.
  - destruct (closing (ofuncs cd) 0); [|discriminate]. now rewrite app_nil_r.
Qed.

(** * The hypotheses can be met *)
(** The text "a", HIRAGANA A, "b" in Shift_JIS, UTF-8 and ISO-2022-JP. *)
Example C40_example : whole (opened ei_sjis ei_utf8 0) [0x61; 0x82; 0xa0; 0x62] [0x61; 0xe3; 0x81; 0x82; 0x62] 0 /\
  whole (opened ei_sjis ei_iso2022_jp 0) [0x61; 0x82; 0xa0; 0x62] [0x61; 0x1b; 0x24; 0x42; 0x24; 0x22; 0x1b; 0x28; 0x42; 0x62] 0 /\
  whole (opened ei_utf8 ei_iso2022_jp 0) [0x61; 0xe3; 0x81; 0x82; 0x62] [0x61; 0x1b; 0x24; 0x42; 0x24; 0x22; 0x1b; 0x28; 0x42; 0x62] 0.
Proof. split; [|split]; wrun 32%nat. Qed.
(** Without the condition that UTF-8 can express the text: UCS-4 values above 10FFFF pass between the UCS-4 forms but not through UTF-8. *)
Theorem C40_needs_scalar_values : exists s u out, input s /\ input u /\ whole (opened ei_ucs4be ei_utf8 0) s u 1 /\
  whole (opened ei_ucs4be ei_ucs4le 0) s out 0 /\ ~ whole (opened ei_utf8 ei_ucs4le 0) u out 0.
Proof.
  exists [0; 0x11; 0; 0], [0xef; 0xbf; 0xbd], [0; 0; 0x11; 0]. split; [inp|]. split; [inp|]. split; [wrun 32%nat|]. split; [wrun 32%nat|].
  intros W. assert (W' : whole (opened ei_utf8 ei_ucs4le 0) [0xef; 0xbf; 0xbd] [0xfd; 0xff; 0; 0] 0) by (wrun 32%nat).
  destruct (fun H I => whole_det _ _ _ _ _ _ H I W W') as (X & _); [opn|inp|discriminate].
Qed.
Example C41_example : ~ In (iindex (opened ei_euc_jp ei_utf8 0)) stateful_sources /\ ~ In (oindex (opened ei_euc_jp ei_utf8 0)) stateful_targets /\
  whole (opened ei_euc_jp ei_utf8 0) [0xa4; 0xa2] [0xe3; 0x81; 0x82] 0 /\ whole (opened ei_euc_jp ei_utf8 0) [0x62] [0x62] 0 /\
  whole (opened ei_euc_jp ei_utf8 0) [0xa4; 0xa2; 0x62] [0xe3; 0x81; 0x82; 0x62] 0.
Proof. split; [apply inb_spec; run|]. split; [apply inb_spec; run|]. split; [|split]; wrun 32%nat. Qed.
(** Not so with a shift state: every separate text returns to ASCII, and UTF-16 output starts with a byte order mark once. *)
Theorem C41_not_for_shift_states : exists cd x y ox oy, reachable cd /\ input (x ++ y) /\ whole cd x ox 0 /\ whole cd y oy 0 /\ ~ whole cd (x ++ y) (ox ++ oy) 0.
Proof.
  exists (opened ei_euc_jp ei_iso2022_jp 0), [0xa4; 0xa2], [0xa4; 0xa2],
    [0x1b; 0x24; 0x42; 0x24; 0x22; 0x1b; 0x28; 0x42], [0x1b; 0x24; 0x42; 0x24; 0x22; 0x1b; 0x28; 0x42].
  split; [opn|]. split; [inp|]. split; [wrun 32%nat|]. split; [wrun 32%nat|].
  intros W. assert (W' : whole (opened ei_euc_jp ei_iso2022_jp 0) [0xa4; 0xa2; 0xa4; 0xa2] [0x1b; 0x24; 0x42; 0x24; 0x22; 0x24; 0x22; 0x1b; 0x28; 0x42] 0) by (wrun 32%nat).
  destruct (fun H I => whole_det _ _ _ _ _ _ H I W W') as (X & _); [opn|inp|discriminate].
Qed.
Example C42_example : In (ei_koi8_r, []) ascii_sources /\ In (ei_iso2022_kr, []) ascii_targets /\ In (ei_sjis, [0x5c; 0x7e]) ascii_sources /\
  whole (opened ei_koi8_r ei_cp1252 0) [0x41; 0x7e; 0x00] [0x41; 0x7e; 0x00] 0.
Proof.
  split; [|split; [|split; [|wrun 32%nat]]]; unfold ascii_sources, ascii_targets; cbn [map app]; repeat (first [left; reflexivity|right]).
Qed.
