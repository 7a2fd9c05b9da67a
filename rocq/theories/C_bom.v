(** Properties C32, C33: byte order marks. *)
From Coq Require Import ZArith List Bool Lia.
From Verif Require Import Base Indexes Loop Contract LoopLib LoopProps Spec SpecProps Conv_uni Encodings Api AllOk Public Demo UniSpec UniProps C_iconv C_api C_uni Whole C_comb Bom Round.
Import ListNotations.
Open Scope Z_scope.

(** * Reading *)
(** What decoders with a fixed byte order do to the position: whole units only. *)
Definition aligned (g : bool -> funcs) (w : nat) : Prop := forall o s d, bytes s -> s <> [] -> dec (g o) s (0, 0) = Some d ->
  match d with DChar k _ i => (exists m, k = (m * w)%nat) /\ i = (0, 0) | DFew k i | DIll k i => k = 0%nat /\ i = (0, 0) end.
(** No unit of s is a mark (or otherwise not ok). *)
Definition clean (w : nat) (ok : bool -> list Z -> Prop) (o : bool) (s : list Z) : Prop := forall k, ok o (firstn w (skipn (k * w) s)).
Lemma clean_skip : forall w ok o s m, clean w ok o s -> clean w ok o (skipn (m * w) s).
Proof. intros w ok o s m C k. rewrite skipn_skipn. replace (m * w + k * w)%nat with ((k + m) * w)%nat by lia. apply C. Qed.
Lemma reads_under : forall f g w mark ok u skip o, marked f g w mark ok -> aligned g w -> (exists q, u = (q * w)%nat) ->
  forall s i cs st r i', reads (g o) u skip s i cs st r i' -> i = (0, 0) -> clean w ok o s -> bytes s -> Z.of_nat (length s) <= LIM ->
  i' = (0, 0) /\ reads f u skip s (0, b2z o) cs st r (0, b2z o).
Proof.
  intros f g w mark ok u skip o M A (q & Q) s i cs st r i' R. induction R; intros -> C B L; try (pose proof (A o s _ B ltac:(assumption) ltac:(eassumption)) as AL; cbn in AL).
  - split; [reflexivity|]. constructor.
  - destruct AL as ((m & ->) & ->). destruct IHR as (-> & X); auto using clean_skip; [now apply Forall_skipn|rewrite skipn_length; lia|]. split; [reflexivity|].
    eapply reads_char; [assumption| |exact X]. rewrite (mk_other _ _ _ _ _ M o s B) by (auto; apply (C 0%nat)). now rewrite H0.
  - destruct AL as (AL & _). discriminate.
  - destruct AL as (_ & ->). split; [reflexivity|]. eapply reads_trunc; [assumption|]. rewrite (mk_other _ _ _ _ _ M o s B) by (auto; apply (C 0%nat)). now rewrite H0.
  - destruct AL as (-> & ->). cbn in *. subst u. destruct IHR as (-> & X); auto using clean_skip; [now apply Forall_skipn|rewrite skipn_length; lia|]. split; [reflexivity|].
    eapply (reads_skip _ _ _ s _ 0); [assumption|assumption| |exact X]. rewrite (mk_other _ _ _ _ _ M o s B) by (auto; apply (C 0%nat)). now rewrite H1.
  - destruct AL as (-> & ->). split; [reflexivity|]. eapply (reads_inval _ _ _ s _ 0); [assumption|assumption|]. rewrite (mk_other _ _ _ _ _ M o s B) by (auto; apply (C 0%nat)). now rewrite H1.
Qed.
(** A mark selects the byte order of what follows. *)
Lemma reads_mark : forall f g w mark ok u skip o o', marked f g w mark ok -> aligned g w -> (1 <= w)%nat -> (forall o, length (mark o) = w) ->
  forall t cs st r i', clean w ok o' t -> bytes t -> Z.of_nat (w + length t) <= LIM ->
  reads f u skip t (0, b2z o') cs st r i' -> reads f u skip (mark o' ++ t) (0, b2z o) cs st r i'.
Proof.
  intros f g w mark ok u skip o o' M A W Ml t cs st r i' C B L R. pose proof (mk_mark _ _ _ _ _ M o o' t B L) as E.
  assert (NE : mark o' ++ t <> []) by (destruct (mark o') eqn:X; [specialize (Ml o'); rewrite X in Ml; cbn in Ml; lia|discriminate]).
  assert (SK : forall k, skipn (w + k) (mark o' ++ t) = skipn k t) by (intros k; rewrite <- (Ml o') at 1; rewrite skipn_app, skipn_all2, Nat.add_comm, Nat.add_sub by lia; reflexivity).
  destruct w as [|w]; [lia|]. destruct t as [|x t].
  - eapply reads_shift; [assumption|exact E|]. specialize (SK 0%nat). rewrite Nat.add_0_r in SK. rewrite SK. exact R.
  - cbv iota in E. inversion R; subst.
    + rewrite H0 in E. cbn [option_map dshift] in E. eapply reads_char; [assumption|exact E|]. now rewrite SK.
    + rewrite H0 in E. cbn [option_map dshift] in E. cbn [Nat.add] in E. eapply reads_shift; [assumption|exact E|]. change (S (w + S k)) with (S w + S k)%nat. now rewrite SK.
    + rewrite H0 in E. cbn [option_map dshift] in E. rewrite Nat.add_0_r in E. eapply reads_shift; [assumption|exact E|]. specialize (SK 0%nat). rewrite Nat.add_0_r in SK. rewrite SK.
      assert (i' = (0, b2z o')) as ->; [|exact R].
      rewrite (mk_other _ _ _ _ _ M o' (x :: t) B) in H0; [|discriminate|lia|apply (C 0%nat)].
      destruct (dec (g o') (x :: t) (0, 0)) as [[]|]; inversion H0. reflexivity.
    + rewrite H1 in E. cbn [option_map dshift] in E. eapply reads_skip; [assumption|reflexivity|exact E|]. rewrite <- Nat.add_assoc, SK. assumption.
    + rewrite H1 in E. cbn [option_map dshift] in E. rewrite <- SK. eapply reads_inval; [assumption|reflexivity|exact E].
Qed.
Lemma aligned_forms : forall g w (F : bool -> form), (forall o, implements (g o) (F o)) ->
  (forall o s k c i, dec (g o) s (0, 0) = Some (DChar k c i) -> exists m, k = (m * w)%nat) -> aligned g w.
Proof.
  intros g w F I K o s d B S D. destruct d as [k c i|k i|k i].
  - split; [eapply K; eauto|]. now destruct (im_only _ _ (I o) s (0, 0) k c i B S D).
  - exact (im_st _ _ (I o) s (0, 0) _ B S D).
  - exact (im_st _ _ (I o) s (0, 0) _ B S D).
Qed.
Lemma dview_char : forall f s n k c i, dview (mb0 f s n 0 0) = Some (DChar k c i) -> exists r p, f s n = Ok (r, p) /\ k = Z.to_nat r /\ 0 <= r.
Proof.
  intros f s n k c i H. unfold mb0, bind in H. destruct (f s n) as [[r p]| | |]; cbn in H; try discriminate. destruct (Z.ltb_spec r 0).
  - destruct (Z.even _) in H; discriminate.
  - destruct p; inversion H; subst. eauto 8.
Qed.
Ltac split_rd D := cbv beta iota in D; repeat (match type of D with
    | (match nth_error ?s ?k with _ => _ end) = _ => destruct (nth_error s k)
    | (if ?c then _ else _) = _ => destruct c
    end; cbv beta iota in D).
Ltac dec_units m1 m2 := let D := fresh "D" in intros D; apply dview_char in D;
  destruct D as (r & p & D & -> & N); unfold Base.rd in D; cbv zeta in D; split_rd D;
  (lazymatch type of D with Ok _ = Ok _ => idtac | _ => discriminate D end) ||
  (apply (f_equal (fun x => match x with Ok (a, _) => a | _ => 0 end)) in D; cbv beta iota in D; subst r; first [exfalso; clear - N; lia|exists m1; reflexivity|exists m2; reflexivity]).
Lemma aligned16 : aligned g16 2.
Proof.
  apply (aligned_forms g16 2 (fun o => if o then utf16le_form else utf16be_form)).
  - intros []; [exact utf16le_implements|exact utf16be_implements].
  - intros [] s k c i; unfold dec; cbn [fst snd]; [change (f_mb (g16 true)) with (mb0 utf16le_mbtowc)|change (f_mb (g16 false)) with (mb0 utf16be_mbtowc)];
      unfold utf16le_mbtowc, utf16be_mbtowc; dec_units 1%nat 2%nat.
Qed.
Lemma aligned2 : aligned g2 2.
Proof.
  apply (aligned_forms g2 2 (fun o => if o then ucs2le_form else ucs2be_form)).
  - intros []; [exact ucs2le_implements|exact ucs2be_implements].
  - intros [] s k c i; unfold dec; cbn [fst snd]; [change (f_mb (g2 true)) with (mb0 ucs2le_mbtowc)|change (f_mb (g2 false)) with (mb0 ucs2be_mbtowc)];
      unfold ucs2le_mbtowc, ucs2be_mbtowc; dec_units 1%nat 2%nat.
Qed.
Lemma aligned32 : aligned g32 4.
Proof.
  apply (aligned_forms g32 4 (fun o => if o then utf32le_form else utf32be_form)).
  - intros []; [exact utf32le_implements|exact utf32be_implements].
  - intros [] s k c i; unfold dec; cbn [fst snd]; [change (f_mb (g32 true)) with (mb0 utf32le_mbtowc)|change (f_mb (g32 false)) with (mb0 utf32be_mbtowc)];
      unfold utf32le_mbtowc, utf32be_mbtowc; dec_units 1%nat 2%nat.
Qed.
Lemma aligned4 : aligned g4 4.
Proof.
  apply (aligned_forms g4 4 (fun o => if o then ucs4le_form else ucs4be_form)).
  - intros []; [exact ucs4le_implements|exact ucs4be_implements].
  - intros [] s k c i; unfold dec; cbn [fst snd]; [change (f_mb (g4 true)) with (mb0 ucs4le_mbtowc)|change (f_mb (g4 false)) with (mb0 ucs4be_mbtowc)];
      unfold ucs4le_mbtowc, ucs4be_mbtowc; dec_units 1%nat 2%nat.
Qed.

(** The encodings that look at marks, those for the two byte orders, and the size of a unit. *)
Definition families : list (Z * Z * Z * nat) :=
  [(ei_utf16, ei_utf16be, ei_utf16le, 2%nat); (ei_ucs2, ei_ucs2be, ei_ucs2le, 2%nat); (ei_utf32, ei_utf32be, ei_utf32le, 4%nat); (ei_ucs4, ei_ucs4be, ei_ucs4le, 4%nat)].
(** U+FEFF in units of w bytes. *)
Definition bom (w : nat) (little : bool) : list Z := if Nat.eqb w 2 then mark2 little else mark4 little.
(** No unit of t is a mark; for UCS-4, which has no values from 80000000 on (UCS-4BE and UCS-4LE have), none has such a value. *)
Definition unmarked (m : Z) (w : nat) (little : bool) (t : list Z) : Prop :=
  (forall k o, firstn w (skipn (k * w) t) <> bom w o) /\
  (m = ei_ucs4 -> forall k, length (firstn w (skipn (k * w) t)) = 4%nat -> nth (if little then 3 else 0) (firstn w (skipn (k * w) t)) 0 < 128).
Record family (m be le : Z) (w : nat) (f : funcs) (g : bool -> funcs) (ok : bool -> list Z -> Prop) : Prop := {
  fa_m : nth_error all_encodings (Z.to_nat m) = Some f;
  fa_g : forall o : bool, nth_error all_encodings (Z.to_nat (if o then le else be)) = Some (g o);
  fa_marked : marked f g w (bom w) ok;
  fa_al : aligned g w;
  fa_ok : forall o t, unmarked m w o t -> clean w ok o t;
  fa_u : Z.to_nat (ei_unit m) = w /\ Z.to_nat (ei_unit be) = w /\ Z.to_nat (ei_unit le) = w;
  fa_w : (1 <= w)%nat /\ forall o, length (bom w o) = w;
  fa_held : f_flush f = None /\ forall o, f_flush (g o) = None;
  fa_src : source m /\ source be /\ source le }.
Ltac srcs := repeat split; apply sourceb_ok; reflexivity.
Lemma families_ok : forall m be le w, In (m, be, le, w) families -> exists f g ok, family m be le w f g ok.
Proof.
  intros m be le w H. repeat (destruct H as [H|H]; [inversion H; subst; clear H|]); [..|destruct H].
  - exists enc_utf16, g16, ok2. constructor; [reflexivity|intros []; reflexivity|exact utf16_marked|exact aligned16| | | | |srcs]; [|repeat split; reflexivity|split; [lia|intros []; reflexivity]|split; [reflexivity|intros []; reflexivity]].
    intros o t (A & _) k o'. apply A.
  - exists enc_ucs2, g2, ok2. constructor; [reflexivity|intros []; reflexivity|exact ucs2_marked|exact aligned2| | | | |srcs]; [|repeat split; reflexivity|split; [lia|intros []; reflexivity]|split; [reflexivity|intros []; reflexivity]].
    intros o t (A & _) k o'. apply A.
  - exists enc_utf32, g32, ok4. constructor; [reflexivity|intros []; reflexivity|exact utf32_marked|exact aligned32| | | | |srcs]; [|repeat split; reflexivity|split; [lia|intros []; reflexivity]|split; [reflexivity|intros []; reflexivity]].
    intros o t (A & _) k o'. apply A.
  - exists enc_ucs4, g4, okh. constructor; [reflexivity|intros []; reflexivity|exact ucs4_marked|exact aligned4| | | | |srcs]; [|repeat split; reflexivity|split; [lia|intros []; reflexivity]|split; [reflexivity|intros []; reflexivity]].
    intros o t (A & B) k. split; [intro o'; apply A|apply (B eq_refl)].
Qed.

Lemma opened_reachable : forall a b flags, source a -> target b -> reachable (opened a b flags).
Proof. intros a b flags S T. eapply reach_open; [exact S|exact T|]. destruct S as (S & _), T as (T & _). rewrite num_encodings in S, T. apply open_ok; lia. Qed.
Lemma src_range : forall a, source a -> 0 <= a < 198.
Proof. intros a (S & _). rewrite num_encodings in S. lia. Qed.
Lemma tgt_range : forall a, target a -> 0 <= a < 198.
Proof. intros a (S & _). rewrite num_encodings in S. lia. Qed.
(** What the family source reads. *)
Lemma family_reads : forall m be le w f g ok b flags (o : bool) t cs st r i, family m be le w f g ok -> target b -> unmarked m w o t -> input t ->
  rd (opened (if o then le else be) b flags) t cs st r i ->
  reads f w (skipping (opened m b flags)) t (0, b2z o) cs st r (0, b2z o).
Proof.
  intros m be le w f g ok b flags o t cs st r i Fa T U (B & L) R.
  destruct (fa_src _ _ _ _ _ _ _ Fa) as (S0 & S1 & S2). pose proof (tgt_range b T) as Rb.
  destruct (opened_index m b flags) as (A1 & A2 & A3 & A4 & A5 & A6 & A7); [now apply src_range|auto|].
  destruct (opened_index (if o then le else be) b flags) as (B1 & B2 & B3 & B4 & B5 & B6 & B7); [destruct o; now apply src_range|auto|].
  unfold rd, unit_of in R. rewrite (fa_g _ _ _ _ _ _ _ Fa) in B3. inversion B3 as [E]. rewrite <- E, B5, B1 in R.
  replace (Z.to_nat (ei_unit (if o then le else be))) with w in R by (destruct (fa_u _ _ _ _ _ _ _ Fa) as (_ & X & Y); now destruct o).
  replace (skipping (opened (if o then le else be) b flags)) with (skipping (opened m b flags)) in R by (unfold skipping; now rewrite A7, B7).
  destruct (reads_under f g w (bom w) ok w _ o (fa_marked _ _ _ _ _ _ _ Fa) (fa_al _ _ _ _ _ _ _ Fa) ltac:(exists 1%nat; lia) t _ cs st r i R eq_refl) as (_ & X); auto.
  now apply (fa_ok _ _ _ _ _ _ _ Fa).
Qed.
Lemma rd_family : forall m be le w f g ok b flags s cs st r i, family m be le w f g ok -> target b ->
  rd (opened m b flags) s cs st r i <-> reads f w (skipping (opened m b flags)) s (0, 0) cs st r i.
Proof.
  intros m be le w f g ok b flags s cs st r i Fa T. destruct (fa_src _ _ _ _ _ _ _ Fa) as (S0 & S1 & S2). pose proof (tgt_range b T) as Rb.
  destruct (opened_index m b flags) as (A1 & A2 & A3 & A4 & A5 & A6 & A7); [now apply src_range|auto|].
  unfold rd, unit_of. rewrite (fa_m _ _ _ _ _ _ _ Fa) in A3. inversion A3 as [E]. rewrite A5, A1, (proj1 (fa_u _ _ _ _ _ _ _ Fa)). reflexivity.
Qed.
(** Two sources that read texts alike convert them alike. *)
Lemma whole_same : forall a a' b flags s s' out n, source a -> source a' -> target b -> input s -> input s' ->
  f_flush (ifuncs (opened a b flags)) = None -> f_flush (ifuncs (opened a' b flags)) = None ->
  (forall cs st r i, rd (opened a' b flags) s' cs st r i -> exists i', rd (opened a b flags) s cs st r i') ->
  (whole (opened a b flags) s out n <-> whole (opened a' b flags) s' out n).
Proof.
  intros a a' b flags s s' out n Sa Sa' Tb I I' Fl Fl' X. pose proof (src_range a Sa). pose proof (src_range a' Sa'). pose proof (tgt_range b Tb).
  pose proof (opened_reachable a b flags Sa Tb) as R1. pose proof (opened_reachable a' b flags Sa' Tb) as R2.
  destruct (opened_index a b flags) as (A1 & A2 & A3 & A4 & A5 & A6 & A7); auto.
  destruct (opened_index a' b flags) as (B1 & B2 & B3 & B4 & B5 & B6 & B7); auto.
  rewrite A4 in B4. inversion B4 as [E].
  assert (Hh : forall x, held (ifuncs (opened a b flags)) x = [] /\ held (ifuncs (opened a' b flags)) x = []) by (intros x; unfold held; rewrite Fl, Fl'; auto).
  assert (W : forall cs, wr (opened a b flags) cs = wr (opened a' b flags) cs) by (intros cs; unfold wr, skipping; now rewrite E, A6, A7, B6, B7).
  rewrite !whole_iff by assumption. split.
  - intros (cs & i & bs & o & R & Wr & ->). destruct (rd_total _ s' R2 I') as (cs' & st' & r' & i' & R' & _).
    destruct (X _ _ _ _ R') as (j & R3). destruct (rd_det _ _ _ _ _ _ _ _ _ _ R R3) as (<- & <- & <- & _).
    exists cs, i', bs, o. rewrite <- W, <- E, (proj2 (Hh _)). rewrite (proj1 (Hh _)) in Wr. auto.
  - intros (cs & i & bs & o & R & Wr & ->). destruct (X _ _ _ _ R) as (j & R3). exists cs, j, bs, o. rewrite W, E, (proj1 (Hh _)). rewrite (proj2 (Hh _)) in Wr. auto.
Qed.
Lemma family_flush : forall m be le w f g ok b flags (o : bool), family m be le w f g ok -> target b ->
  f_flush (ifuncs (opened m b flags)) = None /\ f_flush (ifuncs (opened (if o then le else be) b flags)) = None.
Proof.
  intros m be le w f g ok b flags o Fa T. destruct (fa_src _ _ _ _ _ _ _ Fa) as (S0 & S1 & S2). pose proof (tgt_range b T) as Rb.
  destruct (opened_index m b flags) as (_ & _ & A3 & _); [now apply src_range|auto|].
  destruct (opened_index (if o then le else be) b flags) as (_ & _ & B3 & _); [destruct o; now apply src_range|auto|].
  rewrite (fa_m _ _ _ _ _ _ _ Fa) in A3. rewrite (fa_g _ _ _ _ _ _ _ Fa) in B3. injection A3 as E1. injection B3 as E2.
  destruct (fa_held _ _ _ _ _ _ _ Fa) as (X & Y). specialize (Y o). split; congruence.
Qed.
Definition mark_selects (fam : list (Z * Z * Z * nat)) : Prop := forall m be le w b flags (little : bool) t out n, In (m, be, le, w) fam -> target b ->
  unmarked m w little t -> input (bom w little ++ t) ->
  (whole (opened m b flags) (bom w little ++ t) out n <-> whole (opened (if little then le else be) b flags) t out n).
Lemma marks_select : mark_selects families.
Proof.
  intros m be le w b flags o t out n F T U I. destruct (families_ok m be le w F) as (f & g & ok & Fa).
  assert (I' : input t). { destruct I as (A & B). apply Forall_app in A. rewrite app_length in B. split; [tauto|lia]. }
  destruct (fa_src _ _ _ _ _ _ _ Fa) as (S0 & S1 & S2). destruct (family_flush m be le w f g ok b flags o Fa T) as (G1 & G2).
  apply whole_same; auto; [now destruct o|].
  intros cs st r i R. eexists. apply (rd_family m be le w f g ok b flags _ _ _ _ _ Fa T). change (0, 0) with (0, b2z false).
  destruct (fa_w _ _ _ _ _ _ _ Fa) as (W1 & W2).
  apply (reads_mark f g w (bom w) ok w _ false o (fa_marked _ _ _ _ _ _ _ Fa) (fa_al _ _ _ _ _ _ _ Fa)); auto.
  - now apply (fa_ok _ _ _ _ _ _ _ Fa).
  - apply I'.
  - destruct I as (_ & L). rewrite app_length, W2 in L. exact L.
  - eapply family_reads; eauto.
Qed.
Definition default_big_endian (fam : list (Z * Z * Z * nat)) : Prop := forall m be le w b flags t out n, In (m, be, le, w) fam -> target b ->
  unmarked m w false t -> input t -> (whole (opened m b flags) t out n <-> whole (opened be b flags) t out n).
Lemma big_endian_by_default : default_big_endian families.
Proof.
  intros m be le w b flags t out n F T U I. destruct (families_ok m be le w F) as (f & g & ok & Fa).
  destruct (fa_src _ _ _ _ _ _ _ Fa) as (S0 & S1 & S2). destruct (family_flush m be le w f g ok b flags false Fa T) as (G1 & G2).
  apply whole_same; auto. intros cs st r i R. exists (0, b2z false). apply (rd_family m be le w f g ok b flags _ _ _ _ _ Fa T). change (0, 0) with (0, b2z false).
  exact (family_reads m be le w f g ok b flags false t cs st r i Fa T U I R).
Qed.

(** Marks later in the text switch the byte order, too: a text in segments, each with its mark. *)
Definition marked_text (w : nat) (segs : list (bool * list Z)) : list Z := concat (map (fun x => bom w (fst x) ++ snd x) segs).
Lemma form_state : forall f F skip, implements f F -> forall cs o out n o' bad, Forall ucs4 cs -> writes_all f skip cs o = (out, n, o', bad) -> o' = o.
Proof.
  intros f F skip M cs. induction cs as [|c cs IH]; cbn; intros o out n o' bad U W; [now inversion W|]. inversion U as [|? ? U1 U2]; subst.
  destruct (write1 f skip c o) as [[[bs o1] k]|] eqn:E; [|now inversion W].
  assert (o1 = o).
  { unfold write1 in E. rewrite (im_enc f F M c o U1) in E. destruct (F c); [now inversion E|]. destruct (tag c); [now inversion E|]. destruct skip; [now inversion E|].
    rewrite (im_enc f F M 0xfffd o) in E by (unfold ucs4; lia). destruct (F 0xfffd); now inversion E. }
  subst o1. destruct (writes_all f skip cs o) as [[[a b] c'] d] eqn:W1. inversion W; subst. eauto.
Qed.
Lemma form_reset : forall i F, In (i, F) forms -> exists f, nth_error all_encodings (Z.to_nat i) = Some f /\ f_reset f = None.
Proof. intros i F H. repeat (destruct H as [H|H]; [inversion H; subst i F; eexists; split; reflexivity|]). destruct H. Qed.
Section Segments.
Variables (m be le : Z) (w : nat) (b : Z) (G : form) (flags : Z).
Hypothesis (Fam : In (m, be, le, w) families) (Tb : target b) (Gb : In (b, G) forms).
Definition side (o : bool) : Z := if o then le else be.
Definition good_seg (x : bool * list Z) (y : list Z * nat) : Prop := unmarked m w (fst x) (snd x) /\ whole (opened (side (fst x)) b flags) (snd x) (fst y) (snd y).
Definition read_to (o : bool) (s v : list Z) (n : nat) : Prop :=
  exists cs, rd (opened m b flags) s cs AtEnd [] (0, b2z o) /\ Forall ucs4 cs /\ wr (opened m b flags) cs = (v, n, 0, []).
Lemma seg_chars : forall x y, good_seg x y -> input (snd x) -> exists cs, Forall ucs4 cs /\ wr (opened m b flags) cs = (fst y, snd y, 0, []) /\
  exists f g ok, family m be le w f g ok /\ reads f w (skipping (opened m b flags)) (snd x) (0, b2z (fst x)) cs AtEnd [] (0, b2z (fst x)).
Proof.
  intros [o t] [v n] (U & W) I. cbn [fst snd] in *. destruct (families_ok m be le w Fam) as (f & g & ok & Fa). destruct (fa_src _ _ _ _ _ _ _ Fa) as (S0 & S1 & S2).
  assert (Ss : source (side o)) by (now destruct o). pose proof (opened_reachable (side o) b flags Ss Tb) as R1.
  apply whole_iff in W; auto. destruct W as (cs & i & bs & o' & R & Wr & ->).
  destruct (family_flush m be le w f g ok b flags o Fa Tb) as (_ & G2). fold (side o) in G2. unfold held in Wr. rewrite G2, app_nil_r in Wr.
  destruct (opened_index (side o) b flags) as (B1 & B2 & B3 & B4 & B5 & B6 & B7); [now apply src_range|now apply tgt_range|].
  destruct (opened_index m b flags) as (A1 & A2 & A3 & A4 & A5 & A6 & A7); [now apply src_range|now apply tgt_range|].
  destruct (form_reset b G Gb) as (fo & Efo & Rfo). destruct (forms_implemented b G Gb) as (fo' & Efo' & Mfo). rewrite Efo in Efo'. inversion Efo'; subst fo'.
  rewrite Efo in A4, B4. inversion A4 as [E1]. inversion B4 as [E2].
  assert (Uc : Forall ucs4 cs). { pose proof (chars_ucs4 _ _ _ _ R1 I R) as X. apply Forall_app in X. apply X. }
  exists cs. split; [exact Uc|]. split; [|exists f, g, ok; split; [exact Fa|eapply family_reads; eauto]].
  unfold wr in *. rewrite <- E2, B6 in Wr. rewrite <- E1, A6. replace (skipping (opened m b flags)) with (skipping (opened (side o) b flags)) by (unfold skipping; now rewrite A7, B7).
  rewrite Wr. rewrite (form_state fo G _ Mfo cs 0 bs n o' [] Uc Wr). unfold closing. rewrite <- E2, Rfo, app_nil_r. reflexivity.
Qed.
Lemma read_seg : forall o s v n x y, read_to o s v n -> good_seg x y -> input (s ++ bom w (fst x) ++ snd x) ->
  read_to (fst x) (s ++ bom w (fst x) ++ snd x) (v ++ fst y) (n + snd y)%nat.
Proof.
  intros o s v n x y (cs & R & Uc & Wr) Gs I.
  assert (Ix : input (snd x)). { destruct I as (A & B). unfold bytes in A. rewrite !Forall_app in A. rewrite !app_length in B. split; [apply A|lia]. }
  destruct (seg_chars x y Gs Ix) as (cs2 & U2 & W2 & f & g & ok & Fa & R2).
  destruct (fa_src _ _ _ _ _ _ _ Fa) as (S0 & _ & _). pose proof (opened_reachable m b flags S0 Tb) as H.
  exists (cs ++ cs2). split; [|split; [now apply Forall_app|]].
  - pose proof (rd_app _ s (bom w (fst x) ++ snd x) cs AtEnd [] (0, b2z o) H I R) as X. cbv iota in X. apply X. cbn [app].
    destruct (opened_index m b flags) as (A1 & A2 & A3 & A4 & A5 & A6 & A7); [now apply src_range|now apply tgt_range|].
    rewrite (fa_m _ _ _ _ _ _ _ Fa) in A3. inversion A3 as [E]. rewrite <- E. unfold unit_of. rewrite A1, (proj1 (fa_u _ _ _ _ _ _ _ Fa)).
    destruct (fa_w _ _ _ _ _ _ _ Fa) as (W1 & Wl).
    apply (reads_mark f g w (bom w) ok w _ o (fst x) (fa_marked _ _ _ _ _ _ _ Fa) (fa_al _ _ _ _ _ _ _ Fa)); auto.
    + apply (fa_ok _ _ _ _ _ _ _ Fa). apply Gs.
    + apply Ix.
    + destruct I as (_ & L). rewrite !app_length, Wl in L. lia.
  - rewrite (wr_app _ _ _ _ _ _ Wr). unfold wr in W2. destruct (opened_index m b flags) as (A1 & A2 & A3 & A4 & A5 & A6 & A7); [now apply src_range|now apply tgt_range|].
    rewrite A6 in W2. now rewrite W2.
Qed.
Lemma read_start : forall t v n, good_seg (false, t) (v, n) -> input t -> read_to false t v n.
Proof.
  intros t v n Gs I. destruct (seg_chars (false, t) (v, n) Gs I) as (cs & U & W & f & g & ok & Fa & R). exists cs. split; [|auto].
  apply (rd_family m be le w f g ok b flags _ _ _ _ _ Fa Tb). exact R.
Qed.
Lemma read_segs : forall segs outs t v n, good_seg (false, t) (v, n) -> Forall2 good_seg segs outs -> input (t ++ marked_text w segs) ->
  exists o, read_to o (t ++ marked_text w segs) (v ++ concat (map fst outs)) (n + list_sum (map snd outs))%nat.
Proof.
  induction segs as [|x segs IH] using rev_ind; intros outs t v n Gs F I.
  - inversion F; subst. cbn. rewrite !app_nil_r, Nat.add_0_r. exists false. apply read_start; [exact Gs|]. unfold marked_text in I. cbn in I. now rewrite app_nil_r in I.
  - apply Forall2_app_inv_l in F. destruct F as (o1 & o2 & F1 & F2 & ->). inversion F2 as [|? y ? o3 Gx F3]; subst. inversion F3; subst.
    unfold marked_text in *. rewrite map_app, concat_app in *. cbn [map concat] in *. rewrite app_nil_r in *. rewrite app_assoc in *.
    destruct (IH o1 t v n Gs F1) as (o & R). { destruct I as (A & B). apply Forall_app in A. rewrite app_length in B. split; [tauto|lia]. }
    exists (fst x). rewrite !map_app, concat_app, list_sum_app. cbn [map concat list_sum fold_right]. rewrite app_nil_r, Nat.add_0_r, (app_assoc v), Nat.add_assoc. eapply read_seg; eauto.
Qed.
Lemma segments : forall segs outs t v n, good_seg (false, t) (v, n) -> Forall2 good_seg segs outs -> input (t ++ marked_text w segs) ->
  whole (opened m b flags) (t ++ marked_text w segs) (v ++ concat (map fst outs)) (n + list_sum (map snd outs)).
Proof.
  intros segs outs t v n Gs F I. destruct (read_segs segs outs t v n Gs F I) as (o & cs & R & U & W).
  destruct (families_ok m be le w Fam) as (f & g & ok & Fa). destruct (fa_src _ _ _ _ _ _ _ Fa) as (S0 & _ & _). pose proof (opened_reachable m b flags S0 Tb) as H.
  apply whole_iff; auto. destruct (family_flush m be le w f g ok b flags false Fa Tb) as (G1 & _).
  destruct (form_reset b G Gb) as (fo & Efo & Rfo).
  destruct (opened_index m b flags) as (A1 & A2 & A3 & A4 & A5 & A6 & A7); [now apply src_range|now apply tgt_range|]. rewrite Efo in A4. inversion A4 as [E].
  do 4 eexists. split; [exact R|]. unfold held, closing. rewrite G1, app_nil_r, <- E, Rfo. split; [exact W|]. now rewrite app_nil_r.
Qed.
End Segments.

(** * Writing *)
(** What the encoders write: UTF-16 and UTF-32 a mark before the first character, and nothing for U+FFFE in UTF-16 and UCS-2. *)
Lemma log2 : forall a b, log_bytes (Base.wr (Base.wr [] 0 a) 1 b) 0 2 = [a; b].
Proof. reflexivity. Qed.
Ltac compute_emit := unfold emit; cbn [f_wc enc_utf16 enc_utf16be enc_ucs2 enc_ucs2be enc_utf32 enc_utf32be enc_ucs4 enc_ucs4be]; unfold wc0, bind, utf16_wctomb, utf16_wctomb_j, utf16be_wctomb, ucs2_wctomb, ucs2be_wctomb,
  utf32_wctomb, utf32_wctomb_j, utf32be_wctomb, ucs4_wctomb, ucs4be_wctomb, nsub; cbn [Nat.leb Z.eqb negb Nat.sub]; cbv zeta.
Ltac split_if := repeat (match goal with |- context [?x <? 0] => let v := eval vm_compute in (x <? 0) in first [constr_eq v true|constr_eq v false]; change (x <? 0) with v | |- context [if ?c then _ else _] => destruct c end; cbv beta iota).
Lemma emit16 : forall c o, emit enc_utf16 c o = if c =? 0xfffe then None else match emit enc_utf16be c 0 with Some (bs, _) => Some ((if o =? 0 then mark2 false else []) ++ bs, 1) | None => None end.
Proof. intros c o. compute_emit. destruct (c =? 0xfffe); cbn [negb]; [reflexivity|]. destruct (o =? 0) eqn:E; cbn [negb]; split_if; reflexivity. Qed.
Lemma emit2 : forall c o, emit enc_ucs2 c o = if c =? 0xfffe then None else match emit enc_ucs2be c 0 with Some (bs, _) => Some (bs, o) | None => None end.
Proof. intros c o. compute_emit. destruct (c =? 0xfffe); destruct (c <? 0x10000), (c >=? 0xd800), (c <? 0xe000); reflexivity. Qed.
Lemma emit32 : forall c o, emit enc_utf32 c o = match emit enc_utf32be c 0 with Some (bs, _) => Some ((if o =? 0 then mark4 false else []) ++ bs, 1) | None => None end.
Proof. intros c o. compute_emit. destruct (o =? 0); destruct (c <? 0x110000), (c >=? 0xd800), (c <? 0xe000); reflexivity. Qed.
Lemma emit4 : forall c o, emit enc_ucs4 c o = if c <=? 0x7fffffff then match emit enc_ucs4be c 0 with Some (bs, _) => Some (bs, o) | None => None end else None.
Proof. intros c o. compute_emit. split_if; reflexivity. Qed.

(** f writes like fb, with lead before the first character, but not the characters that are bad. *)
Record writes_mark (f fb : funcs) (w : nat) (lead : list Z) (bad : Z -> bool) (okw : list Z -> Prop) : Prop := {
  wm_emit : forall c o, emit f c o = if bad c then None else match emit fb c 0 with Some (bs, _) => Some ((if o =? 0 then lead else []) ++ bs, match lead with [] => o | _ => 1 end) | None => None end;
  wm_0 : forall c bs o, ucs4 c -> emit fb c 0 = Some (bs, o) -> o = 0;
  wm_len : forall c bs o, ucs4 c -> emit fb c 0 = Some (bs, o) -> exists k, length bs = (S k * w)%nat;
  wm_bad : forall c bs o, bad c = true -> ucs4 c -> emit fb c 0 = Some (bs, o) -> ~ okw (firstn w bs);
  wm_fffd : bad 0xfffd = false;
  wm_w : (1 <= w)%nat }.
Definition leading (lead v : list Z) : list Z := match v with [] => [] | _ => lead ++ v end.
Lemma leading_app : forall lead bs v, bs <> [] -> leading lead (bs ++ v) = (lead ++ bs) ++ v.
Proof. intros lead [|x bs] v H; [congruence|]. cbn. now rewrite <- app_assoc. Qed.
Definition cleanw (w : nat) (okw : list Z -> Prop) (v : list Z) : Prop := forall k, okw (firstn w (skipn (k * w) v)).
Lemma writes_marked : forall f fb w lead bad okw skip, writes_mark f fb w lead bad okw -> forall cs v n ob rest, Forall ucs4 cs ->
  writes_all fb skip cs 0 = (v, n, ob, rest) -> cleanw w okw v -> ob = 0 /\
  forall o, exists o2, writes_all f skip cs o = (if o =? 0 then leading lead v else v, n, o2, rest).
Proof.
  intros f fb w lead bad okw skip M cs. induction cs as [|c cs IH]; cbn [writes_all]; intros v n ob rest U W C.
  - inversion W; subst. split; [reflexivity|]. intros o. exists o. destruct (o =? 0); reflexivity.
  - inversion U as [|? ? U1 U2]; subst. unfold write1 in *.
    assert (K : forall c' k, ucs4 c' -> (forall bs o, emit fb c' 0 = Some (bs, o) -> bad c' = false \/ exists v', v = bs ++ v') ->
      match emit fb c' 0 with Some (bs, _) => let '(out, n', o', bd) := writes_all fb skip cs 0 in v = bs ++ out /\ n = (k + n')%nat /\ ob = o' /\ rest = bd
        | None => False end ->
      ob = 0 /\ forall o, exists o1 bs, emit f c' o = Some (bs, o1) /\ exists o2, (let '(out, n', o', bd) := writes_all f skip cs o1 in (bs ++ out, (k + n')%nat, o', bd)) = (if o =? 0 then leading lead v else v, n, o2, rest)).
    { intros c' k Uc Hb X. destruct (emit fb c' 0) as [[bs ox]|] eqn:E; [|destruct X]. destruct (writes_all fb skip cs 0) as [[[out n'] o'] bd] eqn:W1. destruct X as (-> & -> & -> & ->).
      pose proof (wm_0 _ _ _ _ _ _ M c' bs ox Uc E) as ->. destruct (wm_len _ _ _ _ _ _ M c' bs 0 Uc E) as (j & Lj). pose proof (wm_w _ _ _ _ _ _ M) as Hw.
      assert (NB : bad c' = false).
      { destruct (bad c') eqn:Hbad; [|reflexivity]. exfalso. apply (wm_bad _ _ _ _ _ _ M c' bs 0 Hbad Uc E). specialize (C 0%nat). cbn [Nat.mul skipn] in C.
        rewrite firstn_app in C. replace (w - length bs)%nat with 0%nat in C by (rewrite Lj; cbn; lia). now rewrite app_nil_r in C. }
      assert (C' : cleanw w okw out).
      { intros k'. specialize (C (S j + k')%nat). replace ((S j + k') * w)%nat with (length bs + k' * w)%nat in C by (rewrite Lj; lia).
        rewrite skipn_app, skipn_all2 in C by lia. replace (length bs + k' * w - length bs)%nat with (k' * w)%nat in C by lia. exact C. }
      destruct (IH out n' o' bd U2 eq_refl C') as (-> & I2). split; [reflexivity|]. intros o.
      assert (Nb : bs <> []) by (intros ->; cbn in Lj; lia).
      rewrite (wm_emit _ _ _ _ _ _ M), NB, E. do 2 eexists. split; [reflexivity|].
      destruct (I2 (match lead with [] => o | _ => 1 end)) as (o2 & ->). exists o2. rewrite (leading_app lead bs out Nb).
      destruct lead as [|l0 lead]; cbn [Z.eqb app].
      - destruct (o =? 0); cbn [app]; [|reflexivity]. unfold leading. destruct out; reflexivity.
      - destruct (o =? 0); cbn [app]; reflexivity. }
    assert (NE : emit fb c 0 = None -> forall o, emit f c o = None) by (intros E o; rewrite (wm_emit _ _ _ _ _ _ M), E; now destruct (bad c)).
    destruct (emit fb c 0) as [[bs ox]|] eqn:E.
    + pose proof (wm_0 _ _ _ _ _ _ M c bs ox U1 E) as ->. specialize (K c 0%nat U1). rewrite E in K. destruct (writes_all fb skip cs 0) as [[[out n'] o'] bd] eqn:W1. inversion W; subst.
      destruct K as (K1 & K2); [intros ? ? Q; inversion Q; eauto|auto|]. split; [exact K1|]. intros o. destruct (K2 o) as (o1 & b1 & -> & K3). exact K3.
    + destruct (tag c).
      * destruct (writes_all fb skip cs 0) as [[[out n'] o'] bd] eqn:W1. inversion W; subst. destruct (IH _ _ _ _ U2 eq_refl C) as (-> & I2). split; [reflexivity|]. intros o. rewrite (NE eq_refl o).
        destruct (I2 o) as (o2 & ->). exists o2. reflexivity.
      * destruct skip.
        -- destruct (writes_all fb true cs 0) as [[[out n'] o'] bd] eqn:W1. inversion W; subst. destruct (IH _ _ _ _ U2 eq_refl C) as (-> & I2). split; [reflexivity|]. intros o. rewrite (NE eq_refl o).
           destruct (I2 o) as (o2 & ->). exists o2. reflexivity.
        -- specialize (K 0xfffd 1%nat ltac:(unfold ucs4; lia)). destruct (emit fb 0xfffd 0) as [[bs ox]|] eqn:E2.
           ++ pose proof (wm_0 _ _ _ _ _ _ M 0xfffd bs ox ltac:(unfold ucs4; lia) E2) as ->. destruct (writes_all fb false cs 0) as [[[out n'] o'] bd] eqn:W1. inversion W; subst.
              destruct K as (K1 & K2); [left; apply (wm_fffd _ _ _ _ _ _ M)|auto|]. split; [exact K1|]. intros o. rewrite (NE eq_refl o). destruct (K2 o) as (o1 & b1 & -> & K3). exact K3.
           ++ inversion W; subst. split; [reflexivity|]. intros o. rewrite (NE eq_refl o). rewrite (wm_emit _ _ _ _ _ _ M), E2.
              exists o. destruct (bad 0xfffd), (o =? 0); reflexivity.
Qed.
Definition ffeok (x : list Z) : Prop := x <> [255; 254].
Definition lowok (x : list Z) : Prop := length x = 4%nat -> nth 0 x 0 < 128.
Lemma form_facts : forall f F w, implements f F -> (forall c bs, F c = Some bs -> exists k, length bs = (S k * w)%nat) ->
  (forall c bs o, ucs4 c -> emit f c 0 = Some (bs, o) -> o = 0) /\ (forall c bs o, ucs4 c -> emit f c 0 = Some (bs, o) -> exists k, length bs = (S k * w)%nat).
Proof. intros f F w I L. split; intros c bs o U E; rewrite (im_enc _ _ I) in E by exact U; destruct (F c) eqn:X; inversion E; subst; eauto. Qed.
Lemma some_inj : forall (A : Type) (a b : A), Some a = Some b -> b = a.
Proof. congruence. Qed.
Lemma len16 : forall c bs, utf16be_form c = Some bs -> exists k, length bs = (S k * 2)%nat.
Proof. intros c bs. unfold utf16be_form, utf16_units. destruct (scalar c); [|discriminate]. destruct (c <? 0x10000); cbn [map concat app be16]; intros E; rewrite (some_inj _ _ _ E); [exists 0%nat|exists 1%nat]; cbn [length]; reflexivity. Qed.
Lemma len2 : forall c bs, ucs2be_form c = Some bs -> exists k, length bs = (S k * 2)%nat.
Proof. intros c bs. unfold ucs2be_form. destruct (scalar c && (c <? 0x10000)); [|discriminate]. unfold be16, be32; intros E; rewrite (some_inj _ _ _ E); exists 0%nat; reflexivity. Qed.
Lemma len32 : forall c bs, utf32be_form c = Some bs -> exists k, length bs = (S k * 4)%nat.
Proof. intros c bs. unfold utf32be_form. destruct (scalar c); [|discriminate]. unfold be16, be32; intros E; rewrite (some_inj _ _ _ E); exists 0%nat; reflexivity. Qed.
Lemma len4 : forall c bs, ucs4be_form c = Some bs -> exists k, length bs = (S k * 4)%nat.
Proof. intros c bs. unfold ucs4be_form. destruct ((0 <=? c) && (c <? 0x100000000)); [|discriminate]. unfold be16, be32; intros E; rewrite (some_inj _ _ _ E); exists 0%nat; reflexivity. Qed.
Lemma writes16 : writes_mark enc_utf16 enc_utf16be 2 (mark2 false) (fun c => c =? 0xfffe) ffeok.
Proof.
  destruct (form_facts _ _ 2 utf16be_implements len16) as (A & B). constructor; [exact emit16|exact A|exact B| |reflexivity|lia].
  intros c bs o Hb _. apply Z.eqb_eq in Hb. subst c. intros E. vm_compute in E. injection E as <- _. intro N. now apply N.
Qed.
Lemma writes2 : writes_mark enc_ucs2 enc_ucs2be 2 [] (fun c => c =? 0xfffe) ffeok.
Proof.
  destruct (form_facts _ _ 2 ucs2be_implements len2) as (A & B). constructor; [|exact A|exact B| |reflexivity|lia].
  - intros c o. rewrite emit2. destruct (c =? 0xfffe); [reflexivity|]. destruct (emit enc_ucs2be c 0) as [[bs x]|]; [|reflexivity]. now destruct (o =? 0).
  - intros c bs o Hb _. apply Z.eqb_eq in Hb. subst c. intros E. vm_compute in E. injection E as <- _. intro N. now apply N.
Qed.
Lemma writes32 : writes_mark enc_utf32 enc_utf32be 4 (mark4 false) (fun c => false) (fun _ => True).
Proof.
  destruct (form_facts _ _ 4 utf32be_implements len32) as (A & B). constructor; [exact emit32|exact A|exact B| |reflexivity|lia]. discriminate.
Qed.
Lemma writes4 : writes_mark enc_ucs4 enc_ucs4be 4 [] (fun c => negb (c <=? 0x7fffffff)) lowok.
Proof.
  destruct (form_facts _ _ 4 ucs4be_implements len4) as (A & B). constructor; [|exact A|exact B| |reflexivity|lia].
  - intros c o. rewrite emit4. destruct (c <=? 0x7fffffff); [|reflexivity]. cbn [negb]. destruct (emit enc_ucs4be c 0) as [[bs x]|]; [|reflexivity]. now destruct (o =? 0).
  - intros c bs o Hb U E. rewrite (im_enc _ _ ucs4be_implements) in E by exact U. unfold ucs4be_form in E. unfold ucs4 in U. destruct (Z.leb_spec c 0x7fffffff); [discriminate|].
    destruct ((0 <=? c) && (c <? 0x100000000)); [|discriminate]. injection E as <- _. intro N. specialize (N eq_refl). unfold be32 in N. cbn [firstn nth] in N.
    assert (128 <= c / 16777216) by (apply Z.div_le_lower_bound; lia). lia.
Qed.
(** The bytes v, in big endian order, contain no unit FFFE (UTF-16, UCS-2), no value above 7fffffff (UCS-4). *)
Definition writable (m : Z) (v : list Z) : Prop :=
  (In m [ei_utf16; ei_ucs2] -> forall k, firstn 2 (skipn (k * 2) v) <> [255; 254]) /\
  (m = ei_ucs4 -> forall k, length (firstn 4 (skipn (k * 4) v)) = 4%nat -> nth 0 (firstn 4 (skipn (k * 4) v)) 0 < 128).
(** UTF-16 and UTF-32 text begins with a mark, UCS-2 and UCS-4 text does not. *)
Definition with_mark (m : Z) (w : nat) (v : list Z) : list Z := match v with [] => [] | _ => if existsb (Z.eqb m) [ei_utf16; ei_utf32] then bom w false ++ v else v end.
Lemma writes_families : forall m be le w, In (m, be, le, w) families -> exists f fb lead bad okw, writes_mark f fb w lead bad okw /\
  nth_error all_encodings (Z.to_nat m) = Some f /\ nth_error all_encodings (Z.to_nat be) = Some fb /\ f_reset f = None /\ f_reset fb = None /\
  (forall v, writable m v -> cleanw w okw v) /\ (forall v, leading lead v = with_mark m w v) /\ target m /\ target be.
Proof.
  intros m be le w H. repeat (destruct H as [H|H]; [inversion H; subst; clear H|]); [..|destruct H].
  - exists enc_utf16, enc_utf16be, (mark2 false), (fun c => c =? 0xfffe), ffeok. repeat (split; [first [exact writes16|reflexivity]|]).
    split; [intros v (A & _) k; apply A; cbn; auto|]. split; [intros []; reflexivity|]. split; apply targetb_ok; reflexivity.
  - exists enc_ucs2, enc_ucs2be, [], (fun c => c =? 0xfffe), ffeok. repeat (split; [first [exact writes2|reflexivity]|]).
    split; [intros v (A & _) k; apply A; cbn; auto|]. split; [intros []; reflexivity|]. split; apply targetb_ok; reflexivity.
  - exists enc_utf32, enc_utf32be, (mark4 false), (fun c => false), (fun _ => True). repeat (split; [first [exact writes32|reflexivity]|]).
    split; [intros v _ k; exact I|]. split; [intros []; reflexivity|]. split; apply targetb_ok; reflexivity.
  - exists enc_ucs4, enc_ucs4be, [], (fun c => negb (c <=? 0x7fffffff)), lowok. repeat (split; [first [exact writes4|reflexivity]|]).
    split; [intros v (_ & A) k; exact (A eq_refl k)|]. split; [intros []; reflexivity|]. split; apply targetb_ok; reflexivity.
Qed.
Definition written_as (fam : list (Z * Z * Z * nat)) : Prop := forall m be le w a flags s v n, In (m, be, le, w) fam -> source a -> input s ->
  whole (opened a be flags) s v n -> writable m v -> whole (opened a m flags) s (with_mark m w v) n.
Lemma families_written : written_as families.
Proof.
  intros m be le w a flags s v n F Sa I W C. destruct (writes_families m be le w F) as (f & fb & lead & bad & okw & M & Ef & Efb & Rf & Rfb & Cl & Ld & Tm & Tbe).
  pose proof (opened_reachable a be flags Sa Tbe) as R1. pose proof (opened_reachable a m flags Sa Tm) as R2.
  destruct (opened_index a be flags) as (A1 & A2 & A3 & A4 & A5 & A6 & A7); [now apply src_range|now apply tgt_range|].
  destruct (opened_index a m flags) as (B1 & B2 & B3 & B4 & B5 & B6 & B7); [now apply src_range|now apply tgt_range|].
  apply whole_iff in W; auto. destruct W as (cs & i & bs & o & R & Wr & Ev).
  rewrite A3 in B3. injection B3 as E1. rewrite Efb in A4. injection A4 as E2. rewrite Ef in B4. injection B4 as E3.
  unfold closing in Ev. rewrite <- E2, Rfb, app_nil_r in Ev. subst bs.
  pose proof (chars_ucs4 _ _ _ _ R1 I R) as U. unfold wr in Wr. rewrite <- E2, A6 in Wr.
  destruct (writes_marked f fb w lead bad okw _ M _ _ _ _ _ U Wr (Cl v C)) as (-> & X). destruct (X 0) as (o2 & X2). cbn [Z.eqb] in X2. rewrite Ld in X2.
  apply whole_iff; auto. exists cs, i, (with_mark m w v), o2. split; [|split].
  - unfold rd, unit_of, skipping in *. rewrite <- E1, B1, B5, B7. rewrite A1, A5, A7 in R. exact R.
  - unfold wr. rewrite <- E3, B6, <- E1. replace (skipping (opened a m flags)) with (skipping (opened a be flags)) by (unfold skipping; now rewrite A7, B7). exact X2.
  - unfold closing. rewrite <- E3, Rf. now rewrite app_nil_r.
Qed.

(** * Texts that go through these encodings *)
Lemma form_carries : forall f F (P : Z -> Prop), implements f F -> f_flush f = None -> f_reset f = None -> (forall c, P c -> ucs4 c) -> (forall c, P c -> tag c = true -> F c <> None) -> carries f P.
Proof.
  intros f F P M Fl Rs Pu Pt skip skip' u cs out o C W B L. unfold closing in *. rewrite Rs, app_nil_r in *.
  assert (T : text F cs = Some out).
  { clear B L. revert out o C W. generalize 0 as o0. induction cs as [|c cs IH]; cbn; intros o0 out o C W; [now inversion W|]. inversion C as [|? ? C1 C2]; subst.
    unfold write1 in W. rewrite (im_enc _ _ M) in W by auto. destruct (F c) as [bs|] eqn:E.
    - destruct (writes_all f skip cs o0) as [[[out1 n1] o1] b1] eqn:W1. inversion W; subst. now rewrite (IH _ _ _ C2 W1).
    - destruct (tag c) eqn:G; [exfalso; exact (Pt c C1 G E)|]. destruct skip.
      + destruct (writes_all f true cs o0) as [[[? ?] ?] ?]. inversion W.
      + rewrite (im_enc _ _ M) in W by (unfold ucs4; lia). destruct (F 0xfffd); [|discriminate]. destruct (writes_all f false cs o0) as [[[? ?] ?] ?]. inversion W. }
  exists cs, (0, 0). unfold held. rewrite Fl. split; [|apply app_nil_r].
  rewrite <- (app_nil_r out), <- (app_nil_r cs). eapply reads_text; eauto. constructor.
Qed.
Lemma tag_scalar : forall c, tag c = true -> scalar c = true.
Proof. intros c. unfold tag, scalar. lia. Qed.
Definition full_families : list (Z * Z * Z * nat) := [(ei_utf16, ei_utf16be, ei_utf16le, 2%nat); (ei_utf32, ei_utf32be, ei_utf32le, 4%nat); (ei_ucs4, ei_ucs4be, ei_ucs4le, 4%nat)].
Lemma full_in : forall x, In x full_families -> In x families.
Proof. intros x H. cbn in *. tauto. Qed.
Lemma full_carries : forall m be le w, In (m, be, le, w) full_families -> exists fb, nth_error all_encodings (Z.to_nat be) = Some fb /\ carries fb ucs4.
Proof.
  intros m be le w H. repeat (destruct H as [H|H]; [inversion H; subst; clear H; eexists; split; [reflexivity|]|]); [..|destruct H].
  - apply (form_carries _ utf16be_form ucs4 utf16be_implements); try reflexivity; auto. intros c U T. unfold utf16be_form. now rewrite (tag_scalar c T).
  - apply (form_carries _ utf32be_form ucs4 utf32be_implements); try reflexivity; auto. intros c U T. unfold utf32be_form. now rewrite (tag_scalar c T).
  - apply (form_carries _ ucs4be_form ucs4 ucs4be_implements); try reflexivity; auto. intros c U T. unfold ucs4be_form, ucs4 in *. destruct (Z.leb_spec 0 c), (Z.ltb_spec c 0x100000000); try discriminate; lia.
Qed.
Lemma unmarked_writable : forall m be le w v, In (m, be, le, w) families -> unmarked m w false v -> writable m v.
Proof.
  intros m be le w v H (A & B). split.
  - intros X k. assert (w = 2%nat) as ->.
    { repeat (destruct H as [H|H]; [inversion H; subst; try reflexivity; exfalso; revert X; vm_compute; intuition discriminate|]). destruct H. }
    apply (A k true).
  - intros -> k. assert (w = 4%nat) as ->.
    { repeat (destruct H as [H|H]; [inversion H; subst; try reflexivity; exfalso; discriminate|]). destruct H. }
    exact (B eq_refl k).
Qed.
(** A text whose characters can be written in UTF-16BE (and do not include U+FEFF and U+FFFE): written in UTF-16 it is that text after a
    mark, and converting it from there to any encoding b gives what converting the original does.  Likewise UTF-32, UCS-4. *)
Definition reads_back (fam : list (Z * Z * Z * nat)) : Prop := forall m be le w a b flags s v out n, In (m, be, le, w) fam -> source a -> target b -> input s ->
  whole (opened a be flags) s v 0 -> unmarked m w false v -> input (with_mark m w v) ->
  whole (opened a m flags) s (with_mark m w v) 0 /\
  (whole (opened a b flags) s out n <-> whole (opened m b flags) (with_mark m w v) out n).
Lemma full_reads_back : reads_back full_families.
Proof.
  intros m be le w a b flags s v out n H Sa Tb I W U Iv. pose proof (full_in _ H) as H'. destruct (full_carries m be le w H) as (fb & Efb & C).
  pose proof (unmarked_writable m be le w v H' U) as Wv. split; [exact (families_written m be le w a flags s v _ H' Sa I W Wv)|].
  destruct (families_ok m be le w H') as (f & g & ok & Fa). destruct (fa_src _ _ _ _ _ _ _ Fa) as (S0 & S1 & S2).
  destruct (writes_families m be le w H') as (_ & _ & _ & _ & _ & _ & _ & _ & _ & _ & _ & _ & Tm & Tbe).
  assert (Ivv : input v).
  { unfold with_mark in Iv. destruct v as [|x v]; [exact Iv|]. destruct (existsb _ _); [|exact Iv]. destruct Iv as (A & B). apply Forall_app in A. rewrite app_length in B. split; [tauto|lia]. }
  rewrite (pivot a be b fb ucs4 flags s v out n Sa Tbe S1 Tb Efb C ltac:(intros cs i R; apply (chars_ucs4 _ s cs i (opened_reachable a be flags Sa Tbe) I R)) I Ivv W).
  unfold with_mark in *. destruct v as [|x v].
  - symmetry. apply (big_endian_by_default m be le w b flags [] out n H' Tb U Ivv).
  - destruct (existsb _ _); symmetry; [apply (marks_select m be le w b flags false (x :: v) out n H' Tb U Iv)|apply (big_endian_by_default m be le w b flags (x :: v) out n H' Tb U Ivv)].
Qed.

(** * C32 *)
Definition utf_families : list (Z * Z * Z * nat) := [(ei_utf16, ei_utf16be, ei_utf16le, 2%nat); (ei_utf32, ei_utf32be, ei_utf32le, 4%nat)].
Definition ucs_families : list (Z * Z * Z * nat) := [(ei_ucs2, ei_ucs2be, ei_ucs2le, 2%nat); (ei_ucs4, ei_ucs4be, ei_ucs4le, 4%nat)].
Lemma utf_fam : forall x, In x utf_families -> In x families /\ In x full_families.
Proof. intros x H. cbn in *. tauto. Qed.
Lemma ucs_fam : forall x, In x ucs_families -> In x families.
Proof. intros x H. cbn in *. tauto. Qed.
Theorem C32_mark_selects_byte_order : mark_selects utf_families.
Proof. intros m be le w b flags o t out n H. exact (marks_select m be le w b flags o t out n (proj1 (utf_fam _ H))). Qed.
Theorem C32_default_is_big_endian : default_big_endian utf_families.
Proof. intros m be le w b flags t out n H. exact (big_endian_by_default m be le w b flags t out n (proj1 (utf_fam _ H))). Qed.
(** Text t without marks, then segments that begin with a mark each: the output is the output for t as big endian text and the outputs for
    the segments in their byte orders. *)
Definition marks_anywhere (fam : list (Z * Z * Z * nat)) : Prop := forall m be le w b G flags segs outs t v n, In (m, be, le, w) fam -> target b -> In (b, G) forms ->
  unmarked m w false t -> whole (opened be b flags) t v n ->
  Forall2 (fun x y => unmarked m w (fst x) (snd x) /\ whole (opened (if fst x : bool then le else be) b flags) (snd x) (fst y) (snd y)) segs outs ->
  input (t ++ marked_text w segs) -> whole (opened m b flags) (t ++ marked_text w segs) (v ++ concat (map fst outs)) (n + list_sum (map snd outs)).
Theorem C32_marks_anywhere : marks_anywhere utf_families.
Proof. intros m be le w b G flags segs outs t v n H T Gb U W F I. apply (segments m be le w b G flags (proj1 (utf_fam _ H)) T Gb); auto. split; [exact U|exact W]. Qed.
Theorem C32_written_with_mark : written_as utf_families.
Proof. intros m be le w a flags s v n H. exact (families_written m be le w a flags s v n (proj1 (utf_fam _ H))). Qed.
Theorem C32_reads_back : reads_back utf_families.
Proof. intros m be le w a b flags s v out n H. exact (full_reads_back m be le w a b flags s v out n (proj2 (utf_fam _ H))). Qed.
(** * C33 *)
Theorem C33_mark_selects_byte_order : mark_selects ucs_families.
Proof. intros m be le w b flags o t out n H. exact (marks_select m be le w b flags o t out n (ucs_fam _ H)). Qed.
Theorem C33_default_is_big_endian : default_big_endian ucs_families.
Proof. intros m be le w b flags t out n H. exact (big_endian_by_default m be le w b flags t out n (ucs_fam _ H)). Qed.
Theorem C33_marks_anywhere : marks_anywhere ucs_families.
Proof. intros m be le w b G flags segs outs t v n H T Gb U W F I. apply (segments m be le w b G flags (ucs_fam _ H) T Gb); auto. split; [exact U|exact W]. Qed.
Theorem C33_written_without_mark : written_as ucs_families.
Proof. intros m be le w a flags s v n H. exact (families_written m be le w a flags s v n (ucs_fam _ H)). Qed.
Theorem C33_ucs4_reads_back : reads_back [(ei_ucs4, ei_ucs4be, ei_ucs4le, 4%nat)].
Proof. intros m be le w a b flags s v out n H. apply (full_reads_back m be le w a b flags s v out n). cbn in *. tauto. Qed.

(** * Cases *)
(** "Aé" after a mark, then "B" after the other mark, from UTF-16 to UTF-8. *)
Example C32_marks_case : whole (opened ei_utf16 ei_utf8 0) ([] ++ marked_text 2 [(true, [0x41; 0; 0xe9; 0]); (false, [0; 0x42])]) ([] ++ concat (map fst [([0x41; 0xc3; 0xa9], 0%nat); ([0x42], 0%nat)])) 0.
Proof.
  assert (Q : forall o t, (length t < 6)%nat -> (forall k o', (k < 3)%nat -> firstn 2 (skipn (k * 2) t) <> mark2 o') -> unmarked ei_utf16 2 o t).
  { intros o t L H. split; [|discriminate]. intros k o'. destruct (Nat.lt_ge_cases k 3); [now apply H|]. rewrite skipn_all2 by lia. destruct o'; discriminate. }
  apply (C32_marks_anywhere ei_utf16 ei_utf16be ei_utf16le 2%nat ei_utf8 utf8_form 0 [(true, [0x41; 0; 0xe9; 0]); (false, [0; 0x42])] [([0x41; 0xc3; 0xa9], 0%nat); ([0x42], 0%nat)] [] [] 0%nat); try (cbn; auto; fail).
  - apply targetb_ok; reflexivity.
  - apply Q; [cbn; lia|]. intros k o' _. rewrite skipn_nil. destruct o'; discriminate.
  - wrun 40%nat.
  - constructor; [split|constructor; [split|constructor]]; cbn [fst snd].
    1, 3: (apply Q; [cbn; lia|]; intros [|[|[|k]]] [] K; cbn; try discriminate; lia).
    1, 2: wrun 40%nat.
  - cbv [marked_text map concat bom mark2 Nat.eqb app fst snd]. inp.
Qed.
(** "A😀" to UTF-16 and back. *)
Example C32_reads_back_case : let u := [0xfe; 0xff; 0; 0x41; 0xd8; 0x3d; 0xde; 0] in
  whole (opened ei_utf8 ei_utf16 0) [0x41; 0xf0; 0x9f; 0x98; 0x80] u 0 /\ whole (opened ei_utf16 ei_utf8 0) u [0x41; 0xf0; 0x9f; 0x98; 0x80] 0.
Proof.
  cbv zeta. destruct (C32_reads_back ei_utf16 ei_utf16be ei_utf16le 2%nat ei_utf8 ei_utf8 0 [0x41; 0xf0; 0x9f; 0x98; 0x80] [0; 0x41; 0xd8; 0x3d; 0xde; 0] [0x41; 0xf0; 0x9f; 0x98; 0x80] 0%nat) as (A & B).
  - cbn. auto.
  - apply sourceb_ok; reflexivity.
  - apply targetb_ok; reflexivity.
  - inp.
  - wrun 40%nat.
  - split; [|discriminate]. intros [|[|[|k]]] []; try discriminate; rewrite skipn_all2 by (cbn; lia); discriminate.
  - cbn. inp.
  - split; [exact A|]. apply B. wrun 40%nat.
Qed.
(** U+FEFF inside a text does not survive UTF-16: it is read as a mark. *)
Theorem C32_inner_mark_refuted : exists s u v, input s /\ input u /\ whole (opened ei_utf8 ei_utf16 0) s u 0 /\ whole (opened ei_utf16 ei_utf8 0) u v 0 /\ v <> s.
Proof. exists [0x41; 0xef; 0xbb; 0xbf; 0x42], [0xfe; 0xff; 0; 0x41; 0xfe; 0xff; 0; 0x42], [0x41; 0x42]. split; [inp|]. split; [inp|]. split; [wrun 40%nat|]. split; [wrun 40%nat|discriminate]. Qed.
(** U+FFFE cannot be written in UTF-16 although UTF-16BE has it. *)
Theorem C32_fffe_refuted : exists s, input s /\ whole (opened ei_utf8 ei_utf16be 0) s [0xff; 0xfe] 0 /\ whole (opened ei_utf8 ei_utf16 0) s [0xfe; 0xff; 0xff; 0xfd] 1.
Proof. exists [0xef; 0xbf; 0xbe]. split; [inp|]. split; wrun 40%nat. Qed.
