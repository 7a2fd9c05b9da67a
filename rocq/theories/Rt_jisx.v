(** EUC-JISX0213 and Shift_JISX0213 read back what was written. *)
From Coq Require Import ZArith List Bool Lia.
From Verif Require Import Base Loop Contract LoopLib Reflect Sx Rng EncLib DecLib Spec SpecProps Leaf CharLib UniSpec UniProps Round Unroll RtLib RtHold.
From Verif Require Import TabIn_cjk Tab_jis Conv_uni Conv_sb Conv_set_ja Conv_set_zh Conv_set_ko Conv_cjk Encodings Ok_held Ok_jisx.
Import ListNotations.
Open Scope Z_scope.

(** ** Writers that hold back one two-byte character *)
Lemma emit_put : forall f c o bs o', f_wc f c 16%nat o = Ok (Z.of_nat (length bs), put 0 bs [], o') -> bytes bs -> emit f c o = Some (bs, o').
Proof.
  intros f c o bs o' E B. unfold emit. rewrite E. destruct (Z.ltb_spec (Z.of_nat (length bs)) 0); [lia|]. rewrite Nat2Z.id, (writes_bytes _ bs (put_writes bs B)). reflexivity.
Qed.
Definition two (v : Z) : list Z := [Z.land (Z.shiftr v 8) 0xff; Z.land v 0xff].
Lemma two_bytes : forall v, bytes (two v).
Proof. intro v. unfold two. repeat constructor; unfold byte; change 0xff with (Z.ones 8); rewrite Z.land_ones by lia; apply Z.mod_pos_bound; lia. Qed.
Section NEXT.
Variables (e : funcs) (stl : list Z) (J : Z -> Z -> nat -> nat -> wlog -> Z -> res (Z * wlog * Z)) (comb : Z -> Z -> option Z).
Hypothesis FRESH : forall wc, ucs4 wc -> fresh_ok stl J wc.
Hypothesis W0 : forall wc n, f_wc e wc n 0 = J wc 0 n 0%nat [] 0.
Hypothesis WST : forall st wc n, mem stl st = true -> st <> 0 -> ucs4 wc -> f_wc e wc n st =
  match comb st wc with
  | Some v => if Nat.leb 2 n then Ok (2, put 0 (two v) [], 0) else Ok (-2, [], st)
  | None => if Nat.ltb n 2 then Ok (-2, [], st) else J wc 2 n 2%nat (put 0 (two st) []) st
  end.
Hypothesis RST : forall st, mem stl st = true -> st <> 0 -> closing e st = two st.
Lemma holdback_next : forall c st bs o', ucs4 c -> mem stl st = true -> st <> 0 -> emit e c st = Some (bs, o') ->
  (exists bs0, emit e c 0 = Some (bs0, o') /\ bs = closing e st ++ bs0) \/ (o' = 0 /\ exists v, comb st c = Some v /\ bs = two v).
Proof.
  intros c st bs o' U M N E. pose proof (WST st c 16%nat M N U) as W. destruct (comb st c) as [v|] eqn:C.
  - right. assert (E1 : emit e c st = Some (two v, 0)) by (apply emit_put; [exact W|apply two_bytes]). rewrite E1 in E. injection E as <- <-. eauto.
  - left. cbn [Nat.ltb Nat.leb] in W. destruct (FRESH c U) as ([[bs0 o0]|] & F).
    + destruct F as (B & L & M' & F). exists bs0. rewrite (RST st M N).
      assert (E0 : emit e c 0 = Some (bs0, o0)).
      { apply emit_put; [|exact B]. rewrite W0. change 0 with (Z.of_nat 0) at 1. rewrite F by lia. cbn [Nat.add]. rewrite (proj2 (Nat.leb_le _ _)) by lia. reflexivity. }
      assert (E1 : emit e c st = Some (two st ++ bs0, o0)).
      { apply emit_put; [|apply Forall_app; split; [apply two_bytes|exact B]]. rewrite W. change 2 with (Z.of_nat 2). rewrite F by lia. rewrite (proj2 (Nat.leb_le _ _)) by lia.
        rewrite <- put_app. reflexivity. }
      rewrite E1 in E. injection E as <- <-. auto.
    + exfalso. unfold emit in E. rewrite W in E. change 2 with (Z.of_nat 2) in E. rewrite F in E by lia. discriminate E.
Qed.
End NEXT.

(** ** JISX 0213 *)
(** The pages, of 64 characters each, that have any characters of JISX 0213. *)
Definition j213_pages : list Z := Eval vm_compute in
  filter (fun p => match tlookup jisx0213_from_ucs_level1 p with Some x => x >=? 0 | None => false end) (map Z.of_nat (seq 0 2715)).
Lemma j213_no_page : iv_all 2715 0 (fun p => if mem j213_pages p then true else match tlookup jisx0213_from_ucs_level1 p with Some x => negb (x >=? 0) | None => false end) = true.
Proof. vm_cast_no_check (eq_refl true). Qed.
Lemma j213_none : forall c, ucs4 c -> mem j213_pages (Z.shiftr c 6) = false -> ucs4_to_jisx0213 c = Ok 0.
Proof.
  intros c U M. unfold ucs4 in U. unfold ucs4_to_jisx0213. destruct (Z.ltb_spec c (Z.shiftl 0xa9b 6)) as [L|L]; [|reflexivity]. change (Z.shiftl 0xa9b 6) with 173760 in L.
  assert (R : 0 <= Z.shiftr c 6 < 2715). { rewrite Z.shiftr_div_pow2 by lia. change (2 ^ 6) with 64. split; [apply Z.div_pos; lia|apply Z.div_lt_upper_bound; lia]. }
  pose proof (iv_all_sound _ _ _ j213_no_page (Z.shiftr c 6) ltac:(lia)) as K. cbv beta in K. rewrite M in K. unfold tget at 1.
  destruct (tlookup jisx0213_from_ucs_level1 (Z.shiftr c 6)) as [x|]; [|discriminate]. cbv zeta. now rewrite (proj1 (negb_true_iff _) K).
Qed.
(** These, and besides Latin-1, U+203E and half-width katakana. *)
Definition special (c : Z) : Prop := c < 256 \/ c = 0x203e \/ 0xff61 <= c <= 0xff9f.
Definition paged (p : Z -> bool) : bool := iv_all 256 0 p && p 0x203e && iv_all 63 0xff61 p && forallb (fun g => iv_all 64 (64 * g) p) j213_pages.
Lemma paged_use : forall p c, paged p = true -> ucs4 c -> special c \/ mem j213_pages (Z.shiftr c 6) = true -> p c = true.
Proof.
  intros p c C U H. unfold ucs4 in U. unfold paged in C. rewrite !andb_true_iff in C. destruct C as (((C1 & C2) & C3) & C4).
  destruct H as [[H|[->|H]]|H]; [apply (iv_all_sound _ _ _ C1); lia|exact C2|apply (iv_all_sound _ _ _ C3); lia|].
  rewrite forallb_forall in C4. specialize (C4 _ (proj1 (mem_In _ _) H)). apply (iv_all_sound _ _ _ C4).
  rewrite Z.shiftr_div_pow2 by lia. change (2 ^ 6) with 64. pose proof (Z.div_mod c 64 ltac:(lia)). pose proof (Z.mod_pos_bound c 64 ltac:(lia)). lia.
Qed.

Definition pairs_ok (f : funcs) (comb : Z -> Z -> option Z) (sts dsts : list Z) : bool :=
  forallb (fun st => forallb (fun c => if c =? 0 then true else match comb st c with Some v => is_char f (two v) (base f st) c | None => true end) dsts) sts.
Lemma comb_in : forall t st c v, comb_of t st c = Some v -> mem jisx0213_sts c = true /\ c <> 0.
Proof.
  intros t st c v H. unfold comb_of in H. repeat match type of H with (if ?x =? ?k then _ else _) = _ => destruct (Z.eqb_spec x k); [subst; split; [reflexivity|lia]|] end. discriminate.
Qed.
Lemma pairs_use : forall f t sts st c v, pairs_ok f (comb_of t) sts jisx0213_sts = true -> mem sts st = true -> comb_of t st c = Some v ->
  mem jisx0213_sts c = true /\ c <> 0 /\ is_char f (two v) (base f st) c = true.
Proof.
  intros f t sts st c v H M C. destruct (comb_in _ _ _ _ C) as (Mc & Nc). split; [exact Mc|]. split; [exact Nc|].
  unfold pairs_ok in H. rewrite forallb_forall in H. specialize (H _ (proj1 (mem_In _ _) M)). cbv beta in H. rewrite forallb_forall in H. specialize (H _ (proj1 (mem_In _ _) Mc)). cbv beta in H.
  destruct (Z.eqb_spec c 0); [contradiction|]. now rewrite C in H.
Qed.

(** EUC-JISX0213 *)
Lemma eucj_st : forall st wc n, mem eucj_sts st = true -> st <> 0 -> ucs4 wc -> f_wc enc_euc_jisx0213 wc n st =
  match comb_of euc_jisx0213_comp_table_data st wc with
  | Some v => if Nat.leb 2 n then Ok (2, put 0 (two v) [], 0) else Ok (-2, [], st)
  | None => if Nat.ltb n 2 then Ok (-2, [], st) else euc_jisx0213_wctomb_j2 2 wc n 2%nat (put 0 (two st) []) st
  end.
Proof.
  intros st wc n S N U. change (f_wc enc_euc_jisx0213) with euc_jisx0213_wctomb. apply mem_In in S. unfold eucj_sts in S. cbn [In] in S.
  unfold comb_of, euc_jisx0213_wctomb. destruct S as [S|S]; [now subst|].
  repeat (destruct S as [<-|S]; [repeat (match goal with |- context [wc =? ?k] => destruct (wc =? k) end; [reflexivity|]); reflexivity|]). contradiction.
Qed.
Lemma eucj_paged : paged (fresh1 enc_euc_jisx0213 eucj_sts) = true.
Proof. vm_cast_no_check (eq_refl true). Qed.
Lemma eucj_fresh1 : forall c, ucs4 c -> fresh1 enc_euc_jisx0213 eucj_sts c = true.
Proof.
  intros c U. assert (Dec : special c \/ ~ special c) by (unfold special; lia). destruct Dec as [Sp|Sp]; [apply (paged_use _ c eucj_paged U); now left|].
  destruct (mem j213_pages (Z.shiftr c 6)) eqn:M; [apply (paged_use _ c eucj_paged U); now right|].
  unfold fresh1, emit. change (f_wc enc_euc_jisx0213) with euc_jisx0213_wctomb. change (euc_jisx0213_wctomb c 16 0) with (euc_jisx0213_wctomb_j2 0 c 16 0 [] 0).
  unfold special in Sp. unfold euc_jisx0213_wctomb_j2. destruct (Z.ltb_spec c 0x80); [lia|]. destruct ((c >=? 0xff61) &&& (c <=? 0xff9f)) eqn:K.
  - exfalso. apply andb_true_iff in K. destruct K as (K1 & K2). apply geb_le' in K1. apply Z.leb_le in K2. lia.
  - rewrite (j213_none c U M). reflexivity.
Qed.
Lemma euc_jisx0213_carries : carries enc_euc_jisx0213 (plain []).
Proof.
  apply (hold_carries enc_euc_jisx0213 (plain []) eucj_sts jisx0213_sts).
  - now intros c (_ & T & _).
  - reflexivity.
  - reflexivity.
  - intros c (S & _). apply eucj_fresh1. now apply scalar_ucs4.
  - vm_cast_no_check (eq_refl true).
  - vm_cast_no_check (eq_refl true).
  - intros s p N. unfold dec. cbn [fst snd]. change (f_mb enc_euc_jisx0213) with euc_jisx0213_mbtowc. unfold euc_jisx0213_mbtowc. destruct (Z.eqb_spec p 0); [contradiction|reflexivity].
  - exact (proj2 dec_euc_jisx0213).
  - intros c o bs o' (S & _) M N E. apply scalar_ucs4 in S.
    destruct (holdback_next enc_euc_jisx0213 eucj_sts (fun wc count n ro r ost => euc_jisx0213_wctomb_j2 count wc n ro r ost) (comb_of euc_jisx0213_comp_table_data)) with (c := c) (st := o) (bs := bs) (o' := o') as [H|(-> & v & C & ->)]; auto.
    + exact eucj_fresh.
    + exact eucj_st.
    + intros st Ms Ns. unfold closing. change (f_reset enc_euc_jisx0213) with (Some euc_jisx0213_reset). unfold euc_jisx0213_reset. destruct (Z.eqb_spec st 0); [contradiction|reflexivity].
    + right. split; [reflexivity|]. apply (pairs_use _ euc_jisx0213_comp_table_data eucj_sts); [vm_cast_no_check (eq_refl true)|exact M|exact C].
Qed.

(** Shift_JISX0213 *)
Lemma sjisx_st : forall st wc n, mem sjisx_sts st = true -> st <> 0 -> ucs4 wc -> f_wc enc_shift_jisx0213 wc n st =
  match comb_of shift_jisx0213_comp_table_data st wc with
  | Some v => if Nat.leb 2 n then Ok (2, put 0 (two v) [], 0) else Ok (-2, [], st)
  | None => if Nat.ltb n 2 then Ok (-2, [], st) else shift_jisx0213_wctomb_j2 2 wc n 2%nat (put 0 (two st) []) st
  end.
Proof.
  intros st wc n S N U. change (f_wc enc_shift_jisx0213) with shift_jisx0213_wctomb. apply mem_In in S. unfold sjisx_sts in S. cbn [In] in S.
  unfold comb_of, shift_jisx0213_wctomb. destruct S as [S|S]; [now subst|].
  repeat (destruct S as [<-|S]; [repeat (match goal with |- context [wc =? ?k] => destruct (wc =? k) end; [reflexivity|]); reflexivity|]). contradiction.
Qed.
Lemma sjisx_paged : paged (fresh1 enc_shift_jisx0213 sjisx_sts) = true.
Proof. vm_cast_no_check (eq_refl true). Qed.
Lemma sjisx_fresh1 : forall c, ucs4 c -> fresh1 enc_shift_jisx0213 sjisx_sts c = true.
Proof.
  intros c U. assert (Dec : special c \/ ~ special c) by (unfold special; lia). destruct Dec as [Sp|Sp]; [apply (paged_use _ c sjisx_paged U); now left|].
  destruct (mem j213_pages (Z.shiftr c 6)) eqn:M; [apply (paged_use _ c sjisx_paged U); now right|].
  unfold fresh1, emit. change (f_wc enc_shift_jisx0213) with shift_jisx0213_wctomb. change (shift_jisx0213_wctomb c 16 0) with (shift_jisx0213_wctomb_j2 0 c 16 0 [] 0).
  unfold special in Sp. unfold shift_jisx0213_wctomb_j2. destruct (Z.ltb_spec c 0x80); [lia|]. destruct (Z.eqb_spec c 0xa5); [lia|]. destruct (Z.eqb_spec c 0x203e); [lia|]. destruct ((c >=? 0xff61) &&& (c <=? 0xff9f)) eqn:K.
  - exfalso. apply andb_true_iff in K. destruct K as (K1 & K2). apply geb_le' in K1. apply Z.leb_le in K2. lia.
  - rewrite (j213_none c U M). reflexivity.
Qed.
Lemma shift_jisx0213_carries : carries enc_shift_jisx0213 (plain []).
Proof.
  apply (hold_carries enc_shift_jisx0213 (plain []) sjisx_sts jisx0213_sts).
  - now intros c (_ & T & _).
  - reflexivity.
  - reflexivity.
  - intros c (S & _). apply sjisx_fresh1. now apply scalar_ucs4.
  - vm_cast_no_check (eq_refl true).
  - vm_cast_no_check (eq_refl true).
  - intros s p N. unfold dec. cbn [fst snd]. change (f_mb enc_shift_jisx0213) with shift_jisx0213_mbtowc. unfold shift_jisx0213_mbtowc. destruct (Z.eqb_spec p 0); [contradiction|reflexivity].
  - exact (proj2 dec_shift_jisx0213).
  - intros c o bs o' (S & _) M N E. apply scalar_ucs4 in S.
    destruct (holdback_next enc_shift_jisx0213 sjisx_sts (fun wc count n ro r ost => shift_jisx0213_wctomb_j2 count wc n ro r ost) (comb_of shift_jisx0213_comp_table_data)) with (c := c) (st := o) (bs := bs) (o' := o') as [H|(-> & v & C & ->)]; auto.
    + exact sjisx_fresh.
    + exact sjisx_st.
    + intros st Ms Ns. unfold closing. change (f_reset enc_shift_jisx0213) with (Some shift_jisx0213_reset). unfold shift_jisx0213_reset. destruct (Z.eqb_spec st 0); [contradiction|reflexivity].
    + right. split; [reflexivity|]. apply (pairs_use _ shift_jisx0213_comp_table_data sjisx_sts); [vm_cast_no_check (eq_refl true)|exact M|exact C].
Qed.
