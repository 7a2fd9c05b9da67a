(** What the charset functions of the multi-byte encodings can return. *)
From Coq Require Import ZArith List Bool Lia.
From Verif Require Import Base Loop Contract LoopLib Reflect Sx Rng EncLib DecLib TabLib SbLib.
From Verif Require Import TabIn_sb TabIn_cjk Tab_cnsinv Tab_jis Tab_gb Tab_ks Tab_big5.
From Verif Require Import Conv_uni Conv_sb Conv_set_ja Conv_set_zh Conv_set_ko Conv_cjk Encodings Leaf.
Import ListNotations.
Open Scope Z_scope.

Ltac byte_in_ := first [lia | lazymatch goal with |- 0 <= ?e <= 255 => let H := fresh in assert (H : rng 8 e) by rng_; unfold rng in H; change (2 ^ 8) with 256 in H; lia end].
Ltac leaf_bytes := cbv [lapp lshift map app Nat.add fst snd wr]; first [apply leaf_none | apply leaf_one; byte_in_ | apply leaf_two; byte_in_].
Ltac leaf_go := let wc := fresh "wc" in let U := fresh "U" in intros wc U; pose proof U; unfold ucs4 in U; apply leaf_holds; sx; try leaf_bytes.
Ltac tab_ti t ::= match constr:(tt) with _ => TabIn_cjk.ti_of t | _ => TabIn_sb.ti_of t end.
Ltac sx_call m ::=
  lazymatch m with
  | tget ?t ?i _ => tab_get t i
  | cp932ext_wctomb_j (Some (?T, ?i)) _ _ => std_use cp932ext_2charset T i
  | gbkext_inv_wctomb_j (Some (?T, ?i)) _ _ => std_use gbkext_inv_2charset T i
  | big5_wctomb_j (Some (?T, ?i)) _ _ => std_use big5_2charset T i
  | cp950ext_wctomb_j (Some (?T, ?i)) _ _ => std_use cp950ext_2charset T i
  | hkscs1999_wctomb_j (Some (?T, ?i)) _ _ => std_use hkscs1999_2charset T i
  | hkscs2001_wctomb_j (Some (?T, ?i)) _ _ => std_use hkscs2001_2charset T i
  | hkscs2004_wctomb_j (Some (?T, ?i)) _ _ => std_use hkscs2004_2charset T i
  | hkscs2008_wctomb_j (Some (?T, ?i)) _ _ => std_use hkscs2008_2charset T i
  end.
Lemma leaf_cp932ext : forall wc, ucs4 wc -> leaf_ok 2 (inr 0 255) (cp932ext_wctomb wc 2) = true.
Proof. leaf_go. Qed.
Lemma leaf_gbkext_inv : forall wc, ucs4 wc -> leaf_ok 2 (inr 0 255) (gbkext_inv_wctomb wc 2) = true.
Proof. leaf_go. Qed.
Lemma leaf_big5 : forall wc, ucs4 wc -> leaf_ok 2 (inr 0 255) (big5_wctomb wc 2) = true.
Proof. leaf_go. Qed.
Lemma leaf_cp950ext : forall wc, ucs4 wc -> leaf_ok 2 (inr 0 255) (cp950ext_wctomb wc 2) = true.
Proof. leaf_go. Qed.
Lemma leaf_hkscs1999 : forall wc, ucs4 wc -> leaf_ok 2 (inr 0 255) (hkscs1999_wctomb wc 2) = true.
Proof. leaf_go. Qed.
Lemma leaf_hkscs2001 : forall wc, ucs4 wc -> leaf_ok 2 (inr 0 255) (hkscs2001_wctomb wc 2) = true.
Proof. leaf_go. Qed.
Lemma leaf_hkscs2004 : forall wc, ucs4 wc -> leaf_ok 2 (inr 0 255) (hkscs2004_wctomb wc 2) = true.
Proof. leaf_go. Qed.
Lemma leaf_hkscs2008 : forall wc, ucs4 wc -> leaf_ok 2 (inr 0 255) (hkscs2008_wctomb wc 2) = true.
Proof. leaf_go. Qed.
Lemma leaf_johab_hangul : forall wc, ucs4 wc -> leaf_ok 2 (inr 0 255) (johab_hangul_wctomb wc 2) = true.
Proof. leaf_go. Qed.
Lemma leaf_cp936ext : forall wc, ucs4 wc -> leaf_ok 2 (inr 0 255) (cp936ext_wctomb wc 2) = true.
Proof. leaf_go. Qed.
Lemma leaf_gb18030ext : forall wc, ucs4 wc -> leaf_ok 2 (inr 0 255) (gb18030ext_wctomb wc 2) = true.
Proof. leaf_go. Qed.

(** The UHC halves: the two tables are added. *)
Ltac uhc_by f lo hi T N CM L sh :=
  let wc := fresh "wc" in let U := fresh "U" in intros wc U; unfold ucs4 in U; unfold f; cbn [Nat.leb]; cbv zeta;
  let G1 := fresh "G" in let G2 := fresh "G" in
  destruct (wc >=? lo) eqn:G1; [apply geb_le' in G1|exact (leaf_none 2 _)];
  destruct (wc <? hi) eqn:G2; [apply Z.ltb_lt in G2|exact (leaf_none 2 _)];
  let si := si_of T in
  let indx := fresh "indx" in let used := fresh "used" in let E1 := fresh "E" in let E2 := fresh "E" in let A1 := fresh "A" in let A2 := fresh "A" in let A3 := fresh "A" in
  destruct (si (Z.shiftr wc 4 - lo / 16) ltac:(change (lo / 16) with (lo / 16); let v := eval vm_compute in (lo / 16) in change (lo / 16) with v; sx_arith)) as (indx & used & E1 & E2 & A1 & A2 & A3);
  let v := eval vm_compute in (lo / 16) in change (lo / 16) with v in E1, E2;
  unfold sget; unfold tget at 1; rewrite E2; cbv beta;
  let NZ := fresh "NZ" in
  destruct (Z.eqb_spec (Z.land used (Z.shiftl 1 (Z.land wc 15))) 0) as [|NZ]; cbn [negb]; [exact (leaf_none 2 _)|];
  let P := fresh "P" in pose proof (pop_lt used (Z.land wc 15) A2 (low4 wc) NZ) as P;
  unfold tget at 1; rewrite Z.add_0_r, E1; cbv beta;
  let u := fresh "u" in set (u := pop16 (Z.land used (Z.shiftl 1 (Z.land wc 15) - 1))) in *;
  repeat match goal with |- context [u16 (?x + indx)] => lazymatch x with u => fail | _ => change x with u end end;
  replace (u16 (u + indx)) with (u + indx) by (unfold u16; rewrite Z.mod_small; lia); clearbody u;
  let tm := tab_ti CM in let tc := tab_ti L in
  let a := fresh "a" in let Ea := fresh "E" in let Ra := fresh "R" in let b := fresh "b" in let Eb := fresh "E" in let Rb := fresh "R" in
  destruct (tm (Z.shiftr (u + indx) sh) ltac:(sx_arith)) as (a & Ea & Ra); destruct (tc (u + indx) ltac:(lia)) as (b & Eb & Rb);
  unfold tget; rewrite Ea, Eb; unfold wr; apply leaf_two; byte_in_.
Lemma leaf_uhc_1 : forall wc, ucs4 wc -> leaf_ok 2 (inr 0 255) (uhc_1_wctomb wc 2) = true.
Proof. uhc_by uhc_1_wctomb 0xac00 0xc8b0 uhc_1_uni2indx_pageac 0 uhc_1_2charset_main uhc_1_2charset 7. Qed.
Lemma leaf_uhc_2 : forall wc, ucs4 wc -> leaf_ok 2 (inr 0 255) (uhc_2_wctomb wc 2) = true.
Proof. uhc_by uhc_2_wctomb 0xc800 0xd7b0 uhc_2_uni2indx_pagec8 0 uhc_2_2charset_main uhc_2_2charset 6. Qed.

(** Functions called with the caller's room. *)
Lemma room_uhc_1 : forall wc n, (2 <= n)%nat -> uhc_1_wctomb wc n = uhc_1_wctomb wc 2.
Proof. intros wc [|[|n]] H; [lia|lia|reflexivity]. Qed.
Lemma room_uhc_2 : forall wc n, (2 <= n)%nat -> uhc_2_wctomb wc n = uhc_2_wctomb wc 2.
Proof. intros wc [|[|n]] H; [lia|lia|reflexivity]. Qed.
Lemma room_gb18030ext : forall wc n, (2 <= n)%nat -> gb18030ext_wctomb wc n = gb18030ext_wctomb wc 2.
Proof. intros wc [|[|n]] H; [lia|lia|reflexivity]. Qed.
Lemma room_isoir165ext : forall wc n, (2 <= n)%nat -> isoir165ext_wctomb wc n = isoir165ext_wctomb wc 2.
Proof. intros wc [|[|n]] H; [lia|lia|reflexivity]. Qed.
(** A call whose outcome was split before is not split again. *)
Ltac leaf_1 f L wc := first [match goal with E : f wc _ = Ok _ |- _ => apply (holds_of _ _ _ _ _ E); cbv beta iota end | leaf1 L wc].
Ltac leaf_2 f L wc := first [match goal with E : f wc _ = Ok _ |- _ => apply (holds_of _ _ _ _ _ E); cbv beta iota end | leaf2 L wc].
Ltac leaf_3 f L wc := first [match goal with E : f wc _ = Ok _ |- _ => apply (holds_of _ _ _ _ _ E); cbv beta iota end | leaf3 L wc].
Ltac room_2 f R L wc n :=
  first [ assert (2 <= n)%nat by lia; (eapply holds_same; [apply R; assumption|]); leaf_2 f L wc
        | assert (n < 2)%nat by lia; fail 1
        | let H := fresh "N" in destruct (le_lt_dec 2 n) as [H|H] ].
Ltac cjk_call m :=
  lazymatch m with
  | tget ?t ?i _ => tab_get t i
  | jisx0201_wctomb ?wc _ => leaf_1 jisx0201_wctomb leaf_jisx0201 wc
  | jisx0208_wctomb ?wc 2%nat => leaf_2 jisx0208_wctomb leaf_jisx0208 wc
  | jisx0212_wctomb ?wc 2%nat => leaf_2 jisx0212_wctomb leaf_jisx0212 wc
  | gb2312_wctomb ?wc 2%nat => leaf_2 gb2312_wctomb leaf_gb2312 wc
  | ksc5601_wctomb ?wc 2%nat => leaf_2 ksc5601_wctomb leaf_ksc5601 wc
  | iso646_cn_wctomb ?wc 1%nat => leaf_1 iso646_cn_wctomb leaf_iso646_cn wc
  | cp932ext_wctomb ?wc 2%nat => leaf_2 cp932ext_wctomb leaf_cp932ext wc
  | gbkext_inv_wctomb ?wc 2%nat => leaf_2 gbkext_inv_wctomb leaf_gbkext_inv wc
  | big5_wctomb ?wc 2%nat => leaf_2 big5_wctomb leaf_big5 wc
  | cp950ext_wctomb ?wc 2%nat => leaf_2 cp950ext_wctomb leaf_cp950ext wc
  | cp936ext_wctomb ?wc 2%nat => leaf_2 cp936ext_wctomb leaf_cp936ext wc
  | johab_hangul_wctomb ?wc 2%nat => leaf_2 johab_hangul_wctomb leaf_johab_hangul wc
  | hkscs1999_wctomb ?wc 2%nat => leaf_2 hkscs1999_wctomb leaf_hkscs1999 wc
  | hkscs2001_wctomb ?wc 2%nat => leaf_2 hkscs2001_wctomb leaf_hkscs2001 wc
  | hkscs2004_wctomb ?wc 2%nat => leaf_2 hkscs2004_wctomb leaf_hkscs2004 wc
  | hkscs2008_wctomb ?wc 2%nat => leaf_2 hkscs2008_wctomb leaf_hkscs2008 wc
  | cns11643_inv_wctomb ?wc 3%nat => leaf_3 cns11643_inv_wctomb leaf_cns11643 wc
  | uhc_1_wctomb ?wc ?n => room_2 uhc_1_wctomb room_uhc_1 leaf_uhc_1 wc n
  | uhc_2_wctomb ?wc ?n => room_2 uhc_2_wctomb room_uhc_2 leaf_uhc_2 wc n
  | gb18030ext_wctomb ?wc ?n => room_2 gb18030ext_wctomb room_gb18030ext leaf_gb18030ext wc n
  | isoir165ext_wctomb ?wc ?n => room_2 isoir165ext_wctomb room_isoir165ext leaf_isoir165ext wc n
  end.

(** ** Charsets of two bytes used as encodings *)
Lemma enc2_intro : forall e f, f_wc e = wc0 f -> f_reset e = None -> (forall wc n, (2 <= n)%nat -> f wc n = f wc 2%nat) ->
  (forall wc, ucs4 wc -> f wc 1%nat = Ok (-2, [])) ->
  (forall wc, ucs4 wc -> leaf_ok 2 (inr 0 255) (f wc 2%nat) = true) -> enc_ok e oinv0 ucs4.
Proof.
  intros e f E R N F H. apply enc_ok_intro; [reflexivity| |intros ost _; rewrite R; exact I].
  intros ost wc O U. destruct (leaf_ok_sound _ _ _ (H wc U)) as [L|(a & b & A & L)].
  - apply (egoal_ill _ _ _ _ 2%nat); [unfold MAXNEED; lia| |].
    + intros n Hn. replace n with 1%nat by lia. rewrite E. unfold wc0. rewrite F by exact U. split; [reflexivity|split; [constructor|reflexivity]].
    + intros n Hn. rewrite E. unfold wc0. rewrite N, L by lia. split; [reflexivity|split; [constructor|reflexivity]].
  - apply inr2 in A. apply (egoal_ok _ _ _ _ [a; b] ost); [unfold MAXNEED; cbn; lia|exact O| |].
    + cbn [length]. intros n Hn. replace n with 1%nat by lia. rewrite E. unfold wc0. rewrite F by exact U. split; [reflexivity|split; [constructor|reflexivity]].
    + cbn [length]. intros n _ Hn. rewrite E. unfold wc0. rewrite N, L by lia. split; [reflexivity|split; [|reflexivity]].
      apply writes_intro; [|reflexivity|]; repeat constructor; cbn; lia.
Qed.
Ltac enc2 f L := apply (enc2_intro _ f); [reflexivity|reflexivity|intros wc [|[|n]] Hn; [lia|lia|reflexivity]|reflexivity|
  intros wc U; refine (leaf_weak _ _ _ _ _ _ _ _ (L wc U)); lia].
