(** ISO-2022-JP-MS reads back what was written, but for some characters. *)
From Coq Require Import ZArith List Bool Lia.
From Verif Require Import Base Loop Contract LoopLib Reflect Sx Rng EncLib DecLib Spec SpecProps Leaf CharLib UniSpec Round DLeaf Unroll RtLib Rt_sets.
From Verif Require Import Conv_uni Conv_sb Tab_jis Conv_set_ja Conv_set_zh Conv_set_ko Conv_cjk Conv_iso2022 Encodings.
Import ListNotations.
Open Scope Z_scope.

(** ESC, SO, SI steer the encoding; U+301D comes back as U+301E, and most of U+E178..U+E2EF as the characters of CP932 in their place. *)
Definition jpms_text (c : Z) : Prop := scalar c = true /\ tag c = false /\ ~ In c [0x0e; 0x0f; 0x1b; 0x301d] /\ ~ (0xe178 <= c < 0xe2f0).
Ltac sx_call m ::= outside.
Definition ivs_cp50221_0208 : ranges := [(0x2110, 0x2170); (0x2210, 0x2230); (0x22bf, 0x22c0); (0x2460, 0x2478); (0x3018, 0x3020); (0x3230, 0x3240); (0x32a0, 0x32b0); (0x3300, 0x3400)].
Definition not_301d (c : Z) (b : bool) : bool := if c =? 0x301d then true else b.
Lemma back_cp50221_0208_ext : forall c, ucs4 c -> c <> 0x301d -> back1 cp50221_0208_ext_wctomb cp50221_0208_ext_mbtowc c = true.
Proof.
  intros c U N. destruct (covered ivs_cp50221_0208 c) eqn:K.
  - assert (S : forallb (fun r => iv_all (Z.to_nat (snd r - fst r)) (fst r) (fun c => not_301d c (back1 cp50221_0208_ext_wctomb cp50221_0208_ext_mbtowc c))) ivs_cp50221_0208 = true) by (vm_compute; reflexivity).
    unfold covered in K. apply existsb_exists in K. destruct K as ((lo, hi) & I & R). cbn [fst snd] in R.
    rewrite forallb_forall in S. specialize (S _ I). cbn [fst snd] in S. pose proof (iv_all_sound _ _ _ S c) as X. cbv beta in X. unfold not_301d in X.
    destruct (Z.eqb_spec c 0x301d); [lia|apply X; lia].
  - assert (Out : holds (cp50221_0208_ext_wctomb c 1%nat) (fun x => fst x < 0)) by (clear N; revert c U K; enc_outside).
    unfold back1. destruct (cp50221_0208_ext_wctomb c 1%nat) as [[r l]| | |]; cbn in Out; try contradiction.
    destruct r as [|[?|?|]|?]; try reflexivity; lia.
Qed.
Definition ivs_cp50221_0212 : ranges := [(0, 0xffff)].
Lemma back_cp50221_0212_ext : forall c, ucs4 c -> back1 cp50221_0212_ext_wctomb cp50221_0212_ext_mbtowc c = true.
Proof. apply (back1_all _ _ ivs_cp50221_0212); [enc_outside|vm_cast_no_check (eq_refl true)]. Qed.
Lemma jis_lead : forall a b x, jisx0208_mbtowc [a; b] 2 = Ok (2, x) -> a <> 0x2d /\ a < 0x75.
Proof.
  intros a b x H. unfold jisx0208_mbtowc in H. change (rd [a; b] 0) with (fun k : Z -> res (Z * option Z) => k a) in H. cbv beta in H.
  destruct (Z.geb_spec a 33), (Z.leb_spec a 40), (Z.geb_spec a 48), (Z.leb_spec a 116); try lia; discriminate H.
Qed.
Lemma jis2_lead : forall a b x, jisx0212_mbtowc [a; b] 2 = Ok (2, x) -> a < 0x73.
Proof.
  intros a b x H. destruct (Z.ltb_spec a 0x73) as [L|L]; [exact L|exfalso]. unfold jisx0212_mbtowc in H. change (rd [a; b] 0) with (fun k : Z -> res (Z * option Z) => k a) in H. cbv beta in H.
  destruct (Z.eqb_spec a 34), (Z.leb_spec a 39), (Z.leb_spec a 43), (Z.leb_spec a 109), (Z.geb_spec a 38), (Z.geb_spec a 41), (Z.geb_spec a 48); try lia; discriminate H.
Qed.
Definition upto_ok (h : list Z -> nat -> res (Z * option Z)) (m a : Z) : bool := match h [a] 1%nat with Ok (1, _) => a <=? m | _ => true end.
Lemma upto_use : forall h m a x, iv_all 256 0 (upto_ok h m) = true -> 0 <= a < 256 -> h [a] 1%nat = Ok (1, x) -> a <= m.
Proof. intros h m a x C R H. pose proof (iv_all_sound _ _ _ C a ltac:(lia)) as X. unfold upto_ok in X. rewrite H in X. lia. Qed.
Lemma ext_lead : forall a x, 0 <= a < 256 -> cp50221_0208_ext_mbtowc [a] 1%nat = Ok (1, x) -> a <= 0x59.
Proof. intros a x. apply upto_use. vm_compute. reflexivity. Qed.
Lemma ext2_lead : forall a x, 0 <= a < 256 -> cp50221_0212_ext_mbtowc [a] 1%nat = Ok (1, x) -> a <= 0xbc.
Proof. intros a x. apply upto_use. vm_compute. reflexivity. Qed.
Ltac jp_norm :=
  try match goal with
  | H : cp50221_0208_ext_mbtowc [?a] 1%nat = Ok (1, _) |- _ => pose proof (ext_lead a _ ltac:(lia) H);
    let E := fresh in assert (E : u8 (a - 1 + 33) = a + 32) by (unfold u8; rewrite Z.mod_small; lia); rewrite ?E in *; clear E
  end;
  try match goal with
  | H : cp50221_0212_ext_mbtowc [?a] 1%nat = Ok (1, _) |- _ => pose proof (ext2_lead a _ ltac:(lia) H);
    let E := fresh in assert (E : u8 (a - 1) = a - 1) by (unfold u8; rewrite Z.mod_small; lia); rewrite ?E in *; clear E
  end;
  try match goal with
  | |- context [?x / 94] =>
    let A := fresh in let B := fresh in assert (A := Z.div_mod x 94 ltac:(lia)); assert (B := Z.mod_pos_bound x 94 ltac:(lia));
    let q := fresh "q" in let r := fresh "r" in set (q := x / 94) in *; set (r := x mod 94) in *; clearbody q r
  end.
Ltac pageed_at i :=
  let v := eval vm_compute in (tlookup cp932ext_2uni_pageed i) in
  lazymatch v with Some ?w => apply (holds_tget _ _ _ _ _ _ _ (eq_refl : tlookup cp932ext_2uni_pageed i = Some w)); cbv beta end.
Ltac sx_call m ::=
  lazymatch m with
  | jisx0208_wctomb ?wc _ => back_2 leaf_jisx0208 back_jisx0208 wc; try match goal with H : jisx0208_mbtowc _ _ = Ok _ |- _ => pose proof (jis_lead _ _ _ H) end
  | jisx0212_wctomb ?wc _ => back_2 leaf_jisx0212 back_jisx0212 wc; try match goal with H : jisx0212_mbtowc _ _ = Ok _ |- _ => pose proof (jis2_lead _ _ _ H) end
  | cp50221_0208_ext_wctomb ?wc _ =>
    let E := fresh "E" in let R := fresh "R" in let a := fresh "a" in
    destruct (leaf_ok_sound _ _ _ (leaf_cp50221_0208_ext wc ltac:(assumption))) as [E|(a & R & E)];
    [|apply inr1 in R; pose proof (back1_use _ _ _ _ _ (back_cp50221_0208_ext wc ltac:(assumption) ltac:(lia)) E eq_refl)];
    apply (holds_of _ _ _ _ _ E); cbv beta iota
  | cp50221_0212_ext_wctomb ?wc _ => back_1 leaf_cp50221_0212_ext back_cp50221_0212_ext wc
  | cp50221_0208_ext_mbtowc [?x] _ => match goal with H : cp50221_0208_ext_mbtowc [?i] 1%nat = _ |- _ => replace x with i by lia; dl_use H end
  | cp50221_0212_ext_mbtowc [?x] _ => match goal with H : cp50221_0212_ext_mbtowc [?i] 1%nat = _ |- _ => replace x with i by (unfold u8; rewrite Z.mod_small; lia); dl_use H end
  | tget cp932ext_2uni_pageed ?i _ => pageed_at i
  | _ => dl_call m
  end.
Ltac s_eq ::= first [reflexivity | cbv [oset]; apply s_same; [reflexivity|first [lia | unfold u16; rewrite Z.mod_small; lia]]].
Definition jpms_rel (o : Z) (i : Z * Z) : Prop := 0 <= o <= 4 /\ o <> 1 /\ i = (o, 0).
Ltac s_open ::= change (f_mb enc_iso2022_jpms) with iso2022_jpms_mbtowc.
Ltac s_rel ::= split; [lia|split; [lia|reflexivity]].
Lemma jpms_step : forall c o i, jpms_text c -> jpms_rel o i -> sgoal enc_iso2022_jpms jpms_rel c o i.
Proof.
  intros c o i (U & T & N & N2) (R & R1 & ->). apply scalar_ucs4 in U. clear T. cbn [In] in N.
  unfold sgoal. change (f_wc enc_iso2022_jpms) with iso2022_jpms_wctomb. sx.
  all: jp_norm; first [exfalso; lia | s_end].
Qed.
Lemma iso2022_jpms_carries : carries enc_iso2022_jpms jpms_text.
Proof.
  apply (rel_step_P _ _ jpms_rel); [repeat split; lia|now intros c (_ & T & _)|exact jpms_step|].
  intros o i (R & R1 & ->). split; [|reflexivity]. enum_; try (exfalso; lia); vm_compute; reflexivity.
Qed.
