(** What the charset functions shared by the stateful decoders can return. *)
From Coq Require Import ZArith List Bool Lia.
From Verif Require Import Base Loop Contract LoopLib Reflect Sx Rng EncLib DecLib TabLib SbLib.
From Verif Require Import TabIn_sb TabIn_cjk.
From Verif Require Import Tab_jis Conv_uni Conv_sb Conv_set_ja Conv_set_zh Conv_set_ko Conv_cjk Conv_iso2022.
Import ListNotations.
Open Scope Z_scope.

Definition dl_ok (k : Z) (m : res (Z * option Z)) : bool :=
  match m with
  | Ok (c, Some wc) => (c =? k) && (0 <=? wc) && (wc <? 0x110000)
  | Ok (c, None) => c =? -1
  | _ => false
  end.
Definition dl_out (k : Z) (m : res (Z * option Z)) : Prop :=
  m = Ok (-1, None) \/ exists wc, 0 <= wc < 0x110000 /\ m = Ok (k, Some wc).
Lemma dl_ok_out : forall k m, dl_ok k m = true -> dl_out k m.
Proof.
  intros k [[c [wc|]]| | |] H; try discriminate H; cbn in H.
  - rewrite !andb_true_iff, Z.eqb_eq, Z.leb_le, Z.ltb_lt in H. destruct H as [[-> H] H']. right. exists wc. split; [lia|reflexivity].
  - apply Z.eqb_eq in H. subst c. now left.
Qed.
Lemma dl_holds : forall k m, holds m (fun x => dl_ok k (Ok x) = true) -> dl_out k m.
Proof. intros k [x| | |] H; [exact (dl_ok_out _ _ H)|contradiction H..]. Qed.
Lemma dl_some : forall k e, 0 <= e < 0x110000 -> dl_ok k (Ok (k, Some e)) = true.
Proof. intros k e H. cbn. rewrite Z.eqb_refl, (proj2 (Z.leb_le 0 e)), (proj2 (Z.ltb_lt e _)) by lia. reflexivity. Qed.
Lemma dl_rng : forall k e, rng 20 e -> dl_ok k (Ok (k, Some e)) = true.
Proof. intros k e [A B]. apply dl_some. change (2 ^ 20) with 0x100000 in B. lia. Qed.
Ltac dl_end := first [reflexivity | apply dl_some; lia | apply dl_rng; rng_].
Ltac tab_ti t ::= match constr:(tt) with _ => TabIn_cjk.ti_of t | _ => TabIn_sb.ti_of t end.
Ltac sx_call m ::= lazymatch m with tget ?t ?i _ => tab_get t i end.
Ltac dl_by2 := let a := fresh "a" in let b := fresh "b" in let A := fresh "A" in let B := fresh "B" in
  intros a b A B; apply dl_holds; sx; dl_end.
Ltac dl_by1 := let a := fresh "a" in let A := fresh "A" in intros a A; apply dl_holds; sx; dl_end.

Lemma dl_jisx0208 : forall a b, 0 <= a < 256 -> 0 <= b < 256 -> dl_out 2 (jisx0208_mbtowc [a; b] 2).
Proof. dl_by2. Qed.
Lemma tl_jisx0208 : forall a b tl, jisx0208_mbtowc (a :: b :: tl) 2 = jisx0208_mbtowc [a; b] 2.
Proof. reflexivity. Qed.
Lemma dl_jisx0212 : forall a b, 0 <= a < 256 -> 0 <= b < 256 -> dl_out 2 (jisx0212_mbtowc [a; b] 2).
Proof. dl_by2. Qed.
Lemma tl_jisx0212 : forall a b tl, jisx0212_mbtowc (a :: b :: tl) 2 = jisx0212_mbtowc [a; b] 2.
Proof. reflexivity. Qed.
Lemma dl_gb2312 : forall a b, 0 <= a < 256 -> 0 <= b < 256 -> dl_out 2 (gb2312_mbtowc [a; b] 2).
Proof. dl_by2. Qed.
Lemma tl_gb2312 : forall a b tl, gb2312_mbtowc (a :: b :: tl) 2 = gb2312_mbtowc [a; b] 2.
Proof. reflexivity. Qed.
Lemma dl_ksc5601 : forall a b, 0 <= a < 256 -> 0 <= b < 256 -> dl_out 2 (ksc5601_mbtowc [a; b] 2).
Proof. dl_by2. Qed.
Lemma tl_ksc5601 : forall a b tl, ksc5601_mbtowc (a :: b :: tl) 2 = ksc5601_mbtowc [a; b] 2.
Proof. reflexivity. Qed.
Lemma dl_isoir165 : forall a b, 0 <= a < 256 -> 0 <= b < 256 -> dl_out 2 (isoir165_mbtowc [a; b] 2).
Proof. dl_by2. Qed.
Lemma tl_isoir165 : forall a b tl, isoir165_mbtowc (a :: b :: tl) 2 = isoir165_mbtowc [a; b] 2.
Proof. reflexivity. Qed.
Lemma dl_cns11643_1 : forall a b, 0 <= a < 256 -> 0 <= b < 256 -> dl_out 2 (cns11643_1_mbtowc [a; b] 2).
Proof. dl_by2. Qed.
Lemma tl_cns11643_1 : forall a b tl, cns11643_1_mbtowc (a :: b :: tl) 2 = cns11643_1_mbtowc [a; b] 2.
Proof. reflexivity. Qed.
Lemma dl_cns11643_2 : forall a b, 0 <= a < 256 -> 0 <= b < 256 -> dl_out 2 (cns11643_2_mbtowc [a; b] 2).
Proof. dl_by2. Qed.
Lemma tl_cns11643_2 : forall a b tl, cns11643_2_mbtowc (a :: b :: tl) 2 = cns11643_2_mbtowc [a; b] 2.
Proof. reflexivity. Qed.
Lemma dl_cns11643_3 : forall a b, 0 <= a < 256 -> 0 <= b < 256 -> dl_out 2 (cns11643_3_mbtowc [a; b] 2).
Proof. dl_by2. Qed.
Lemma tl_cns11643_3 : forall a b tl, cns11643_3_mbtowc (a :: b :: tl) 2 = cns11643_3_mbtowc [a; b] 2.
Proof. reflexivity. Qed.
Lemma dl_cns11643_4 : forall a b, 0 <= a < 256 -> 0 <= b < 256 -> dl_out 2 (cns11643_4_mbtowc [a; b] 2).
Proof. dl_by2. Qed.
Lemma tl_cns11643_4 : forall a b tl, cns11643_4_mbtowc (a :: b :: tl) 2 = cns11643_4_mbtowc [a; b] 2.
Proof. reflexivity. Qed.
Lemma dl_cns11643_5 : forall a b, 0 <= a < 256 -> 0 <= b < 256 -> dl_out 2 (cns11643_5_mbtowc [a; b] 2).
Proof. dl_by2. Qed.
Lemma tl_cns11643_5 : forall a b tl, cns11643_5_mbtowc (a :: b :: tl) 2 = cns11643_5_mbtowc [a; b] 2.
Proof. reflexivity. Qed.
Lemma dl_cns11643_6 : forall a b, 0 <= a < 256 -> 0 <= b < 256 -> dl_out 2 (cns11643_6_mbtowc [a; b] 2).
Proof. dl_by2. Qed.
Lemma tl_cns11643_6 : forall a b tl, cns11643_6_mbtowc (a :: b :: tl) 2 = cns11643_6_mbtowc [a; b] 2.
Proof. reflexivity. Qed.
Lemma dl_cns11643_7 : forall a b, 0 <= a < 256 -> 0 <= b < 256 -> dl_out 2 (cns11643_7_mbtowc [a; b] 2).
Proof. dl_by2. Qed.
Lemma tl_cns11643_7 : forall a b tl, cns11643_7_mbtowc (a :: b :: tl) 2 = cns11643_7_mbtowc [a; b] 2.
Proof. reflexivity. Qed.
Lemma dl_iso8859_7 : forall a, 0 <= a < 256 -> dl_out 1 (iso8859_7_mbtowc [a] 1).
Proof. dl_by1. Qed.
Lemma dl_cp50221_0208_ext : forall a, 0 <= a < 256 -> dl_out 1 (cp50221_0208_ext_mbtowc [a] 1).
Proof. dl_by1. Qed.
Lemma dl_cp50221_0212_ext : forall a, 0 <= a < 256 -> dl_out 1 (cp50221_0212_ext_mbtowc [a] 1).
Proof. dl_by1. Qed.

Lemma pageed_in : forall i, 0 <= i < 376 -> exists v, tlookup cp932ext_2uni_pageed i = Some v /\ 0 <= v < 0x10000.
Proof. intros i H. destruct (ti_cp932ext_2uni_pageed i H) as (v & E & R). exists v. split; [exact E|lia]. Qed.
Ltac pageed_ i :=
  first
  [ match goal with E : tlookup cp932ext_2uni_pageed i = Some _ |- _ => apply (holds_tget _ _ _ _ _ _ _ E); cbv beta end
  | let E := fresh "E" in let v := fresh "v" in let R := fresh "R" in
    destruct (pageed_in i ltac:(lia)) as (v & E & R); apply (holds_tget _ _ _ _ _ _ _ E); cbv beta ].
Ltac dl_use E := apply (holds_of _ _ _ _ _ E); cbv beta iota; cbv [oset].
Ltac dl_call2 f T D l :=
  let l' := eval cbn [skipn] in l in
  lazymatch l' with
  | ?a :: ?b :: _ =>
    first
    [ match goal with E : f [a; b] 2%nat = _ |- _ => eapply holds_same; [apply (T a b)|]; dl_use E end
    | let E := fresh "E" in let W := fresh "W" in let R := fresh "R" in
      destruct (D a b ltac:(lia) ltac:(lia)) as [E|(W & R & E)];
      (eapply holds_same; [apply (T a b)|]; dl_use E) ]
  end.
Ltac dl_call1 f D a :=
  first
  [ match goal with E : f [a] 1%nat = _ |- _ => dl_use E end
  | let E := fresh "E" in let W := fresh "W" in let R := fresh "R" in
    destruct (D a ltac:(first [lia | apply u8_byte])) as [E|(W & R & E)]; dl_use E ].
Ltac dl_call m :=
  lazymatch m with
  | tget cp932ext_2uni_pageed ?i _ => pageed_ i
  | oget (oset _ (Some _)) _ => apply holds_oget; cbv beta
  | jisx0208_mbtowc ?l _ => dl_call2 jisx0208_mbtowc tl_jisx0208 dl_jisx0208 l
  | jisx0212_mbtowc ?l _ => dl_call2 jisx0212_mbtowc tl_jisx0212 dl_jisx0212 l
  | gb2312_mbtowc ?l _ => dl_call2 gb2312_mbtowc tl_gb2312 dl_gb2312 l
  | ksc5601_mbtowc ?l _ => dl_call2 ksc5601_mbtowc tl_ksc5601 dl_ksc5601 l
  | isoir165_mbtowc ?l _ => dl_call2 isoir165_mbtowc tl_isoir165 dl_isoir165 l
  | cns11643_1_mbtowc ?l _ => dl_call2 cns11643_1_mbtowc tl_cns11643_1 dl_cns11643_1 l
  | cns11643_2_mbtowc ?l _ => dl_call2 cns11643_2_mbtowc tl_cns11643_2 dl_cns11643_2 l
  | cns11643_3_mbtowc ?l _ => dl_call2 cns11643_3_mbtowc tl_cns11643_3 dl_cns11643_3 l
  | cns11643_4_mbtowc ?l _ => dl_call2 cns11643_4_mbtowc tl_cns11643_4 dl_cns11643_4 l
  | cns11643_5_mbtowc ?l _ => dl_call2 cns11643_5_mbtowc tl_cns11643_5 dl_cns11643_5 l
  | cns11643_6_mbtowc ?l _ => dl_call2 cns11643_6_mbtowc tl_cns11643_6 dl_cns11643_6 l
  | cns11643_7_mbtowc ?l _ => dl_call2 cns11643_7_mbtowc tl_cns11643_7 dl_cns11643_7 l
  | iso8859_7_mbtowc [?a] _ => dl_call1 iso8859_7_mbtowc dl_iso8859_7 a
  | cp50221_0208_ext_mbtowc [?a] _ => dl_call1 cp50221_0208_ext_mbtowc dl_cp50221_0208_ext a
  | cp50221_0212_ext_mbtowc [?a] _ => dl_call1 cp50221_0212_ext_mbtowc dl_cp50221_0212_ext a
  end.

(** ** Tactics for the decoders with shift sequences *)
Ltac h_cases H ::= let B := fresh in destruct H as [_ B]; cbn [snd] in B; subst.
Ltac h_norm ::= subst.
Ltac h_nf j ::= constr:(j).
Ltac sx_call m ::= dl_call m.
Ltac enum_ := repeat match goal with H : 0 <= ?x <= ?m |- _ => is_var x;
  lazymatch m with
  | 0 => assert (x = 0) by lia; subst x; clear H
  | _ => let m' := eval vm_compute in (m - 1) in let H' := fresh in assert (H' : x = m \/ 0 <= x <= m') by lia; clear H; destruct H' as [H|H]; [subst x|]
  end end.
Ltac unpack_ := enum_; reflexivity.
Lemma prod_inv : forall (P : Z -> Prop) i j, P (fst i) /\ snd i = 0 -> P (fst j) /\ snd j = 0 -> P (fst (fst i, snd j)) /\ snd (fst i, snd j) = 0.
Proof. intros P i j [A B] [C D]. split; auto. Qed.
Ltac iso_prove L He P Z :=
  match goal with |- dec_ok ?e ?u ?inv ?pend ?Q /\ _ => apply (loop_dec e u inv pend Q L) end;
    [ exact He
    | apply (prod_inv P)
    | intros; reflexivity
    | let s := fresh "s" in let ist := fresh "ist" in let ibo := fresh "ibo" in let S := fresh "S" in let B := fresh "B" in
      let Lm := fresh "Lm" in let A := fresh "A" in let H := fresh "H" in
      intros s [ist ibo] S B Lm [A H]; cbn [fst snd] in A, H; subst ibo; name_byte s B; [now contradiction S|]; clear S
    | split; [exact Z|reflexivity]
    | let A := fresh in let B := fresh in intros ? [A B]; split; [exact Z|exact B]
    | intros; reflexivity
    | intros; exact I ].
Ltac iso_name :=
  repeat match goal with B : bytes (_ :: _) |- _ => let R := fresh "R" in apply byte_in in B; destruct B as [R B] end.
Ltac w3 tl := let b0 := fresh "b" in let b1 := fresh "b" in destruct tl as [|b0 [|b1 tl]].
Ltac w4 tl := let b0 := fresh "b" in let b1 := fresh "b" in let b2 := fresh "b" in destruct tl as [|b0 [|b1 [|b2 tl]]].
Ltac iso_bytes esc w :=
  lazymatch goal with
  | |- hgoal _ _ _ _ _ (?b :: ?tl) _ =>
    let C := fresh "C" in destruct (Z.eq_dec b esc) as [C|C]; [subst b; w tl | let b0 := fresh "b" in destruct tl as [|b0 tl]]; iso_name
  end.
Ltac w2 tl := let b0 := fresh "b" in destruct tl as [|b0 tl].
