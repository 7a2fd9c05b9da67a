(** What the two-byte charset functions shared by the multi-byte decoders can return, and how those decoders
    are stepped through with that knowledge. *)
From Coq Require Import ZArith List Bool Lia.
From Verif Require Import Base Loop Contract LoopLib Reflect Sx Rng EncLib DecLib TabLib SbLib.
From Verif Require Import TabIn_sb TabIn_cjk.
From Verif Require Import Conv_uni Conv_sb Conv_set_ja Conv_set_zh Conv_set_ko Conv_cjk Encodings DLeaf.
Import ListNotations.
Open Scope Z_scope.

Ltac sx_call m ::= lazymatch m with tget ?t ?i _ => tab_get t i end.
(** Decides the conditions inside index computations first. *)
Lemma geb_at : forall x k, k <= x -> (x >=? k) = true.
Proof. intros x k H. rewrite Z.geb_leb. now apply Z.leb_le. Qed.
Lemma geb_below : forall x k, x < k -> (x >=? k) = false.
Proof. intros x k H. rewrite Z.geb_leb. now apply Z.leb_gt. Qed.
Ltac split_if x k :=
  first [rewrite (geb_at x k) by lia | rewrite (geb_below x k) by lia
  |let H := fresh in assert (H : k <= x \/ x < k) by lia; destruct H as [H|H];
   [rewrite (geb_at x k H)|rewrite (geb_below x k H)]]; cbv iota.
Ltac split_ifs := repeat match goal with |- context [_ - (if ?x >=? ?k then _ else _)] => split_if x k end.
Lemma u32_id : forall e, 0 <= e < 0x100000000 -> u32 e = e.
Proof. intros e H. apply Z.mod_small. exact H. Qed.
Lemma u32_neg : forall e, -0x100000000 <= e < 0 -> u32 e = e + 0x100000000.
Proof. intros e H. unfold u32. rewrite <- (Z.mod_add e 1) by lia. apply Z.mod_small. lia. Qed.
Ltac u32_in t := match t with context [u32 ?e] => 
  first [rewrite (u32_id e) in * by lia | rewrite (u32_neg e) in * by lia] end.
Ltac idx_in i := first [u32_in i | match i with context [if ?x >=? ?k then _ else _] => split_if x k end].
Ltac sx_pre b ::= u32_in b.
Ltac sx_call m ::= lazymatch m with tget ?t ?i _ => first [tab_get t i | idx_in i] end.
Ltac dl_byi f := let a := fresh "a" in let b := fresh "b" in let A := fresh "A" in let B := fresh "B" in
  intros a b A B; apply dl_holds; unfold f, rd; cbn [nth_error]; split_ifs; sx; dl_end.
Lemma dl_cp932ext : forall a b, 0 <= a < 256 -> 0 <= b < 256 -> dl_out 2 (cp932ext_mbtowc [a; b] 2).
Proof. dl_byi cp932ext_mbtowc. Qed.
Lemma t2_cp932ext : forall a b tl k, cp932ext_mbtowc (a :: b :: tl) (S (S k)) = cp932ext_mbtowc [a; b] 2.
Proof. reflexivity. Qed.
Lemma dl_big5 : forall a b, 0 <= a < 256 -> 0 <= b < 256 -> dl_out 2 (big5_mbtowc [a; b] 2).
Proof. dl_byi big5_mbtowc. Qed.
Lemma t2_big5 : forall a b tl k, big5_mbtowc (a :: b :: tl) (S (S k)) = big5_mbtowc [a; b] 2.
Proof. reflexivity. Qed.
Lemma dl_cp950ext : forall a b, 0 <= a < 256 -> 0 <= b < 256 -> dl_out 2 (cp950ext_mbtowc [a; b] 2).
Proof. dl_byi cp950ext_mbtowc. Qed.
Lemma t2_cp950ext : forall a b tl k, cp950ext_mbtowc (a :: b :: tl) (S (S k)) = cp950ext_mbtowc [a; b] 2.
Proof. reflexivity. Qed.
Lemma t2_gb2312 : forall a b tl k, gb2312_mbtowc (a :: b :: tl) (S (S k)) = gb2312_mbtowc [a; b] 2.
Proof. reflexivity. Qed.
Lemma dl_gbk : forall a b, 0 <= a < 256 -> 0 <= b < 256 -> dl_out 2 (gbk_mbtowc [a; b] 2).
Proof. dl_byi gbk_mbtowc. Qed.
Lemma t2_gbk : forall a b tl k, gbk_mbtowc (a :: b :: tl) (S (S k)) = gbk_mbtowc [a; b] 2.
Proof. reflexivity. Qed.
Lemma dl_gbkext1 : forall a b, 0 <= a < 256 -> 0 <= b < 256 -> dl_out 2 (gbkext1_mbtowc [a; b] 2).
Proof. dl_byi gbkext1_mbtowc. Qed.
Lemma t2_gbkext1 : forall a b tl k, gbkext1_mbtowc (a :: b :: tl) (S (S k)) = gbkext1_mbtowc [a; b] 2.
Proof. reflexivity. Qed.
Lemma dl_gbkext2 : forall a b, 0 <= a < 256 -> 0 <= b < 256 -> dl_out 2 (gbkext2_mbtowc [a; b] 2).
Proof. dl_byi gbkext2_mbtowc. Qed.
Lemma t2_gbkext2 : forall a b tl k, gbkext2_mbtowc (a :: b :: tl) (S (S k)) = gbkext2_mbtowc [a; b] 2.
Proof. reflexivity. Qed.
Lemma dl_hkscs1999 : forall a b, 0 <= a < 256 -> 0 <= b < 256 -> dl_out 2 (hkscs1999_mbtowc [a; b] 2).
Proof. dl_byi hkscs1999_mbtowc. Qed.
Lemma t2_hkscs1999 : forall a b tl k, hkscs1999_mbtowc (a :: b :: tl) (S (S k)) = hkscs1999_mbtowc [a; b] 2.
Proof. reflexivity. Qed.
Lemma dl_hkscs2001 : forall a b, 0 <= a < 256 -> 0 <= b < 256 -> dl_out 2 (hkscs2001_mbtowc [a; b] 2).
Proof. dl_byi hkscs2001_mbtowc. Qed.
Lemma t2_hkscs2001 : forall a b tl k, hkscs2001_mbtowc (a :: b :: tl) (S (S k)) = hkscs2001_mbtowc [a; b] 2.
Proof. reflexivity. Qed.
Lemma dl_hkscs2004 : forall a b, 0 <= a < 256 -> 0 <= b < 256 -> dl_out 2 (hkscs2004_mbtowc [a; b] 2).
Proof. dl_byi hkscs2004_mbtowc. Qed.
Lemma t2_hkscs2004 : forall a b tl k, hkscs2004_mbtowc (a :: b :: tl) (S (S k)) = hkscs2004_mbtowc [a; b] 2.
Proof. reflexivity. Qed.
Lemma dl_hkscs2008 : forall a b, 0 <= a < 256 -> 0 <= b < 256 -> dl_out 2 (hkscs2008_mbtowc [a; b] 2).
Proof. dl_byi hkscs2008_mbtowc. Qed.
Lemma t2_hkscs2008 : forall a b tl k, hkscs2008_mbtowc (a :: b :: tl) (S (S k)) = hkscs2008_mbtowc [a; b] 2.
Proof. reflexivity. Qed.
Lemma dl_isoir165ext : forall a b, 0 <= a < 256 -> 0 <= b < 256 -> dl_out 2 (isoir165ext_mbtowc [a; b] 2).
Proof. dl_byi isoir165ext_mbtowc. Qed.
Lemma t2_isoir165ext : forall a b tl k, isoir165ext_mbtowc (a :: b :: tl) (S (S k)) = isoir165ext_mbtowc [a; b] 2.
Proof. reflexivity. Qed.
Lemma dl_johab_hangul : forall a b, 0 <= a < 256 -> 0 <= b < 256 -> dl_out 2 (johab_hangul_mbtowc [a; b] 2).
Proof. dl_byi johab_hangul_mbtowc. Qed.
Lemma t2_johab_hangul : forall a b tl k, johab_hangul_mbtowc (a :: b :: tl) (S (S k)) = johab_hangul_mbtowc [a; b] 2.
Proof. reflexivity. Qed.
Lemma dl_uhc_1 : forall a b, 0 <= a < 256 -> 0 <= b < 256 -> dl_out 2 (uhc_1_mbtowc [a; b] 2).
Proof. dl_byi uhc_1_mbtowc. Qed.
Lemma t2_uhc_1 : forall a b tl k, uhc_1_mbtowc (a :: b :: tl) (S (S k)) = uhc_1_mbtowc [a; b] 2.
Proof. reflexivity. Qed.
Lemma dl_uhc_2 : forall a b, 0 <= a < 256 -> 0 <= b < 256 -> dl_out 2 (uhc_2_mbtowc [a; b] 2).
Proof. dl_byi uhc_2_mbtowc. Qed.
Lemma t2_uhc_2 : forall a b tl k, uhc_2_mbtowc (a :: b :: tl) (S (S k)) = uhc_2_mbtowc [a; b] 2.
Proof. reflexivity. Qed.
Lemma dl_cp936ext : forall a b, 0 <= a < 256 -> 0 <= b < 256 -> dl_out 2 (cp936ext_mbtowc [a; b] 2).
Proof. dl_byi cp936ext_mbtowc. Qed.
Lemma t2_cp936ext : forall a b tl k, cp936ext_mbtowc (a :: b :: tl) (S (S k)) = cp936ext_mbtowc [a; b] 2.
Proof. reflexivity. Qed.
Lemma dl_gb18030_2005_ext : forall a b, 0 <= a < 256 -> 0 <= b < 256 -> dl_out 2 (gb18030_2005_ext_mbtowc [a; b] 2).
Proof. dl_byi gb18030_2005_ext_mbtowc. Qed.
Lemma t2_gb18030_2005_ext : forall a b tl k, gb18030_2005_ext_mbtowc (a :: b :: tl) (S (S k)) = gb18030_2005_ext_mbtowc [a; b] 2.
Proof. reflexivity. Qed.
Lemma dl_gb18030_2022_ext : forall a b, 0 <= a < 256 -> 0 <= b < 256 -> dl_out 2 (gb18030_2022_ext_mbtowc [a; b] 2).
Proof. dl_byi gb18030_2022_ext_mbtowc. Qed.
Lemma t2_gb18030_2022_ext : forall a b tl k, gb18030_2022_ext_mbtowc (a :: b :: tl) (S (S k)) = gb18030_2022_ext_mbtowc [a; b] 2.
Proof. reflexivity. Qed.
Lemma t2_jisx0208 : forall a b tl k, jisx0208_mbtowc (a :: b :: tl) (S (S k)) = jisx0208_mbtowc [a; b] 2.
Proof. reflexivity. Qed.
Lemma t2_jisx0212 : forall a b tl k, jisx0212_mbtowc (a :: b :: tl) (S (S k)) = jisx0212_mbtowc [a; b] 2.
Proof. reflexivity. Qed.
Lemma t2_ksc5601 : forall a b tl k, ksc5601_mbtowc (a :: b :: tl) (S (S k)) = ksc5601_mbtowc [a; b] 2.
Proof. reflexivity. Qed.
Lemma t2_cns11643_1 : forall a b tl k, cns11643_1_mbtowc (a :: b :: tl) (S (S k)) = cns11643_1_mbtowc [a; b] 2.
Proof. reflexivity. Qed.
Lemma t2_cns11643_2 : forall a b tl k, cns11643_2_mbtowc (a :: b :: tl) (S (S k)) = cns11643_2_mbtowc [a; b] 2.
Proof. reflexivity. Qed.
Lemma t2_cns11643_3 : forall a b tl k, cns11643_3_mbtowc (a :: b :: tl) (S (S k)) = cns11643_3_mbtowc [a; b] 2.
Proof. reflexivity. Qed.
Lemma t2_cns11643_4 : forall a b tl k, cns11643_4_mbtowc (a :: b :: tl) (S (S k)) = cns11643_4_mbtowc [a; b] 2.
Proof. reflexivity. Qed.
Lemma t2_cns11643_5 : forall a b tl k, cns11643_5_mbtowc (a :: b :: tl) (S (S k)) = cns11643_5_mbtowc [a; b] 2.
Proof. reflexivity. Qed.
Lemma t2_cns11643_6 : forall a b tl k, cns11643_6_mbtowc (a :: b :: tl) (S (S k)) = cns11643_6_mbtowc [a; b] 2.
Proof. reflexivity. Qed.
Lemma t2_cns11643_7 : forall a b tl k, cns11643_7_mbtowc (a :: b :: tl) (S (S k)) = cns11643_7_mbtowc [a; b] 2.
Proof. reflexivity. Qed.
Lemma dl_cns11643_15 : forall a b, 0 <= a < 256 -> 0 <= b < 256 -> dl_out 2 (cns11643_15_mbtowc [a; b] 2).
Proof. dl_byi cns11643_15_mbtowc. Qed.
Lemma t2_cns11643_15 : forall a b tl k, cns11643_15_mbtowc (a :: b :: tl) (S (S k)) = cns11643_15_mbtowc [a; b] 2.
Proof. reflexivity. Qed.

Ltac dj_rng := first [lia | solve [byte_ifs]].
Ltac dj_call f T D l n :=
  let l' := eval cbv [lbuf lbuf_ lfind Nat.sub Nat.eqb wr skipn] in l in
  lazymatch l' with
  | ?a :: ?b :: ?tl =>
    first
    [ match goal with E : f [a; b] 2%nat = _ |- _ => eapply holds_same; [exact (T a b tl _)|]; dl_use E end
    | let E := fresh "E" in let W := fresh "W" in let R := fresh "R" in
      destruct (D a b ltac:(dj_rng) ltac:(dj_rng)) as [E|(W & R & E)];
      (eapply holds_same; [exact (T a b tl _)|]; dl_use E) ]
  end.
Ltac djk_call m :=
  lazymatch m with
  | tget ?t ?i _ => first [tab_get t i | idx_in i]
  | oget (oset _ (Some _)) _ => apply holds_oget; cbv beta
  | cp932ext_mbtowc ?l ?n => dj_call cp932ext_mbtowc t2_cp932ext dl_cp932ext l n
  | big5_mbtowc ?l ?n => dj_call big5_mbtowc t2_big5 dl_big5 l n
  | cp950ext_mbtowc ?l ?n => dj_call cp950ext_mbtowc t2_cp950ext dl_cp950ext l n
  | gb2312_mbtowc ?l ?n => dj_call gb2312_mbtowc t2_gb2312 dl_gb2312 l n
  | gbk_mbtowc ?l ?n => dj_call gbk_mbtowc t2_gbk dl_gbk l n
  | gbkext1_mbtowc ?l ?n => dj_call gbkext1_mbtowc t2_gbkext1 dl_gbkext1 l n
  | gbkext2_mbtowc ?l ?n => dj_call gbkext2_mbtowc t2_gbkext2 dl_gbkext2 l n
  | hkscs1999_mbtowc ?l ?n => dj_call hkscs1999_mbtowc t2_hkscs1999 dl_hkscs1999 l n
  | hkscs2001_mbtowc ?l ?n => dj_call hkscs2001_mbtowc t2_hkscs2001 dl_hkscs2001 l n
  | hkscs2004_mbtowc ?l ?n => dj_call hkscs2004_mbtowc t2_hkscs2004 dl_hkscs2004 l n
  | hkscs2008_mbtowc ?l ?n => dj_call hkscs2008_mbtowc t2_hkscs2008 dl_hkscs2008 l n
  | isoir165ext_mbtowc ?l ?n => dj_call isoir165ext_mbtowc t2_isoir165ext dl_isoir165ext l n
  | johab_hangul_mbtowc ?l ?n => dj_call johab_hangul_mbtowc t2_johab_hangul dl_johab_hangul l n
  | uhc_1_mbtowc ?l ?n => dj_call uhc_1_mbtowc t2_uhc_1 dl_uhc_1 l n
  | uhc_2_mbtowc ?l ?n => dj_call uhc_2_mbtowc t2_uhc_2 dl_uhc_2 l n
  | cp936ext_mbtowc ?l ?n => dj_call cp936ext_mbtowc t2_cp936ext dl_cp936ext l n
  | gb18030_2005_ext_mbtowc ?l ?n => dj_call gb18030_2005_ext_mbtowc t2_gb18030_2005_ext dl_gb18030_2005_ext l n
  | gb18030_2022_ext_mbtowc ?l ?n => dj_call gb18030_2022_ext_mbtowc t2_gb18030_2022_ext dl_gb18030_2022_ext l n
  | jisx0208_mbtowc ?l ?n => dj_call jisx0208_mbtowc t2_jisx0208 dl_jisx0208 l n
  | jisx0212_mbtowc ?l ?n => dj_call jisx0212_mbtowc t2_jisx0212 dl_jisx0212 l n
  | ksc5601_mbtowc ?l ?n => dj_call ksc5601_mbtowc t2_ksc5601 dl_ksc5601 l n
  | cns11643_1_mbtowc ?l ?n => dj_call cns11643_1_mbtowc t2_cns11643_1 dl_cns11643_1 l n
  | cns11643_2_mbtowc ?l ?n => dj_call cns11643_2_mbtowc t2_cns11643_2 dl_cns11643_2 l n
  | cns11643_3_mbtowc ?l ?n => dj_call cns11643_3_mbtowc t2_cns11643_3 dl_cns11643_3 l n
  | cns11643_4_mbtowc ?l ?n => dj_call cns11643_4_mbtowc t2_cns11643_4 dl_cns11643_4 l n
  | cns11643_5_mbtowc ?l ?n => dj_call cns11643_5_mbtowc t2_cns11643_5 dl_cns11643_5 l n
  | cns11643_6_mbtowc ?l ?n => dj_call cns11643_6_mbtowc t2_cns11643_6 dl_cns11643_6 l n
  | cns11643_7_mbtowc ?l ?n => dj_call cns11643_7_mbtowc t2_cns11643_7 dl_cns11643_7 l n
  | cns11643_15_mbtowc ?l ?n => dj_call cns11643_15_mbtowc t2_cns11643_15 dl_cns11643_15 l n
  end.
